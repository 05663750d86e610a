(** C95 for the whole program: from the characters of an MCNP file, the second and every later conversion to MCNP give the same
    characters (csg2csg/__main__.py 74-134, MCNPInput.py 1303-1412). *)
From Coq Require Import QArith Qabs Reals Lra Lia Permutation.
From Verif Require Import PyStr PyStrFacts PyInt PyIntFacts PyDict FortranNumber RegionSpec RegionFacts LexSpec CellModel CellProofs CellText CellWritersProofs
  CellWritersOut SurfModel GeomSpec SurfSpec SurfWritersProofs SurfTargets FlattenModel NotsModel BoundaryModel DedupeModel MaterialModel MaterialProofs PropMaterial
  PropMaterialOut PropMaterialTargets KeywordModel DeckScan FileModel FileProofs PropKeyword PropDeck ProcessModel PropProcess PropRead ConvertModel LayoutProofs
  MainModel PropPlace PropMain PropCards PropProgram PropTexts PropFile.
From Verif Require Import NamesModel MacroModel FlattenProofs ProcessSpec PropVacuum PropProgramMcnp PropFixpoint.
From Verif Require PropProgramPhits AgainMat PropAgainProgram DedupeProofs PropDedupe.
Open Scope nat_scope.
Open Scope list_scope.

(* ------------------------------------------------------------------ *)
(** * No duplicate is left *)

Lemma deduped_distinct surfs cells surfs' cells' : remove_duplicates surfs cells = Some (surfs', cells') -> distinct surfs'.
Proof.
  intro R. unfold remove_duplicates in R. destruct (entries 0 surfs) as [es|] eqn:Es; [|discriminate].
  destruct (mapM (replace_cell (find_dups es)) cells) as [cs|]; [|discriminate]. injection R as <- _.
  assert (U := PropDedupe.run_uniq surfs es Es). destruct (PropDedupe.entries_ok _ _ _ Es) as (_ & Eg & _).
  assert (NE : NoDup es) by (apply (NoDup_map_inv e_ix); exact U).
  intros i j s o NIJ HI HJ (g & g' & G1 & G2 & G3 & G4). unfold keep in HI, HJ. rewrite nth_error_map in HI, HJ.
  set (l := filter _ es) in *. assert (NL : NoDup l) by (apply NoDup_filter; exact NE).
  destruct (nth_error l i) as [e|] eqn:EI; [|discriminate]. destruct (nth_error l j) as [k|] eqn:EJ; [|discriminate]. injection HI as <-. injection HJ as <-.
  assert (NEK : e <> k).
  { intros ->. apply NIJ. apply (proj1 (NoDup_nth_error l) NL); [apply nth_error_Some; congruence|congruence]. }
  apply nth_error_In in EI, EJ. unfold l in EI, EJ. apply filter_In in EI as [Ie Fe], EJ as [Ik Fk].
  apply negb_true_iff in Fe, Fk. apply DedupeProofs.lookup_none in Fe, Fk.
  rewrite (Eg e Ie) in G1. injection G1 as <-. rewrite (Eg k Ik) in G2. injection G2 as <-.
  assert (SB : DedupeProofs.sameb e k <> None).
  { apply DedupeProofs.sameb_iff. split; [now symmetry|]. destruct G4 as [G4|G4]; [left; now symmetry|right]. rewrite G4. reflexivity. }
  destruct (in_split _ _ Ie) as (a & b & E). rewrite E in Ik, Fe, Fk, U.
  apply in_app_or in Ik as [Ik|[Ik|Ik]]; [|congruence|].
  - destruct (in_split _ _ Ik) as (a1 & a2 & ->). rewrite <- app_assoc in Fk, U. cbn [app] in Fk, U. rewrite DedupeProofs.find_dups_lookup in Fk by exact U.
    apply SB. apply (proj1 (DedupeProofs.last_match_none k _) Fk e). apply in_elt.
  - rewrite DedupeProofs.find_dups_lookup in Fe by exact U. apply DedupeProofs.sameb_sym in SB. apply SB. now apply (proj1 (DedupeProofs.last_match_none e b)).
Qed.

(** The surfaces of the deck after a run that removes duplicates. *)
Lemma load_distinct str show fuel s d : load str show fuel false s = Done d -> distinct (map fst (d_surfs d)).
Proof.
  unfold load. destruct (read_file fuel s) as [p|]; [|discriminate]. unfold in_memory. destruct (process_importances (f_imps p)) as [imps|]; [|discriminate].
  destruct (process fuel _) as [o| |] eqn:EP; try discriminate.
  destruct (mapM (universe_placing (f_trans p)) (map snd (f_cells p))) as [ps|]; [|discriminate].
  destruct (reorganise_materials show (f_mats p) _) as [[ms cs]|]; [|discriminate]. intro E. injection E as <-. cbn [ConvertModel.d_surfs].
  rewrite map_map. cbn [fst]. rewrite map_id. unfold process in EP. destruct (flatten_macrobodies _) as [d|]; [|discriminate].
  destruct (explode_nots _ _) as [cells| |]; try discriminate. destruct (mapM _ (FlattenModel.d_surfs d)) as [surfs|]; [|discriminate].
  destruct (apply_boundary_conditions _ _ _) as [[cells' surfs']|]; [|discriminate]. destruct (bounding_coordinates _ _) as [bc|]; [|discriminate].
  unfold finish in EP. cbn [i_quick] in EP. destruct (remove_duplicates surfs' (map fst cells')) as [[s2 c2]|] eqn:R; [|discriminate]. injection EP as <-. cbn [o_surfs].
  exact (deduped_distinct _ _ _ _ R).
Qed.

(* ------------------------------------------------------------------ *)
(** * A universe that is turned is also placed *)

Lemma placed_offset c k ts pl : keywords_read (cs_keys c) k -> universe_placing ts k = Some pl -> p_offset pl = None -> p_rot pl = None.
Proof.
  intros (_ & _ & KF & KN & _) E N. unfold universe_placing in E.
  destruct (text_eqb (k_trid k) (T "0")) eqn:ET; [|destruct (dget (k_trid k) ts); [|discriminate]; injection E as <-; discriminate N].
  injection E as <-. unfold card_placing in *. cbn [p_offset p_rot] in *. destruct (has_fill c) as [(star & v & tr & H)|H].
  - destruct (KF star v tr H) as [_ TR]. unfold transformation_read in TR. destruct tr as [[sep inner]|]; [|destruct TR as (_ & _ & ->); reflexivity].
    destruct (words inner) as [|a [|b [|e r]]]; try contradiction; [destruct TR as (_ & _ & ->); reflexivity|]. destruct TR as (_ & O & _). rewrite O in N. discriminate.
  - destruct (KN H) as (_ & _ & _ & ->). reflexivity.
Qed.

Lemma load_placed str show fuel quick s cells ss ds d : describes s cells ss ds -> load str show (S fuel) quick s = Done d ->
  forall g, In g (d_cells d) -> g_offset g = None -> g_rot g = None.
Proof.
  intros (title & noisy & cs & b1 & b2 & dd & H1 & H2 & H3 & H4 & H5 & H6 & H7 & SC & SS & SD & -> & ->) L g I N.
  destruct (file_read s title noisy cs b1 ss b2 dd) as (p & R & _ & FC & _); auto.
  unfold load, in_memory in L. rewrite R in L. destruct (process_importances (f_imps p)) as [imps|]; [|discriminate].
  destruct (process (S fuel) _) as [o| |]; try discriminate.
  destruct (mapM (universe_placing (f_trans p)) (map snd (f_cells p))) as [ps|] eqn:EP; [|discriminate].
  destruct (reorganise_materials show (f_mats p) _) as [[ms ks]|]; [|discriminate]. injection L as <-. cbn [ConvertModel.d_cells] in I.
  apply In_nth_error in I as (k & EG). apply gcells_nth in EG as (x & kw & pl & m & _ & EK & EPL & _ & ->). cbn [gcell_of g_offset g_rot] in *.
  apply PropDedupe.mapM_forall2 in EP. assert (UP := forall2_nth _ _ _ EP k kw pl EK EPL). cbn beta in UP.
  apply nth_error_In in EK. apply in_map_iff in EK as (y & <- & IY). destruct (forall2_in_right _ _ _ y FC IY) as (c & _ & (_ & _ & _ & _ & _ & KR) & _).
  destruct (p_offset pl) as [l|] eqn:EO; [discriminate|]. now rewrite (placed_offset _ _ _ _ KR UP EO).
Qed.

(* ------------------------------------------------------------------ *)
(** * The fractions of a composition *)

Lemma made_plain es c : good_entries es -> made_of es c -> plain_comp c.
Proof.
  intros G M. destruct (AgainMat.made_total es c G M) as (k & KP & KT & TT). split.
  - rewrite sum_q_total, TT, Qabs_Qmult, (Qabs_pos k) by (apply Qlt_le_weak; exact KP). exact KT.
  - intros e z I E. destruct (AgainMat.key_plain es c G M (fst e)) as (_ & n & E' & _ & H); [now apply in_map|]. rewrite E in E'. injection E' as <-. exact H.
Qed.

(* ------------------------------------------------------------------ *)
(** * The deck of a file *)

Section Deck.
Context (str : R -> text) (show : Q -> text) (quick : bool) (s : text) (cells : list cell_says) (ss : list (card * surf_says)) (ds : list data_says).
Context (rank : Z -> nat) (d : ConvertModel.deck) (N : nat).
Context (DS : describes s cells ss ds) (G : good_cards cells (map snd ss) ds rank) (L : forall fuel, N <= fuel -> load str show fuel quick s = Done d).
Context (D : deck_means str show cells (map snd ss) ds d) (EX : exact_deck str show cells d) (RS : respects show).

(** A cell that has a material has one on its card. *)
Lemma card_material g : In g (d_cells d) -> g_mat g <> 0%Z -> exists k c m q, nth_error (d_cells d) k = Some g /\ nth_error cells k = Some c /\
  cs_mat c = Some (m, q) /\ cell_means str show cells (map snd ss) ds d k c g.
Proof.
  intros I NM. apply In_nth_error in I as (k & EG). destruct (nth_there _ _ k g (dm_count _ _ _ _ _ _ D) EG) as (c & EC).
  assert (M := dm_cells _ _ _ _ _ _ D k c g EC EG). destruct (cs_mat c) as [[m q]|] eqn:E; [now exists k, c, m, q|].
  elim NM. exact (cm_void _ _ _ _ _ _ _ _ _ M E).
Qed.

Lemma deck_settled : settled show quick d.
Proof.
  destruct EX as (_ & _ & E3). split; [|split; [|split; [|split; [|split]]]].
  - apply Forall_forall. intros x I. exact (dm_bc _ _ _ _ _ _ D x I).
  - destruct quick eqn:Q; [now left|right]. apply (load_distinct str show N s d). apply L. lia.
  - intros g v I NM E. destruct (card_material g I NM) as (k & c & m & q & EG & EC & ECM & M).
    destruct (cm_mat _ _ _ _ _ _ _ _ _ M m q ECM) as (ED & _). rewrite ED in E |- *. destruct (E3 c m q (nth_error_In _ _ EC) ECM) as (w & W & WQ).
    rewrite E in W. injection W as <-. now apply RS.
  - intros g g' v v' I I' EM NM E E'. destruct (card_material g I NM) as (k & c & m & q & EG & EC & ECM & M).
    destruct (card_material g' I') as (k' & c' & m' & q' & EG' & EC' & ECM' & M'); [congruence|].
    destruct (cm_mat _ _ _ _ _ _ _ _ _ M m q ECM) as (ED & _). destruct (cm_mat _ _ _ _ _ _ _ _ _ M' m' q' ECM') as (ED' & _). rewrite ED in E. rewrite ED' in E'.
    destruct (E3 c m q (nth_error_In _ _ EC) ECM) as (w & W & WQ). destruct (E3 c' m' q' (nth_error_In _ _ EC') ECM') as (w' & W' & WQ').
    rewrite E in W. injection W as <-. rewrite E' in W'. injection W' as <-. rewrite WQ, WQ'.
    now apply (proj1 (dm_share _ _ _ _ _ _ D k k' c c' g g' m m' q q' EC EC' EG EG' ECM ECM')).
  - intros g I _. apply (load_placed str show N quick s cells ss ds d DS); [apply L; lia|exact I].
  - intros k a I (g & IG & NM). destruct (card_material g IG NM) as (i & c & m & q & EG & EC & ECM & _).
    destruct (dm_mats _ _ _ _ _ _ D k a I) as (_ & n & es & LF & MO). destruct MO as [MA _]; [exists c; split; [now apply (nth_error_In _ i)|congruence]|].
    apply (made_plain es); [exact (gc_mats _ _ _ _ G n es LF)|exact MA].
Qed.

Lemma deck_complete : complete d.
Proof.
  split.
  - intros g w z I _ IW E. apply In_nth_error in I as (k & EG). destruct (nth_there _ _ k g (dm_count _ _ _ _ _ _ D) EG) as (c & EC).
    apply (cm_surfs _ _ _ _ _ _ _ _ _ (dm_cells _ _ _ _ _ _ D k c g EC EG)). exists w, z. split; [now apply in_words_of|now split].
  - intros g I NM. destruct (card_material g I NM) as (k & c & m & q & EG & EC & ECM & M).
    destruct (cm_mat _ _ _ _ _ _ _ _ _ M m q ECM) as (_ & _ & a & A & _). apply dget_some_in in A. unfold keys. apply in_map_iff. now exists (str_Z (g_mat g), a).
Qed.
End Deck.

(** C95, the program: an MCNP file is converted to MCNP, what was written is converted again, and that once more.  If the numbers
    of the deck in memory are printed exactly ([exact_deck]) and equal numbers are printed alike, all three conversions end, and
    the third writes the characters of the second.  (Missing, because false or not modelled: what C73 and C83 leave out;
    that the second writes the characters of the first is refuted, see [C95_once_refuted].) *)
Theorem C95_program_partial str show nuclide_order universe_order quick s cells ss ds rank :
  describes s cells ss ds -> good_cards cells (map snd ss) ds rank -> fine_cards quick (trs_of ds) ss -> uncut_cards ss ->
  printable show cells ss ds -> mcnp_nuclides cells ds -> (forall x, numeral (str x)) -> (forall q, numeral (show q)) -> respects show ->
  exists N0 d, (forall fuel, N0 <= fuel -> load str show fuel quick s = Done d) /\ (exact_deck str show cells d ->
  exists N t1 t2, forall fuel, N <= fuel ->
    program str show fuel nuclide_order universe_order quick [MCNP] s = Done ([(MCNP, File t1)], Some d) /\
    (exists d1, program str show fuel nuclide_order universe_order quick [MCNP] t1 = Done ([(MCNP, File t2)], Some d1)) /\
    (exists d2, program str show fuel nuclide_order universe_order quick [MCNP] t2 = Done ([(MCNP, File t2)], Some d2))).
Proof.
  intros DS G FW UCC PR SN NS NQ RS.
  destruct (read_deck str show quick s cells ss ds rank DS G FW) as (N & d & L & D & UC & _). specialize (UC UCC).
  exists N, d. split; [exact L|]. intro EXD.
  assert (POS : forall c, In c cells -> (0 < cs_id c)%Z) by (intros c I; now apply (gc_cells _ _ _ _ G c)).
  destruct (deck_printed str show quick s cells ss ds d N DS PR) as [DP GE]; [|exact (gc_pos _ _ _ _ G)|exact L|].
  { intros c m q IC EC. apply numeral_newline. now apply (pr_dens _ _ _ _ PR c m q). }
  assert (SD := deck_for_mcnp str show cells ss ds d NS NQ D DP UC PR POS GE (gc_fill _ _ _ _ G) SN (gc_mats _ _ _ _ G) EXD).
  assert (ST := deck_settled str show quick s cells ss ds rank d N DS G L D EXD RS).
  destruct (C95_second str show quick d SD ST RS (deck_complete str show cells ss ds d D)) as (K & t1 & t2 & W & H).
  exists (S (Nat.max N K)), t1, t2. intros [|fuel] HF; [lia|]. destruct (H fuel) as (d2 & L2 & W2 & d3 & L3 & W3). split; [|split].
  - unfold program. rewrite L by lia. cbn [run write_code]. rewrite W by lia. reflexivity.
  - exists d2. unfold program. rewrite L2. cbn [run write_code]. rewrite W2 by lia. reflexivity.
  - exists d3. unfold program. rewrite L3. cbn [run write_code]. rewrite W3 by lia. reflexivity.
Qed.
Print Assumptions C95_program_partial.

(** The MCNP file that one conversion writes, and a number of conversions, each of what the last one wrote. *)
Definition rewritten str show nuclide_order universe_order quick fuel (t : text) : option text :=
  match program str show fuel nuclide_order universe_order quick [MCNP] t with Done ([(MCNP, File t')], Some _) => Some t' | _ => None end.
Fixpoint conversions str show nuclide_order universe_order quick fuel (n : nat) (t : text) : option text :=
  match n with
  | 0 => Some t
  | S n' => match conversions str show nuclide_order universe_order quick fuel n' t with
            | Some t' => rewritten str show nuclide_order universe_order quick fuel t'
            | None => None
            end
  end.

(** C95: however often the program is applied to what it wrote, every conversion ends, and from the second on the file has the
    same characters. *)
Theorem C95_always_partial str show nuclide_order universe_order quick s cells ss ds rank :
  describes s cells ss ds -> good_cards cells (map snd ss) ds rank -> fine_cards quick (trs_of ds) ss -> uncut_cards ss ->
  printable show cells ss ds -> mcnp_nuclides cells ds -> (forall x, numeral (str x)) -> (forall q, numeral (show q)) -> respects show ->
  exists N0 d, (forall fuel, N0 <= fuel -> load str show fuel quick s = Done d) /\ (exact_deck str show cells d ->
  exists N t1 t2, forall fuel, N <= fuel ->
    conversions str show nuclide_order universe_order quick fuel 1 s = Some t1 /\
    forall n, conversions str show nuclide_order universe_order quick fuel (2 + n) s = Some t2).
Proof.
  intros DS G FW UCC PR SN NS NQ RS.
  destruct (C95_program_partial str show nuclide_order universe_order quick s cells ss ds rank DS G FW UCC PR SN NS NQ RS) as (N0 & d & L & H).
  exists N0, d. split; [exact L|]. intro E. destruct (H E) as (N & t1 & t2 & P). exists N, t1, t2. intros fuel HF. destruct (P fuel HF) as (P1 & (d1 & P2) & (d2 & P3)).
  assert (C1 : conversions str show nuclide_order universe_order quick fuel 1 s = Some t1) by (cbn [conversions]; unfold rewritten; now rewrite P1).
  split; [exact C1|]. induction n as [|n IH].
  - change (2 + 0) with (S 1). cbn [conversions] in C1 |- *. rewrite C1. unfold rewritten. now rewrite P2.
  - change (2 + S n) with (S (2 + n)). remember (2 + n) as k eqn:EK. cbn [conversions]. rewrite IH. unfold rewritten. now rewrite P3.
Qed.
Print Assumptions C95_always_partial.

(* ------------------------------------------------------------------ *)
(** * An example *)

Lemma show88_respects : respects show88.
Proof.
  intros a b E. unfold show88. assert (X : forall c, Qeq_bool a c = Qeq_bool b c).
  { intro c. destruct (Qeq_bool a c) eqn:A, (Qeq_bool b c) eqn:B; try reflexivity; exfalso.
    - apply Qeq_bool_iff in A. apply Qeq_bool_neq in B. apply B. now rewrite <- E.
    - apply Qeq_bool_iff in B. apply Qeq_bool_neq in A. apply A. now rewrite E. }
  now rewrite !X.
Qed.

(** The file of C84 for MCNP (a ball in a universe that fills a larger one, moved by 1 along x, and the outside), converted three times. *)
Example C95_program_example nuclide_order universe_order quick : exists N t1 t2, forall fuel, N <= fuel ->
  (exists d, program str88 show88 fuel nuclide_order universe_order quick [MCNP] file88 = Done ([(MCNP, File t1)], Some d)) /\
  (exists d1, program str88 show88 fuel nuclide_order universe_order quick [MCNP] t1 = Done ([(MCNP, File t2)], Some d1)) /\
  (exists d2, program str88 show88 fuel nuclide_order universe_order quick [MCNP] t2 = Done ([(MCNP, File t2)], Some d2)).
Proof.
  destruct (C95_program_partial str88 show88 nuclide_order universe_order quick file88 _ surfs86 _ Z.to_nat describes88 good_cards88 (fine_cards88 quick) uncut_cards86 printable88
    nuclides88 str88_numeral show88_numeral show88_respects) as (N0 & d & L & H).
  destruct H as (N & t1 & t2 & H).
  { destruct (read_deck str88 show88 quick file88 _ surfs86 _ Z.to_nat describes88 good_cards88 (fine_cards88 quick)) as (N1 & d1 & L1 & D & _).
    assert (E : d1 = d) by (assert (A := L (max N0 N1)); assert (B := L1 (max N0 N1)); rewrite A in B by lia; specialize (B ltac:(lia)); now injection B). subst d1.
    exact (exact88 d N0 quick L D). }
  exists N, t1, t2. intros fuel LE. destruct (H fuel LE) as (A & B & C). split; [now exists d|now split].
Qed.

(** The same file, converted any number of times. *)
Example C95_always_example nuclide_order universe_order quick : exists N t1 t2, forall fuel, N <= fuel ->
  conversions str88 show88 nuclide_order universe_order quick fuel 1 file88 = Some t1 /\
  forall n, conversions str88 show88 nuclide_order universe_order quick fuel (2 + n) file88 = Some t2.
Proof.
  destruct (C95_always_partial str88 show88 nuclide_order universe_order quick file88 _ surfs86 _ Z.to_nat describes88 good_cards88 (fine_cards88 quick) uncut_cards86 printable88
    nuclides88 str88_numeral show88_numeral show88_respects) as (N0 & d & L & H).
  apply H. destruct (read_deck str88 show88 quick file88 _ surfs86 _ Z.to_nat describes88 good_cards88 (fine_cards88 quick)) as (N1 & d1 & L1 & D & _).
  assert (E : d1 = d) by (assert (A := L (max N0 N1)); assert (B := L1 (max N0 N1)); rewrite A in B by lia; specialize (B ltac:(lia)); now injection B). subst d1.
  exact (exact88 d N0 quick L D).
Qed.

(* ------------------------------------------------------------------ *)
(** * C91 for any number of conversions *)

(** The deck with other names for the materials is the same deck. *)
Lemma called_means str show cells surfs ds d : deck_means str show cells surfs ds d -> deck_means str show cells surfs ds (called_all d).
Proof.
  intros [A1 A2 A3 A4 A5 A6 A7 A8 A9]. split; auto.
  - intros k c g EC EG. destruct (A4 k c g EC EG) as [B1 B2 B3 B4 B5 B6 B7 B8 B9 B10 B11 B12]. split; auto.
    intros m q E. destruct (B4 m q E) as (C1 & C2 & a & C3 & C4). split; [exact C1|]. split; [exact C2|]. exists (called (str_Z (g_mat g)) a).
    split; [unfold called_all; cbn [d_mats]; now apply called_get|exact C4].
  - unfold called_all. cbn [d_mats]. now rewrite called_keys.
  - intros k a I. unfold called_all in I. cbn [d_mats] in I. apply called_in in I as (a0 & I & ->). exact (A7 k a0 I).
Qed.

(** The file that is written for a deck that means the cards is read into one that means them. *)
Lemma deck_file_again str show quick cells (ss : list (card * surf_says)) ds rank d :
  good_cards cells (map snd ss) ds rank -> mcnp_nuclides cells ds -> deck_means str show cells (map snd ss) ds d -> good_deck str show d -> exact_deck str show cells d ->
  PropAgainProgram.exact_motions str cells ds -> d_mats d <> [] -> (exists c, In c cells /\ cs_mat c <> None) -> (quick = true \/ forall x, In x (d_surfs d) -> torus_ok (fst x)) ->
  exists K t N2 d2, (forall fuel, K <= fuel -> mcnp_file str show fuel d = Some t) /\ (forall fuel, N2 <= fuel -> load str show fuel quick t = Done d2) /\
    length (d_cells d2) = length cells /\
    forall k c g, nth_error cells k = Some c -> nth_error (d_cells d2) k = Some g -> PropAgainProgram.cell_again str show cells (map snd ss) ds d2 k c g.
Proof.
  intros G SN D SD EXD EM NM WM TO.
  destruct (PropAgain.C91_file_partial str show d SD) as (K & t & cells2 & ss2 & l & W & DS2 & FC & FS & NL & LI); [|exact NM|].
  { apply Forall_forall. intros x I. now apply (dm_bc _ _ _ _ _ _ D). }
  assert (G2 : good_cards cells2 (map snd ss2) (map (fun m => DMat (m_num m) (PropAgain.mat_entries show m)) l) (fun _ => 0)).
  { apply (PropAgainProgram.cards_again str show cells (map snd ss) ds d); auto; apply G. }
  assert (F2 : fine_cards quick (trs_of (map (fun m => DMat (m_num m) (PropAgain.mat_entries show m)) l)) ss2).
  { now apply (PropAgainProgram.fine_again show d ss2 l FS). }
  destruct (read_deck str show quick t cells2 ss2 _ _ DS2 G2 F2) as (N2 & d2 & L2 & D2 & _). exists K, t, N2, d2. split; [exact W|]. split; [exact L2|]. split.
  - rewrite (dm_count _ _ _ _ _ _ D2), <- (forall2_len _ _ _ FC). exact (dm_count _ _ _ _ _ _ D).
  - intros k c g EC EG. apply (PropAgainProgram.cells_again str show cells (map snd ss) ds d) with (cells2 := cells2) (ss2 := ss2) (l := l); auto; apply G.
Qed.

(** C91, any number of conversions: however often the program is applied to what it wrote, every conversion ends, and the deck that
    is made of the file it wrote is the one the first file describes ([cell_again]).  (Missing, because false or not
    modelled: what C91_again_partial leaves out.) *)
Theorem C91_always_partial str show nuclide_order universe_order quick s cells ss ds rank :
  describes s cells ss ds -> good_cards cells (map snd ss) ds rank -> fine_cards quick (trs_of ds) ss -> uncut_cards ss ->
  printable show cells ss ds -> mcnp_nuclides cells ds -> (forall x, numeral (str x)) -> (forall q, numeral (show q)) -> respects show ->
  (exists c, In c cells /\ cs_mat c <> None) -> PropAgainProgram.exact_motions str cells ds ->
  exists N0 d, (forall fuel, N0 <= fuel -> load str show fuel quick s = Done d) /\ (exact_deck str show cells d ->
  exists N, forall n, exists t d', (forall fuel, N <= fuel -> conversions str show nuclide_order universe_order quick fuel (S n) s = Some t /\ load str show fuel quick t = Done d') /\
    length (d_cells d') = length cells /\
    forall k c g, nth_error cells k = Some c -> nth_error (d_cells d') k = Some g -> PropAgainProgram.cell_again str show cells (map snd ss) ds d' k c g).
Proof.
  intros DS G FW UCC PR SN NS NQ RS WM EM.
  destruct (C95_always_partial str show nuclide_order universe_order quick s cells ss ds rank DS G FW UCC PR SN NS NQ RS) as (N & d & L & HA).
  destruct (read_deck str show quick s cells ss ds rank DS G FW) as (N' & d0 & L' & D & UC & _). specialize (UC UCC).
  assert (d0 = d) by (assert (A := L (max N N')); assert (B := L' (max N N')); rewrite A in B by lia; specialize (B ltac:(lia)); now injection B). subst d0.
  exists N, d. split; [exact L|]. intro EXD. destruct (HA EXD) as (NA & t1 & t2 & CV).
  assert (POS : forall c, In c cells -> (0 < cs_id c)%Z) by (intros c I; now apply (gc_cells _ _ _ _ G c)).
  destruct (deck_printed str show quick s cells ss ds d N DS PR) as [DP GE]; [|exact (gc_pos _ _ _ _ G)|exact L|].
  { intros c m q IC EC. apply numeral_newline. now apply (pr_dens _ _ _ _ PR c m q). }
  assert (SD := deck_for_mcnp str show cells ss ds d NS NQ D DP UC PR POS GE (gc_fill _ _ _ _ G) SN (gc_mats _ _ _ _ G) EXD).
  assert (ST := deck_settled str show quick s cells ss ds rank d N DS G L D EXD RS).
  assert (CO := deck_complete str show cells ss ds d D).
  assert (NM : d_mats d <> []).
  { destruct WM as (c & IC & NC). apply In_nth_error in IC as (k & EC). destruct (nth_there _ _ k c (eq_sym (dm_count _ _ _ _ _ _ D)) EC) as (g & EG).
    destruct (cs_mat c) as [[m q]|] eqn:ECM; [|tauto]. destruct (cm_mat _ _ _ _ _ _ _ _ _ (dm_cells _ _ _ _ _ _ D k c g EC EG) m q ECM) as (_ & _ & a & A & _).
    intro E. rewrite E in A. discriminate. }
  assert (TO : quick = true \/ forall x, In x (d_surfs d) -> torus_ok (fst x)).
  { destruct quick; [now left|right]. now apply (PropAgainProgram.deck_tori str show s cells ss ds rank d N). }
  assert (NK : Forall (fun e => ~ In newline (fst e)) (d_mats d)).
  { apply Forall_forall. intros [k m] I. destruct SD as (_ & _ & GM & _). destruct (GM k m I) as (-> & ((_ & DG) & _) & _). cbn [fst]. intro J.
    rewrite forallb_forall in DG. specialize (DG _ J). discriminate. }
  destruct (deck_file_again str show quick cells ss ds rank d G SN D SD EXD EM NM WM TO) as (K1 & u1 & M1 & e1 & W1 & R1 & LN1 & C1).
  assert (EX2 : exact_deck str show cells (called_all d)).
  { destruct EXD as (X1 & X2 & X3). split; [exact X1|]. split; [|exact X3]. intros k a e I. unfold called_all in I. cbn [d_mats] in I. apply called_in in I as (a0 & I & ->). exact (X2 k a0 e I). }
  assert (NM2 : d_mats (called_all d) <> []) by (unfold called_all; cbn [d_mats]; destruct (d_mats d); [tauto|discriminate]).
  destruct (deck_file_again str show quick cells ss ds rank (called_all d) G SN (called_means _ _ _ _ _ _ D) (called_good str show d NK SD) EX2 EM NM2 WM TO) as (K2 & u2 & M2 & e2 & W2 & R2 & LN2 & C2).
  destruct (written_again str show quick d SD ST RS) as (K3 & u3 & W3 & H3).
  assert (E3 : u3 = u1) by (assert (A := W1 (max K1 K3)); assert (B := W3 (max K1 K3)); rewrite A in B by lia; specialize (B ltac:(lia)); now injection B). subst u3.
  assert (T1 : t1 = u1).
  { set (f := S (max (max N NA) K1)). destruct (CV f) as [B _]; [lia|]. cbn [conversions] in B. unfold rewritten, program in B. rewrite L in B by lia. cbn [run write_code] in B. rewrite W1 in B by lia. cbn in B. now injection B. }
  assert (T2 : t2 = u2).
  { set (f := max (max (max N NA) K1) K2). destruct (CV (S f)) as [B B2]; [lia|]. specialize (B2 0). change (2 + 0) with (S 1) in B2. cbn [conversions] in B, B2. rewrite B in B2. rewrite T1 in B2.
    unfold rewritten, program in B2. destruct (H3 f) as [HW HL]. destruct (HL CO) as (d' & LD). rewrite LD in B2. cbn [run write_code] in B2. rewrite (HW d' LD), W2 in B2 by lia. cbn in B2. now injection B2. }
  subst t1 t2. exists (max NA (max M1 M2)). intros [|n].
  - exists u1, e1. split; [|split; [exact LN1|exact C1]]. intros fuel HF. split; [apply (CV fuel); lia|apply R1; lia].
  - exists u2, e2. split; [|split; [exact LN2|exact C2]]. intros fuel HF. split; [apply (proj2 (CV fuel ltac:(lia)) n)|apply R2; lia].
Qed.
Print Assumptions C91_always_partial.

(** The file of C84 for MCNP, converted any number of times: three cells; the second is filled with universe 3 moved by 1 along x;
    the point (0, 0, 11/2) is in the second only. *)
Example C91_always_example nuclide_order universe_order quick : exists N, forall n, exists t d2 g1 g2 g3 r1 r2 r3,
  (forall fuel, N <= fuel -> conversions str88 show88 nuclide_order universe_order quick fuel (S n) file88 = Some t /\ load str88 show88 fuel quick t = Done d2) /\
  d_cells d2 = [g1; g2; g3] /\ g_univ g1 = Some (T "3") /\ g_fill g2 = Some (T "3") /\ motion_shown str88 g2 motion88 /\
  expr (toks (g_items g1)) r1 /\ expr (toks (g_items g2)) r2 /\ expr (toks (g_items g3)) r3 /\
  forall sense, (forall s sn, In s (d_surfs d2) -> surf_sense (fst s) = Some sn -> (sense (s_id (fst s)) = true <-> pos sn (Pt 0 0 (11 / 2)))) ->
    map (holds (zenv sense)) [r1; r2; r3] = [false; true; false].
Proof.
  destruct (C91_always_partial str88 show88 nuclide_order universe_order quick file88 _ surfs86 _ Z.to_nat describes88 good_cards88 (fine_cards88 quick) uncut_cards86 printable88
    nuclides88 str88_numeral show88_numeral show88_respects) as (N0 & d & L & H).
  { eexists. split; [left; reflexivity|discriminate]. }
  { exact PropAgainProgram.exact_motions88. }
  destruct H as (N & H).
  { destruct (read_deck str88 show88 quick file88 _ surfs86 _ Z.to_nat describes88 good_cards88 (fine_cards88 quick)) as (N1 & d1 & L1 & D & _).
    assert (E : d1 = d) by (assert (A := L (max N0 N1)); assert (B := L1 (max N0 N1)); rewrite A in B by lia; specialize (B ltac:(lia)); now injection B). subst d1.
    exact (exact88 d N0 quick L D). }
  exists N. intro n. destruct (H n) as (t & d2 & CV & LC & C). cbn [map cells88 length] in LC.
  destruct (d_cells d2) as [|g1 [|g2 [|g3 [|g4 l]]]] eqn:EC; try discriminate LC.
  assert (C1 := C 0 _ g1 eq_refl eq_refl). assert (C2 := C 1 _ g2 eq_refl eq_refl). assert (C3 := C 2 _ g3 eq_refl eq_refl).
  destruct (PropAgainProgram.ca_region _ _ _ _ _ _ _ _ _ C1) as (r1 & X1 & H1). destruct (PropAgainProgram.ca_region _ _ _ _ _ _ _ _ _ C2) as (r2 & X2 & H2).
  destruct (PropAgainProgram.ca_region _ _ _ _ _ _ _ _ _ C3) as (r3 & X3 & H3).
  exists t, d2, g1, g2, g3, r1, r2, r3. split; [exact CV|]. split; [exact EC|]. split; [apply (PropAgainProgram.ca_univ _ _ _ _ _ _ _ _ _ C1); now left|].
  destruct (PropAgainProgram.ca_fill _ _ _ _ _ _ _ _ _ C2 false (T "3") (Some (T " ", T "1 0 0")) motion88) as [F1 F2]; [now left| |].
  { cbn [fill_means]. set (w := words _). vm_compute in w. subst w. cbv iota. exists [1; 0; 0]%R. split; [repeat (constructor; [now apply whole_float|]); constructor|]. apply tr3. }
  split; [exact F1|]. split; [exact F2|]. split; [exact X1|]. split; [exact X2|]. split; [exact X3|]. intros sense SE. cbn [map].
  rewrite (H1 _ _ _ means88 sense SE), (H2 _ _ _ means88 sense SE), (H3 _ _ _ means88 sense SE). vm_compute. reflexivity.
Qed.
