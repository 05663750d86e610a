(** C84: the whole program, from the characters of an MCNP file to the MCNP file that is written and what is read from it
    (csg2csg/__main__.py 74-134, MCNPInput.py 1383-1412). *)
From Coq Require Import QArith Reals Lra Lia Permutation.
From Verif Require Import PyStr PyStrFacts PyInt PyIntFacts PyDict FortranNumber RegionSpec RegionFacts LexSpec CellModel CellProofs CellText CellWritersProofs
  CellWritersOut SurfModel GeomSpec SurfSpec SurfWritersProofs SurfTargets FlattenModel NotsModel BoundaryModel MaterialModel MaterialProofs PropMaterial
  PropMaterialOut PropMaterialTargets KeywordModel DeckScan FileModel FileProofs PropKeyword PropDeck ProcessModel PropProcess PropRead ConvertModel LayoutProofs
  MainModel PropPlace PropMain PropCards PropProgram PropTexts PropFile.
From Verif Require Import NamesModel MacroModel FlattenProofs ProcessSpec PropVacuum.
From Verif Require PropProgramPhits.
Open Scope nat_scope.
Open Scope list_scope.

(** What is asked of the materials: nuclide numbers of digits; no material cards if no cell has a material. *)
Definition mcnp_nuclides (cells : list cell_says) (ds : list data_says) : Prop :=
  forall n es, last_for n (mats_of ds) es -> (exists c, In c cells /\ cs_mat c <> None) /\ forall z, lists z es -> zaid z.

(** The numbers of the deck are printed so that the reader gets them back: the coefficients, the fractions, the densities. *)
Definition exact_deck (str : R -> text) (show : Q -> text) (cells : list cell_says) (d : ConvertModel.deck) : Prop :=
  (forall s x, In s (d_surfs d) -> In x (s_coef (fst s)) -> to_float (str x) = Some x) /\
  (forall k a e, In (k, a) (d_mats d) -> In e (m_comp a) -> printed_well show (snd e)) /\
  (forall c m q, In c cells -> cs_mat c = Some (m, q) -> exists v, get_fortran_formatted_number (show q) = Some v /\ (v == q)%Q).

Lemma deck_for_mcnp str show cells ss ds d : (forall x, numeral (str x)) -> (forall q, numeral (show q)) -> deck_means str show cells (map snd ss) ds d ->
  deck_prints show cells ds d -> (forall x, In x (d_surfs d) -> ~ sheeted (fst x)) ->
  printable show cells ss ds -> (forall c, In c cells -> (0 < cs_id c)%Z) -> Forall (fun c => Forall good_entry (cs_keys c)) cells ->
  (forall c star v tr, In c cells -> has_kw (KFill star v tr) (cs_keys c) -> exists m, fill_means (trs_of ds) star tr m) ->
  mcnp_nuclides cells ds -> (forall n es, last_for n (mats_of ds) es -> good_entries es) -> exact_deck str show cells d -> good_deck str show d.
Proof.
  intros NS NQ D DP UC PR POS GE GF SN GM (EX1 & EX2 & _). split; [|split; [|split; [|exact (dm_keys _ _ _ _ _ _ D)]]].
  - apply Forall_forall. intros g I. apply In_nth_error in I as (k & HG). destruct (nth_there _ _ k g (dm_count _ _ _ _ _ _ D) HG) as (c & HC).
    destruct (cell_printed str show cells (map snd ss) ss ds d k c g) as (L1 & L2 & GG); auto.
    destruct (cm_region _ _ _ _ _ _ _ _ _ (dm_cells _ _ _ _ _ _ D k c g HC HG)) as (r & E & _). exists r. now apply GG.
  - apply Forall_forall. intros x I. destruct (dm_surfs _ _ _ _ _ _ D x I) as (P & sn & E). exists sn. split; [exact E|]. split; [now apply UC|]. split.
    { destruct (dm_bc _ _ _ _ _ _ D x I) as [-> | ->]; discriminate. }
    split; [lia|]. split; [apply Nat.le_trans with 41; [|lia]; apply big_length; pose proof (dp_ids _ _ _ _ DP x I); lia|].
    apply Forall_forall. intros y IY. split; [now apply (EX1 x)|apply NS].
  - intros k a I. destruct (dm_mats _ _ _ _ _ _ D k a I) as (MN & n & es & L & MO). destruct (SN n es L) as (EX & ZK).
    destruct (MO EX) as [MA _]. destruct (dp_keys _ _ _ _ DP k a I) as (ZN & _ & NN & _). split; [now symmetry|]. split; [|apply Forall_forall; intros; apply NQ].
    assert (NE := PropProgramPhits.made_some es _ (GM n es L) MA). destruct MA as (ND & _ & _ & _ & _ & KS).
    split; [now rewrite MN|]. split; [exact NN|]. split; [exact NE|]. split; [exact ND|].
    apply Forall_forall. intros [t q] IT. cbn [fst snd]. split; [|split; [exact (EX2 k a (t, q) I IT)|discriminate]].
    destruct (KS t) as [(LT & _)|(z & y & i & b & LZ & EZ & II & ->)]; [unfold keys; apply in_map_iff; now exists (t, q)|now apply ZK|].
    destruct (isotope_key y i b II) as (y1 & b1 & H); unfold nuclide_key in H; destruct H as [H HB]; rewrite H; apply str_zaid; lia.
Qed.

(** The same fractions make the same material. *)
Lemma same_get a b : same_fractions a b -> forall k v, dget k b = Some v -> exists w, dget k a = Some w /\ (w == v)%Q.
Proof.
  induction 1 as [|[x v] [y w] a b [E Q] F IH]; intros k u G; [discriminate|]. cbn [fst snd] in E, Q. subst y. cbn [dget] in *.
  destruct (text_eqb x k); [injection G as <-; now exists v|now apply IH].
Qed.
Lemma same_keys a b : same_fractions a b -> keys a = keys b.
Proof. unfold keys. induction 1 as [|x y a b [E _] F IH]; cbn [map]; [reflexivity|]. now rewrite E, IH. Qed.
Lemma made_same es a b : same_fractions a b -> made_of es b -> made_of es a.
Proof.
  intros S (ND & k & P & H1 & H2 & H3). unfold made_of. rewrite (same_keys a b S). split; [exact ND|]. exists k. split; [exact P|]. split; [|split; [|exact H3]].
  - intros z n L E M. destruct (H1 z n L E M) as (v & G & V). destruct (same_get a b S z v G) as (w & W & Q). exists w. split; [exact W|now rewrite Q].
  - intros z y i c L E I. destruct (H2 z y i c L E I) as (v & G & V). destruct (same_get a b S _ v G) as (w & W & Q). exists w. split; [exact W|now rewrite Q].
Qed.

(** The cell card that was read says what the card of the first file said: number, region [r], material and density,
    importance, universe, the universe that fills it and where. *)
Definition mcnp_cell_said (str : R -> text) (ds : list data_says) (mats : dict material) (k : nat) (c : cell_says) (r : region) (x : cell * keywords) : Prop :=
  c_id (fst x) = cs_id c /\ expr (toks (c_items (fst x))) r /\ k_trid (snd x) = T "0" /\
  (exists q, importance ds k c q /\ (k_imp (snd x) == q)%Q) /\
  ((exists v, has_kw (KU v) (cs_keys c) /\ k_univ (snd x) = Some v) \/ ((forall v, ~ has_kw (KU v) (cs_keys c)) /\ k_univ (snd x) = None)) /\
  ((exists star v tr m place, has_kw (KFill star v tr) (cs_keys c) /\ fill_means (trs_of ds) star tr m /\ k_fill (snd x) = Some v /\
      match k_offset (snd x) with Some (a, b, d) => [RText a; RText b; RText d] | None => [] end ++ match k_rot (snd x) with Some l => l | None => [] end = map RText place /\
      PropProgramPhits.placed str place m) \/
   ((forall star v tr, ~ has_kw (KFill star v tr) (cs_keys c)) /\ k_fill (snd x) = None)) /\
  match cs_mat c with
  | None => c_mat (fst x) = 0%Z
  | Some (m, q) => (0 < c_mat (fst x))%Z /\ (c_dens (fst x) == q)%Q /\ exists a, dget (str_Z (c_mat (fst x))) mats = Some a /\
      forall es, last_for (str_Z m) (mats_of ds) es -> made_of es (m_comp a)
  end.

Lemma shown_placed str g m v (F : g_fill g = Some v) : motion_shown str g m -> PropProgramPhits.placed str (placement (g_offset g) (g_rot g)) m.
Proof.
  intros [M1 M2]. unfold PropProgramPhits.placed, placement.
  assert (Z0 : PropMain.shows str (T "0") 0%R) by (left; now apply whole_float).
  destruct m as [[x y z] [a1 a2 a3] [b1 b2 b3] [e1 e2 e3]]. cbn [mo r1 r2 r3 GeomSpec.px GeomSpec.py GeomSpec.pz flat_map app] in M1, M2.
  destruct (g_offset g) as [o|], (g_rot g) as [a|].
  - right. exists ([x; y; z] ++ [a1; a2; a3; b1; b2; b3; e1; e2; e3]). split; [now apply Forall2_app|]. split; [now right|]. exact (tr12 false x y z a1 a2 a3 b1 b2 b3 e1 e2 e3).
  - right. exists [x; y; z]. rewrite app_nil_r. split; [exact M1|]. split; [now left|]. destruct M2 as (-> & -> & ->). apply tr3.
  - right. exists ([x; y; z] ++ [a1; a2; a3; b1; b2; b3; e1; e2; e3]). split; [|split; [now right|exact (tr12 false x y z a1 a2 a3 b1 b2 b3 e1 e2 e3)]]. apply Forall2_app; [|exact M2].
    injection M1 as -> -> ->. repeat (constructor; [exact Z0|]). constructor.
  - left. split; [reflexivity|]. destruct M2 as (-> & -> & ->). now rewrite M1.
Qed.

(** C84, MCNP: the program is given the characters of an MCNP file and asked for MCNP.  If the numbers of the deck in memory
    are printed exactly ([exact_deck]), the program ends, the file it writes can be read by its reader, and what is read is
    the model of the first file: the cells in their order, each with its number, importance, universe, the universe that
    fills it with its place, region, material and density; no importance and transform cards are left over.  The
    materials have no cross-section libraries, whatever the first file said (C88).  (Missing, because false or not modelled: what C73 and C83 leave out.) *)
Theorem C84_mcnp_partial str show nuclide_order universe_order quick s cells ss ds rank :
  describes s cells ss ds -> good_cards cells (map snd ss) ds rank -> fine_cards quick (trs_of ds) ss -> uncut_cards ss ->
  printable show cells ss ds -> mcnp_nuclides cells ds -> (forall x, numeral (str x)) -> (forall q, numeral (show q)) ->
  exists N0 d, (forall fuel, N0 <= fuel -> load str show fuel quick s = Done d) /\ (exact_deck str show cells d ->
  exists N t srfs, NoDup (map fst srfs) /\
    (forall fuel, N <= fuel -> program str show fuel nuclide_order universe_order quick [MCNP] s = Done ([(MCNP, File t)], Some d)) /\
    forall f, exists p, read_file (S f) t = Some p /\
    Forall2 (fun x s' => s_id s' = fst x /\ s_tr s' = None /\ denotes s' (snd x)) srfs (f_surfs p) /\
    f_imps p = [] /\ f_trans p = [] /\
    (forall k a, dget k (f_mats p) = Some a -> (exists n es, last_for n (mats_of ds) es /\ made_of es (m_comp a)) /\
       forall z, In z (keys (m_comp a)) -> dget z (m_xs a) = Some []) /\
    length (f_cells p) = length cells /\
    forall k c x, nth_error cells k = Some c -> nth_error (f_cells p) k = Some x -> exists r, mcnp_cell_said str ds (f_mats p) k c r x /\
      forall q env incell, means_at cells (map snd ss) (trs_of ds) q env incell ->
      forall sense, (forall y, In y srfs -> (sense (fst y) = true <-> pos (snd y) q)) ->
      holds (zenv sense) r = incell (str_Z (cs_id c))).
Proof.
  intros DS G FW UCC PR SN NS NQ.
  destruct (read_deck str show quick s cells ss ds rank DS G FW) as (N & d & L & D & UC & _). specialize (UC UCC).
  exists N, d. split; [exact L|]. intro EXD.
  assert (POS : forall c, In c cells -> (0 < cs_id c)%Z) by (intros c I; now apply (gc_cells _ _ _ _ G c)).
  destruct (deck_printed str show quick s cells ss ds d N DS PR) as [DP GE]; [|exact (gc_pos _ _ _ _ G)|exact L|].
  { intros c m q IC EC. apply numeral_newline. now apply (pr_dens _ _ _ _ PR c m q). }
  assert (SD := deck_for_mcnp str show cells ss ds d NS NQ D DP UC PR POS GE (gc_fill _ _ _ _ G) SN (gc_mats _ _ _ _ G) EXD).
  destruct (C73_mcnp_file_partial str show d SD) as (K & t & W & HR).
  destruct (choices (fun s y => surf_sense (fst s) = Some (snd y) /\ fst y = s_id (fst s)) (d_surfs d)) as (srfs & FR).
  { intros x I. destruct (dm_surfs _ _ _ _ _ _ D x I) as (_ & sn & E). now exists (s_id (fst x), sn). }
  exists (max N K), t, srfs. split.
  { assert (IDS : map fst srfs = map (fun s => s_id (fst s)) (d_surfs d)) by (clear - FR; induction FR as [|x y l l' (_ & E) F IH]; cbn [map]; [reflexivity|]; now rewrite E, IH).
    rewrite IDS. apply (dm_ids _ _ _ _ _ _ D). }
  split.
  { intros fuel HF. unfold program. rewrite L by lia. cbn [run write_code]. rewrite W by lia. reflexivity. }
  intro f. destruct (HR f) as (p & RF & FC & FS & IMP & TRS & MK & MG). exists p. split; [exact RF|]. split.
  { apply forall2_same_left with (1 := FR) (2 := FS). intros x y s' (E1 & E2) (H1 & H2 & H3). rewrite E2. split; [exact H1|]. split; [exact H2|]. now apply H3. }
  split; [exact IMP|]. split; [exact TRS|]. split.
  { intros k a HA. assert (IK : In k (keys (d_mats d))).
    { apply (Permutation_in _ MK). unfold keys. apply in_map_iff. exists (k, a). split; [reflexivity|now apply dget_some_in]. }
    unfold keys in IK. apply in_map_iff in IK as ([k' b] & E & IB). cbn [fst] in E. subst k'.
    assert (GB : dget k (d_mats d) = Some b) by (apply in_dget; [exact (dm_keys _ _ _ _ _ _ D)|exact IB]).
    destruct (MG k b GB) as (a' & GA & SF & LB). rewrite HA in GA. injection GA as <-. split; [|intros z IZ; apply LB; now rewrite <- (same_keys _ _ SF)].
    destruct (dm_mats _ _ _ _ _ _ D k b IB) as (_ & n & es & LE & MO). exists n, es. split; [exact LE|]. apply (made_same es _ (m_comp b) SF). apply MO. now apply (SN n es). }
  split; [rewrite <- (dm_count _ _ _ _ _ _ D); symmetry; exact (forall2_len _ _ _ FC)|].
  intros k c x HC HX. destruct (nth_there _ _ k c (eq_sym (dm_count _ _ _ _ _ _ D)) HC) as (g & HG).
  assert (M := dm_cells _ _ _ _ _ _ D k c g HC HG). assert (IC := nth_error_In _ _ HC).
  destruct (cm_region _ _ _ _ _ _ _ _ _ M) as (r & EX & HR2). exists r. split.
  2:{ intros q env incell MA sense SE. apply (HR2 q env incell MA). intros s0 sn IS ES. destruct (forall2_in_left _ _ _ s0 FR IS) as (y & IY & Y1 & Y2).
      rewrite Y1 in ES. injection ES as <-. rewrite <- Y2. now apply SE. }
  destruct (forall2_nth _ _ _ FC k g x HG HX) as (C1 & C2 & C3 & C4 & C5 & C6 & C7 & C8 & C9).
  unfold mcnp_cell_said. rewrite C1, C2, C4, C5, C6, (cm_id _ _ _ _ _ _ _ _ _ M). split; [reflexivity|]. split; [exact EX|]. split; [exact C8|].
  split; [exists (g_imp g); split; [exact (cm_imp _ _ _ _ _ _ _ _ _ M)|exact C7]|]. split.
  { destruct (has_univ c) as [(v & H)|NU]; [left; exists v; split; [exact H|]; now apply (cm_univ _ _ _ _ _ _ _ _ _ M v)|right].
    split; [exact NU|exact (cm_nouniv _ _ _ _ _ _ _ _ _ M NU)]. }
  split.
  { destruct (has_fill c) as [(star & v & tr & H)|NF]; [left|right; split; [exact NF|exact (proj1 (cm_nofill _ _ _ _ _ _ _ _ _ M NF))]].
    destruct (gc_fill _ _ _ _ G c star v tr IC H) as (m & FMN). destruct (cm_fill _ _ _ _ _ _ _ _ _ M star v tr m H FMN) as [FL MS].
    exists star, v, tr, m, (placement (g_offset g) (g_rot g)). split; [exact H|]. split; [exact FMN|]. split; [exact FL|]. rewrite FL in C9. split; [exact (proj1 C9)|].
    exact (shown_placed str g m v FL MS). }
  destruct (cs_mat c) as [[m q]|] eqn:EM; [|exact (cm_void _ _ _ _ _ _ _ _ _ M EM)].
  destruct (cm_mat _ _ _ _ _ _ _ _ _ M m q EM) as (E1 & PM & a & A1 & A2 & A3 & A4). split; [exact PM|]. split.
  { destruct EXD as (_ & _ & E3). destruct (E3 c m q IC EM) as (v & V1 & V2). rewrite E1, V1 in C3. specialize (C3 ltac:(lia)). injection C3 as <-. exact V2. }
  destruct (MG _ a A1) as (a' & GA & SF & _). exists a'. split; [exact GA|]. intros es LE. apply (made_same es _ (m_comp a) SF). now apply A4.
Qed.
Print Assumptions C84_mcnp_partial.

(* ------------------------------------------------------------------ *)
(** * An example *)

(** The texts of the numbers of the example. *)
Definition str88 (x : R) : text := if Req_EM_T x 0 then T "0.0" else if Req_EM_T x 5 then T "5.0" else if Req_EM_T x 6 then T "6.0" else T "1.0".
Definition show88 (q : Q) : text := if Qeq_bool q (-185 # 10) then T "-18.5" else if Qeq_bool q 0 then T "0" else T "1".

(** A ball in a universe that fills a larger one, moved by 1 along x, and the outside. *)
Definition file88 : text :=
  T "A ball in a ball" ++ newline :: T "1 1 -18.5 -1 U=3" ++ newline :: T "2 0 -2 FILL=3 (1 0 0)" ++ newline :: T "3 0 2" ++ newline :: newline ::
  T "1 SO 5" ++ newline :: T "2 SO 6" ++ newline :: newline :: T "IMP:N 1 1 0" ++ newline :: T "M1 92235.70c 2" ++ newline :: T "nps 1000" ++ [newline].
Definition cells88 : list (card * cell_says) :=
  [((mkL (T "1 1 -18.5 -1 u=3") None, []), mkCS 1 (Some (1%Z, (-185 # 10)%Q)) (RAtom (T "-1")) [mkE (T " ") (KU (T "3")) false false]);
   ((mkL (T "2 0 -2 fill=3 (1 0 0)") None, []), mkCS 2 None (RAtom (T "-2")) [mkE (T " ") (KFill false (T "3") (Some (T " ", T "1 0 0"))) false false]);
   ((mkL (T "3 0 2") None, []), mkCS 3 None (RAtom (T "2")) [])].
Definition data88 : list (card * data_says) :=
  [((mkL (T "imp:n 1 1 0") None, []), DImp NEUTRON [T "1"; T "1"; T "0"]);
   ((mkL (T "m1 92235.70c 2") None, []), DMat (T "1") [Nuclide (T "92235.70c") (T "2")]); ((mkL (T "nps 1000") None, []), DOther)].

Lemma file88_read : file_of file88 ((T "a ball in a ball" ++ [newline]) ::
   (flat_map (fun x => card_lines (fst x)) cells88 ++ [newline] :: flat_map (fun x => card_lines (fst x)) surfs86 ++ [newline] ::
                 flat_map (fun x => card_lines (fst x)) data88)).
Proof.
  exists (readlines file88). split; [vm_compute; reflexivity|]. split; [|vm_compute; reflexivity].
  assert (E : forallb ended (readlines file88) = true) by (vm_compute; reflexivity).
  apply Forall_forall. intros x I. rewrite forallb_forall in E. now apply ended_ok, E.
Qed.
Lemma comments88 : with_comments (flat_map (fun x => card_lines (fst x)) cells88 ++ [newline] :: flat_map (fun x => card_lines (fst x)) surfs86 ++ [newline] ::
                 flat_map (fun x => card_lines (fst x)) data88)
   (flat_map (fun x => card_lines (fst x)) cells88 ++ [newline] :: flat_map (fun x => card_lines (fst x)) surfs86 ++ [newline] ::
                 flat_map (fun x => card_lines (fst x)) data88).
Proof. vm_compute. repeat (apply wc_line; [intros r E; discriminate E|]). apply wc_nil. Qed.
Lemma says_cells88 : says_cells cells88.
Proof.
  assert (NU : number (T "3")) by (exists [], (T "3"), []; repeat split; auto; discriminate).
  constructor; [|constructor; [|constructor; [|constructor]]]; cbn [fst snd cells88].
  - split; [apply one_line; [vm_compute; intuition discriminate|exists "1"%char; split; [now left|reflexivity]|intros (r & E); discriminate]|].
    exists (T "1 1 -18.5 -1"), [newline], (T "1"), (T "1"), (T "-1"). cbn [cs_keys cs_id cs_region cs_mat].
    split; [vm_compute; reflexivity|]. split; [reflexivity|]. split; [reflexivity|].
    split; [constructor; [|constructor]; (split; [reflexivity|]; split; [discriminate|]; split; [|exact I]; exact NU)|].
    split; [repeat constructor; cbn; intuition discriminate|].
    split; [split; [discriminate|reflexivity]|]. split; [split; [discriminate|reflexivity]|]. split; [reflexivity|].
    split; [vm_compute; intuition discriminate|]. split; [reflexivity|]. split; [apply parse_sound; vm_compute; reflexivity|].
    split; [reflexivity|]. split; [reflexivity|]. exists (T "-18.5"). split; [split; [discriminate|reflexivity]|]. split; [vm_compute; reflexivity|vm_compute; reflexivity].
  - split; [apply one_line; [vm_compute; intuition discriminate|exists "2"%char; split; [now left|reflexivity]|intros (r & E); discriminate]|].
    exists (T "2 0 -2"), [newline], (T "2"), (T "0"), (T "-2"). cbn [cs_keys cs_id cs_region cs_mat].
    split; [vm_compute; reflexivity|]. split; [reflexivity|]. split; [reflexivity|].
    split; [constructor; [|constructor]; (split; [reflexivity|]; split; [discriminate|]; split; [exact NU|])|].
    { split; [reflexivity|]. split; [reflexivity|]. split; [right; left; reflexivity|discriminate]. }
    split; [repeat constructor; cbn; intuition discriminate|].
    split; [split; [discriminate|reflexivity]|]. split; [split; [discriminate|reflexivity]|]. split; [reflexivity|].
    split; [vm_compute; intuition discriminate|]. split; [reflexivity|]. split; [apply parse_sound; vm_compute; reflexivity|].
    split; reflexivity.
  - split; [apply one_line; [vm_compute; intuition discriminate|exists "3"%char; split; [now left|reflexivity]|intros (r & E); discriminate]|].
    exists (T "3 0 2"), [newline], (T "3"), (T "0"), (T "2"). cbn [cs_keys cs_id cs_region cs_mat].
    split; [vm_compute; reflexivity|]. split; [reflexivity|]. split; [reflexivity|]. split; [constructor|]. split; [constructor|].
    split; [split; [discriminate|reflexivity]|]. split; [split; [discriminate|reflexivity]|]. split; [reflexivity|].
    split; [vm_compute; intuition discriminate|]. split; [reflexivity|]. split; [apply parse_sound; vm_compute; reflexivity|].
    split; reflexivity.
Qed.
Lemma says_datas88 : says_datas data88.
Proof.
  assert (NI : forall r, ~ indented ("i"%char :: r) /\ ~ indented ("m"%char :: r) /\ ~ indented ("n"%char :: r)) by (intro r; repeat split; intros (x & E); discriminate).
  assert (NM : forall x, is_material_line x = false -> ~ material_name x) by (intros x E M; apply is_material_spec in M; congruence).
  split.
  - constructor; [|constructor; [|constructor; [|constructor]]]; cbn [fst snd]; (split; [split; [apply NI|constructor]|]).
    + exists (T "1 1 0"). split; [reflexivity|]. split; [reflexivity|]. split; [|reflexivity]. constructor.
    + exists (T "92235.70c 2"). split.
      * split; [exists []; repeat split; cbn; lia|]. split; [discriminate|]. split; [reflexivity|]. split; [split; vm_compute; intuition discriminate|constructor].
      * split; [vm_compute; reflexivity|]. split.
        -- repeat (constructor; [split; [unfold no_eq; vm_compute; intuition discriminate|split; [unfold no_eq; vm_compute; intuition discriminate|vm_compute; discriminate]]|]). constructor.
        -- constructor; [|constructor]; vm_compute; reflexivity.
    + split; [intros [(r & E)|(r & E)]; discriminate|]. constructor; [|constructor]. split; [vm_compute; reflexivity|now apply NM].
  - eexists [_; _], _, _. split; [reflexivity|]. split; discriminate.
Qed.
Lemma describes88 : describes file88 (map snd cells88) surfs86 (map snd data88).
Proof.
  eexists _, _, cells88, [newline], [newline], data88. split; [exact file88_read|]. split; [vm_compute; reflexivity|]. split; [exact comments88|].
  split; [discriminate|]. split; [reflexivity|]. split; [discriminate|]. split; [reflexivity|]. split; [exact says_cells88|]. split; [exact says_surfs86|].
  split; [exact says_datas88|]. split; reflexivity.
Qed.
Lemma last_imp88 vs : last_imp (map snd data88) vs -> vs = [T "1"; T "1"; T "0"].
Proof.
  intros (a & b & E & _). cbn [map snd data88] in E. destruct a as [|? [|? [|? a]]]; cbn [app] in E; try discriminate; [now injection E as <- _|].
  apply (f_equal (@length _)) in E. cbn [length] in E. rewrite app_length in E. cbn [length] in E. lia.
Qed.
Lemma imp88 : last_imp (map snd data88) [T "1"; T "1"; T "0"].
Proof. exists []. eexists. split; [reflexivity|]. intros ws I. cbn [In] in I. intuition discriminate. Qed.
Lemma mats88 n es : last_for n (mats_of (map snd data88)) es -> n = T "1" /\ es = [Nuclide (T "92235.70c") (T "2")].
Proof.
  intros (a & b & E & _). change (mats_of (map snd data88)) with [(T "1", [Nuclide (T "92235.70c") (T "2")])] in E.
  destruct a as [|? a]; [now injection E as <- <- _|]. injection E as _ E. destruct a; discriminate.
Qed.
Lemma lists88 z : lists z [Nuclide (T "92235.70c") (T "2")] -> z = T "92235".
Proof. intros (w & f & [E|[]] & <-); injection E as <- <-; reflexivity. Qed.
Definition motion88 : motion := Motion (Pt 1 0 0) (Pt 1 0 0) (Pt 0 1 0) (Pt 0 0 1).
Lemma good_cards88 : good_cards (map snd cells88) (map snd surfs86) (map snd data88) Z.to_nat.
Proof.
  assert (BODY : forall s f i, In s (map snd surfs86) -> ss_shape s <> Body f i) by (intros s f i [<-|[<-|[]]]; discriminate).
  assert (A1 : forall sg, exists y sg', In y (map snd surfs86) /\ signed_word sg 1 = signed_word sg' (ss_id y)) by (intro sg; eexists _, sg; split; [left; reflexivity|reflexivity]).
  assert (A2 : forall sg, exists y sg', In y (map snd surfs86) /\ signed_word sg 2 = signed_word sg' (ss_id y)) by (intro sg; eexists _, sg; split; [right; left; reflexivity|reflexivity]).
  split.
  - cbn [map snd surfs86 ss_id]. repeat constructor; cbn; intuition discriminate.
  - intros s [<-|[<-|[]]]; reflexivity.
  - intros s t f i f' i' u I J B. now elim (BODY s f i I).
  - intros s id [<-|[<-|[]]]; discriminate.
  - intros c [<-|[<-|[<-|[]]]]; (split; [reflexivity|]); intros w; cbn [snd cs_region atoms app In]; (intros [<-|[]]; left; [apply (A1 true) + apply (A2 true) + apply (A2 false)]).
  - intros c star v tr [<-|[<-|[<-|[]]]]; intros H; cbn in H; try contradiction; (destruct H as [H|H]; [|contradiction]); try discriminate H.
    injection H as <- <- <-. exists motion88. cbn [fill_means]. set (w := words _). vm_compute in w. subst w. cbv iota.
    exists [1; 0; 0]%R. split; [repeat (constructor; [now apply whole_float|]); constructor|]. apply tr3.
  - split.
    + intros p vs v I IV. cbn [map snd data88 In] in I. destruct I as [I|[I|[I|[]]]]; try discriminate. injection I as <- <-.
      cbn [In] in IV. destruct IV as [<-|[<-|[<-|[]]]]; split; vm_compute; intuition discriminate.
    + intros _. exists [T "1"; T "1"; T "0"]. split; [exact imp88|split; [cbn; lia|]].
      repeat (constructor; [vm_compute; discriminate|]). constructor.
  - intros k c q s f i w HC IM Z IS B. now elim (BODY s f i IS).
  - intros n es L. destruct (mats88 n es L) as [_ ->]. clear L. assert (P1 : py_int (T "92235") = Some 92235%Z) by (vm_compute; reflexivity). split.
    + intros z L. rewrite (lists88 z L). eexists; (split; [vm_compute; reflexivity|reflexivity]).
    + intros z z' L L' E. now rewrite (lists88 z L), (lists88 z' L').
    + intros z z' y n' L L' E E' M EY. rewrite (lists88 z L), P1 in E. assert (Y : (92235 = 1000 * y)%Z) by congruence. lia.
    + intros z y L E. rewrite (lists88 z L), P1 in E. assert (Y : (92235 = 1000 * y)%Z) by congruence. lia.
    + vm_compute. discriminate.
  - intros c m d [<-|[<-|[<-|[]]]]; cbn [snd cs_mat]; try discriminate; injection 1 as <- <-; now left.
Qed.
Lemma str88_numeral x : numeral (str88 x).
Proof.
  unfold str88. destruct (Req_EM_T x 0); [|destruct (Req_EM_T x 5); [|destruct (Req_EM_T x 6)]]; (split; [discriminate|]); (split; [cbn; lia|reflexivity]).
Qed.
Lemma show88_numeral q : numeral (show88 q).
Proof. unfold show88. destruct (Qeq_bool q (-185 # 10)); [|destruct (Qeq_bool q 0)]; (split; [discriminate|]); (split; [cbn; lia|reflexivity]). Qed.
Lemma str88_exact x : x = 0%R \/ x = 5%R \/ x = 6%R -> to_float (str88 x) = Some x.
Proof.
  unfold str88. intros [-> |[-> | ->]]; repeat (destruct (Req_EM_T _ _) as [?|?]; [try (exfalso; lra)|try (exfalso; lra)]);
    unfold to_float; match goal with |- context [py_float ?t] => let v := eval vm_compute in (py_float t) in change (py_float t) with v end; cbn [option_map]; f_equal; unfold Q2R; cbn; lra.
Qed.
Lemma printable88 : printable show88 (map snd cells88) surfs86 (map snd data88).
Proof.
  split.
  - intros c I. cbn [map cells88 snd In] in I. destruct I as [<-|[<-|[<-|[]]]]; vm_compute; reflexivity.
  - intros s I. cbn [surfs86 In] in I. destruct I as [<-|[<-|[]]]; vm_compute; reflexivity.
  - vm_compute; reflexivity.
  - change (mats_of (map snd data88)) with [(T "1", [Nuclide (T "92235.70c") (T "2")])]. intros n [<-|[]]. cbn. lia.
  - intros c m q I E. cbn [map cells88 snd In] in I. destruct I as [<-|[<-|[<-|[]]]]; cbn [cs_mat] in E; try discriminate; injection E as <- <-.
    unfold density_shown. change (show88 (-185 # 10)) with (T "-18.5"). split; [split; [discriminate|]; split; [cbn; lia|reflexivity]|]. split; [cbn; intuition discriminate|].
    split; [vm_compute; discriminate|]. eexists. split; [vm_compute; reflexivity|]. reflexivity.
  - intros k c q HC HI. assert (K : k < 3) by (change 3 with (length (map snd cells88)); apply nth_error_Some; congruence).
    destruct HI as [(vs & v & L & NV & PF)|[L _]]; [|specialize (L _ imp88); cbn [length] in L; lia]. rewrite (last_imp88 vs L) in NV.
    destruct k as [|[|[|k]]]; cbn [nth_error] in NV; [| | |lia]; injection NV as <-; vm_compute in PF; injection PF as <-;
      (split; [|split; [vm_compute; lia|]]);
      try (eexists []; (exists (T "1") + exists (T "0")); exists []; (split; [vm_compute; reflexivity|]); (split; [now left|]); (split; [vm_compute; reflexivity|]); (split; [now left|discriminate])); eexists; (split; [vm_compute; reflexivity|reflexivity]).
  - intros c v I H. cbn [map cells88 snd In] in I. destruct I as [<-|[<-|[<-|[]]]]; cbn in H; try contradiction; (destruct H as [H|H]; [|contradiction]); try discriminate H; injection H as <-; cbn; lia.
  - intros c star v tr I H. cbn [map cells88 snd In] in I. destruct I as [<-|[<-|[<-|[]]]]; cbn in H; try contradiction; (destruct H as [H|H]; [|contradiction]); try discriminate H.
    injection H as <- <- <-. split; [cbn; lia|]. set (w := words _). vm_compute in w. subst w. repeat (constructor; [split; [discriminate|]; split; [cbn; lia|reflexivity]|]). constructor.
Qed.
Lemma nuclides88 : mcnp_nuclides (map snd cells88) (map snd data88).
Proof.
  intros n es L. destruct (mats88 n es L) as [_ ->]. split; [eexists; split; [left; reflexivity|discriminate]|].
  intros z LZ. rewrite (lists88 z LZ). split; [discriminate|reflexivity].
Qed.
Lemma fine_cards88 quick : fine_cards quick (trs_of (map snd data88)) surfs86.
Proof. exact (fine_cards86 quick). Qed.

(** The numbers of the deck in memory are exact: radii 5 and 6, the fraction 1, the density -18.5. *)
Lemma made88 c : made_of [Nuclide (T "92235.70c") (T "2")] c -> forall e, In e c -> fst e = T "92235" /\ (snd e == 1)%Q.
Proof.
  intros (ND & k & (P & K) & H1 & _ & H3) [t q] I. cbn [fst snd].
  assert (IT : In t (keys c)) by (unfold keys; apply in_map_iff; now exists (t, q)).
  destruct (H3 t IT) as [(L & n & EN & M)|(z & y & i & b & L & EZ & II & ->)].
  - apply lists88 in L. subst t. split; [reflexivity|]. destruct (H1 (T "92235") n) as (v & G & V).
    + exists (T "92235.70c"), (T "2"). split; [now left|reflexivity].
    + exact EN.
    + exact M.
    + rewrite (in_dget _ q c ND I) in G. injection G as ->. rewrite V. vm_compute in K. vm_compute in K |- *. exact K.
  - apply lists88 in L. subst z. assert (P1 : py_int (T "92235") = Some 92235%Z) by (vm_compute; reflexivity). rewrite P1 in EZ. assert (Y : (92235 = 1000 * y)%Z) by congruence. lia.
Qed.
Definition coefs88 (y : surface) : Prop := s_tr y = None /\ is_macrobody y = false /\ forall x, In x (s_coef y) -> x = 0%R \/ x = 5%R \/ x = 6%R.
Lemma exact88 d N quick : (forall fuel, N <= fuel -> load str88 show88 fuel quick file88 = Done d) ->
  deck_means str88 show88 (map snd cells88) (map snd surfs86) (map snd data88) d -> exact_deck str88 show88 (map snd cells88) d.
Proof.
  intros L D. split; [|split].
  - intros s x IS IX. apply str88_exact. assert (C : coefs88 (fst s)); [|now apply C].
    destruct (file_read file88 _ _ cells88 [newline] surfs86 [newline] data88 file88_read) as (p & R & _ & _ & FS & _);
      [vm_compute; reflexivity|exact comments88|discriminate|reflexivity|discriminate|reflexivity|exact says_cells88|exact says_surfs86|exact says_datas88|].
    revert s IS IX. intros s IS _. apply (load_surfaces str88 show88 coefs88 (S N) quick file88 p d); [| | | | |apply L; lia|exact IS].
    + intros n y z t (T0 & M & _) E I. unfold inherit in I. rewrite T0 in I. unfold is_macrobody in M. unfold explode_macrobody in E. destruct (s_type y); try discriminate M; injection E as <-; cbn in I; contradiction.
    + intros cards y t E (T0 & H). unfold apply_transform in E. rewrite T0 in E. injection E as <-. now split.
    + intros y H. exact H.
    + apply R.
    + apply Forall_forall. intros y I. destruct (forall2_pick _ _ _ _ FS I) as (x' & IX & SG & RS).
      assert (SS := says_surfs86). unfold says_surfs in SS. rewrite Forall_forall in SS. destruct (SS x' IX) as [GC SY].
      destruct (got_stored x' y GC SY SG RS) as (m & vals & SP & ST). destruct (spells86 x' m vals IX SP) as [-> TN].
      assert (V : vals = [5%R] \/ vals = [6%R]).
      { destruct SP as (idtok & toks & E & RD). rewrite TN in E.
        destruct IX as [<-|[<-|[]]]; [left|right]; cbn [fst] in E; match type of E with ?w = _ => let v := eval vm_compute in w in change w with v in E end; injection E as _ <-;
          (inversion RD as [|? v ? ? HV HN]; subst; inversion HN; subst); f_equal.
        - assert (W5 : to_float (T "5") = Some 5%R) by now apply whole_float. change (to_float ["5"%char]) with (to_float (T "5")) in HV. rewrite W5 in HV. now injection HV.
        - assert (W6 : to_float (T "6") = Some 6%R) by now apply whole_float. change (to_float ["6"%char]) with (to_float (T "6")) in HV. rewrite W6 in HV. now injection HV. }
      assert (NM : is_macrobody y = false).
      { destruct SG as (_ & _ & SG). destruct IX as [<-|[<-|[]]]; cbn [snd ss_shape] in SG; unfold denotes, surf_sense, is_macrobody in *; destruct (s_type y); try reflexivity; destruct SG as (? & SG & _); discriminate SG. }
      split; [destruct SG as (_ & -> & _); exact TN|]. split; [exact NM|].
      destruct ST as [ST|ST]; [congruence|]. destruct V as [-> | ->]; inversion ST; subst; intros z [<-|[<-|[<-|[<-|[]]]]]; auto.
  - intros k a e I IE. destruct (dm_mats _ _ _ _ _ _ D k a I) as (_ & n & es & LE & MO). destruct (mats88 n es LE) as [_ ->].
    destruct MO as [MA _]; [eexists; split; [left; reflexivity|discriminate]|]. destruct (made88 _ MA e IE) as [_ E].
    assert (S1 : show88 (snd e) = T "1").
    { unfold show88. replace (Qeq_bool (snd e) (-185 # 10)) with (Qeq_bool 1 (-185 # 10)) by now rewrite E. replace (Qeq_bool (snd e) 0) with (Qeq_bool 1 0) by now rewrite E. reflexivity. }
    unfold printed_well. rewrite S1. split; [split; [discriminate|]; split; reflexivity|]. eexists. split; [vm_compute; reflexivity|]. rewrite E. reflexivity.
  - intros c m q [<-|[<-|[<-|[]]]]; cbn [snd cs_mat]; try discriminate. injection 1 as <- <-. eexists. split; [vm_compute; reflexivity|reflexivity].
Qed.

(** The point (0, 0, 11/2): between the two balls. *)
Definition incell88 (w : text) : bool := text_eqb w (T "2").
Definition env88 (w : text) : bool :=
  text_eqb w (T "1") || text_eqb w (T "-2") || match w with c :: r => Ascii.eqb c "#" && negb (incell88 r) | [] => false end.
Lemma means88 : means_at (map snd cells88) (map snd surfs86) (trs_of (map snd data88)) (Pt 0 0 (11 / 2)) env88 incell88.
Proof.
  split.
  - intros s sn q [<-|[<-|[]]]; cbn [snd ss_shape ss_tr]; intro E; injection E as <-; intro P; inversion P; subst; [exists true|exists false];
    (split; [cbn [side neg pos of_fun]; unfold sphere; cbn [GeomSpec.px GeomSpec.py GeomSpec.pz]; lra|split; vm_compute; reflexivity]).
  - intros s f i q [<-|[<-|[]]]; cbn [snd ss_shape ss_tr]; intro E; discriminate.
  - intros c [<-|[<-|[<-|[]]]]; vm_compute; reflexivity.
  - intros c [<-|[<-|[<-|[]]]]; vm_compute; reflexivity.
Qed.

(** The file written for the example is read: three cells; the first is in universe 3 and has uranium with fraction 1 and
    density -18.5, but no library; the second is filled with universe 3; the third has importance 0; the point is in the second only. *)
Example C84_mcnp_example nuclide_order universe_order quick : exists N t d srfs,
  (forall fuel, N <= fuel -> program str88 show88 fuel nuclide_order universe_order quick [MCNP] file88 = Done ([(MCNP, File t)], Some d)) /\
  forall f, exists p x1 x2 x3 a v r1 r2 r3, read_file (S f) t = Some p /\ f_cells p = [x1; x2; x3] /\
    k_univ (snd x1) = Some (T "3") /\ (c_dens (fst x1) == -185 # 10)%Q /\ dget (str_Z (c_mat (fst x1))) (f_mats p) = Some a /\
    dget (T "92235") (m_comp a) = Some v /\ (v == 1)%Q /\ dget (T "92235") (m_xs a) = Some [] /\
    k_fill (snd x2) = Some (T "3") /\ (k_imp (snd x3) == 0)%Q /\
    expr (toks (c_items (fst x1))) r1 /\ expr (toks (c_items (fst x2))) r2 /\ expr (toks (c_items (fst x3))) r3 /\
    forall sense, (forall y, In y srfs -> (sense (fst y) = true <-> pos (snd y) (Pt 0 0 (11 / 2)))) ->
      map (holds (zenv sense)) [r1; r2; r3] = [false; true; false].
Proof.
  destruct (C84_mcnp_partial str88 show88 nuclide_order universe_order quick file88 _ surfs86 _ Z.to_nat describes88 good_cards88 (fine_cards88 quick) uncut_cards86 printable88
    nuclides88 str88_numeral show88_numeral) as (N0 & d & L & H).
  destruct H as (N & t & srfs & _ & PG & RD).
  { destruct (read_deck str88 show88 quick file88 _ surfs86 _ Z.to_nat describes88 good_cards88 (fine_cards88 quick)) as (N1 & d1 & L1 & D & _).
    assert (E : d1 = d) by (assert (A := L (max N0 N1)); assert (B := L1 (max N0 N1)); rewrite A in B by lia; specialize (B ltac:(lia)); now injection B). subst d1.
    exact (exact88 d N0 quick L D). }
  exists N, t, d, srfs. split; [exact PG|]. intro f. destruct (RD f) as (p & R & _ & _ & _ & MT & LC & C). cbn [map cells88 length] in LC.
  destruct (f_cells p) as [|x1 [|x2 [|x3 [|x4 l]]]] eqn:EC; try discriminate LC.
  destruct (C 0 _ x1 eq_refl eq_refl) as (r1 & (_ & X1 & _ & _ & U1 & _ & M1) & H1). destruct (C 1 _ x2 eq_refl eq_refl) as (r2 & (_ & X2 & _ & _ & _ & F2 & _) & H2).
  destruct (C 2 _ x3 eq_refl eq_refl) as (r3 & (_ & X3 & _ & I3 & _) & H3). cbn [cs_mat] in M1. destruct M1 as (_ & DE & a & GA & MA).
  assert (LM : last_for (str_Z 1) (mats_of (map snd data88)) [Nuclide (T "92235.70c") (T "2")]) by (exists [], []; split; [reflexivity|intros []]).
  specialize (MA _ LM). assert (MA' := MA). destruct MA' as (ND & k & _ & K1 & _). destruct (K1 (T "92235") 92235%Z) as (v & GV & _).
  { exists (T "92235.70c"), (T "2"). split; [now left|reflexivity]. }
  { vm_compute; reflexivity. }
  { vm_compute; discriminate. }
  exists p, x1, x2, x3, a, v, r1, r2, r3. split; [exact R|]. split; [exact EC|]. split.
  { destruct U1 as [(w & [E|[]] & U)|(NU & _)]; [injection E as <-; exact U|]. elim (NU (T "3")). now left. }
  split; [exact DE|]. split; [exact GA|]. split; [exact GV|]. assert (IV := dget_some_in _ _ _ GV). split; [exact (proj2 (made88 _ MA _ IV))|]. split.
  { apply (proj2 (MT _ a GA)). unfold keys. apply in_map_iff. now exists (T "92235", v). }
  split.
  { destruct F2 as [(star & w & tr & m & pl & [E|[]] & _ & U & _)|(NF & _)]; [injection E as <- <- <-; exact U|]. elim (NF false (T "3") (Some (T " ", T "1 0 0"))). now left. }
  split.
  { destruct I3 as (q & I3 & Q). rewrite Q. destruct I3 as [(vs & w & L3 & NV & PF)|[L3 _]]; [|specialize (L3 _ imp88); cbn [length] in L3; lia].
    rewrite (last_imp88 vs L3) in NV. injection NV as <-. vm_compute in PF. injection PF as <-. reflexivity. }
  split; [exact X1|]. split; [exact X2|]. split; [exact X3|]. intros sense SE. cbn [map].
  rewrite (H1 _ _ _ means88 sense SE), (H2 _ _ _ means88 sense SE), (H3 _ _ _ means88 sense SE). vm_compute. reflexivity.
Qed.
