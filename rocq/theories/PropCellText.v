(** What becomes of the words of a cell card: the texts of the cells in the deck in memory (cell_text_description), which
    are used to find the border of the root universe for SCONE (csg2csg/UniverseCard.py 76-86).  The texts change when
    macrobodies are replaced (csg2csg/MCNPInput.py 884-956) and not later: complements and duplicates change the items
    only (csg2csg/MCNPInput.py 967-1005, 1018-1107). *)
From Coq Require Import QArith Reals Lra Lia.
From Verif Require Import PyStr PyStrFacts PyInt PyIntFacts PyDict FortranNumber RegionSpec RegionFacts LexSpec CellModel CellProofs CellText
  SurfModel GeomSpec SurfSpec FlattenModel FlattenProofs MacroModel MacroText FlattenDeck NotsModel BoundaryModel DedupeModel MaterialModel
  PropFlatten NamesModel PropBoundary KeywordModel DeckScan FileModel FileProofs PropKeyword PropDeck ProcessModel ProcessSpec ProcessProofs PropProcess PropRead ConvertModel
  MainModel PropPlace PropMain PropCards PropProgram PropTexts UniverseModel PropUniverse.
From Verif Require PropDedupe.
Open Scope nat_scope.
Open Scope list_scope.

(** ** The stages after reading *)

(** No word of the text begins with two signs; a word that names a surface other than a macrobody stays; without names of
    macrobodies the text stays. *)
Definition text_kept (l : list surface) (c c' : cell) : Prop :=
  (forall w r, In w (c_text c') -> w <> "-"%char :: "-"%char :: r) /\
  (forall sg j, In (signed_word sg j) (c_text c) -> (0 <= j)%Z -> (forall s, In s l -> is_macrobody s = true -> s_id s <> j) -> In (signed_word sg j) (c_text c')) /\
  ((forall w s, In w (c_text c) -> In s l -> is_macrobody s = true -> ~ names (s_id s) w) -> c_text c' = c_text c).

Lemma signed_minus sg j r : (0 <= j)%Z -> signed_word sg j <> "-"%char :: "-"%char :: r.
Proof.
  intros P E. destruct (sid_digits j P) as [_ D]. assert (N := sid_no "-" j P eq_refl). unfold signed_word, sgn in E. destruct sg; cbn [app T list_ascii_of_string] in E.
  - injection E as E. apply N. rewrite E. now left.
  - apply N. rewrite E. now left.
Qed.

Lemma explode_texts fuel cells cells' : explode_nots fuel cells = Done cells' -> map c_text cells' = map c_text cells.
Proof.
  assert (NL : forall f before c after c', not_loop f before c after = Done c' -> c_text c' = c_text c).
  { induction f as [|f IH]; intros before c after c' H; cbn [not_loop] in H; destruct (nots_remaining (c_items c)); try discriminate;
      try (now injection H as <-). destruct (split_nots _ _) as [l|]; [|discriminate]. now rewrite (IH _ _ _ _ H). }
  assert (EC : forall todo before, explode_cells fuel before todo = Done cells' -> map c_text cells' = map c_text (before ++ todo)).
  { induction todo as [|c todo IH]; intros before H; cbn [explode_cells] in H; [injection H as <-; now rewrite app_nil_r|].
    destruct (not_loop fuel before c todo) as [c'| |] eqn:E; try discriminate. rewrite (IH _ H). rewrite <- app_assoc. cbn [app].
    rewrite !map_app. cbn [map]. now rewrite (NL _ _ _ _ _ E). }
  apply EC.
Qed.

Lemma process_texts i rank fuel o : good_input i rank -> process fuel i = Done o ->
  Forall2 (text_kept (i_surfs i)) (map fst (i_cells i)) (map fst (o_cells o)).
Proof.
  intros G EP. destruct (flatten_ready i rank G) as [MO CG]. set (cells := map fst (i_cells i)) in *. set (n := last_index (i_surfs i)) in *.
  pose proof (last_index_pos (i_surfs i)) as Pn. fold n in Pn.
  destruct (C29_flatten_keeps_regions_partial (FlattenModel.mkDeck (i_surfs i) cells n)) as
    (d & news & EF & ES & EM & ND & NR & EX & NW & FC); cbn [FlattenModel.d_surfs FlattenModel.d_cells d_last] in *; [exact MO| |exact Pn|exact CG|].
  { intros s I. split; [now apply (g_pos _ _ G)|now apply last_index_le]. }
  assert (F1 : Forall2 (text_kept (i_surfs i)) cells (FlattenModel.d_cells d)).
  { assert (CI : forall c, In c cells -> exists q, In (c, q) (i_cells i)) by apply (in_cells i).
    revert CI. clear - FC G Pn. induction FC as [|c c' l l' H F IH]; intro CI; constructor; [|apply IH; intros c0 I; apply CI; now right].
    destruct H as (_ & _ & _ & _ & _ & _ & WO & _ & _ & KW & KT). split; [|split; [|exact KT]].
    - intros w r Iw ->. assert (A : word_tok ("-"%char :: "-"%char :: r) = TAtom ("-"%char :: "-"%char :: r)).
      { destruct (rtok_atom_dec ("-"%char :: "-"%char :: r)) as [E|E]; [exact E|]. apply word_tok_single_inv in E as (c0 & E & _). discriminate E. }
      destruct (WO _ Iw) as [Iw'|[Q|(s & ct & j & sg & Is & Ij & E)]]; [|contradiction|].
      + destruct (CI c (or_introl eq_refl)) as (q & Iq). destruct (g_cells _ _ G c q Iq) as (_ & _ & _ & W).
        destruct (W _ Iw' A) as [(s & sg & Is & E)|[(s & sg & k & Is & Ms & K & KR & E)|(e & q' & Ie & E & R)]].
        * symmetry in E. revert E. apply signed_minus. pose proof (g_pos _ _ G s Is). lia.
        * pose proof (g_pos _ _ G s Is) as P. assert (N := sid_no "-" (s_id s) ltac:(lia) eq_refl). destruct (sid_digits (s_id s) ltac:(lia)) as [NE _].
          unfold facet_word, sgn in E. destruct (sid (s_id s)) as [|a t]; [now elim NE|]. destruct sg; cbn [app T list_ascii_of_string] in E.
          { injection E as E _. apply N. rewrite <- E. now left. }
          { injection E as E _. apply N. rewrite <- E. now left. }
        * discriminate E.
      + destruct (counters_ids _ _ _ _ Is) as (_ & _ & L). unfold range in Ij. apply in_map_iff in Ij as (k & <- & _). symmetry in E. revert E. apply signed_minus. lia.
    - intros sg j Iw P NJ. apply KW; [exact Iw|]. intros s Is Ms. apply names_signed; [pose proof (g_pos _ _ G s Is); lia|exact P|now apply NJ]. }
  unfold process in EP. fold cells n in EP. rewrite EF in EP.
  destruct (explode_nots fuel _) as [cs| |] eqn:EN; try discriminate. apply explode_texts in EN.
  assert (KEEP : forall l l', map c_text l' = map c_text l -> Forall2 (text_kept (i_surfs i)) cells l -> Forall2 (text_kept (i_surfs i)) cells l').
  { clear. intros l l' E F. revert l' E. induction F as [|c c1 a b H F IH]; intros [|c2 l'] E; try discriminate; constructor.
    - cbn [map] in E. injection E as E _. unfold text_kept in *. now rewrite E.
    - apply IH. cbn [map] in E. now injection E. }
  assert (F2 := KEEP _ _ EN F1). destruct (mapM _ (FlattenModel.d_surfs d)) as [ss|]; [|discriminate].
  assert (L2 : length cs = length (map snd (i_cells i))).
  { rewrite <- (forall2_len _ _ _ F2). unfold cells. now rewrite !map_length. }
  unfold apply_boundary_conditions in EP. destruct (apply_importances (i_imps i) (combine cs (map snd (i_cells i)))) as [cs'|] eqn:AI; [|discriminate].
  assert (E3 : map fst cs' = cs).
  { pose proof (apply_importances_cells (i_imps i) (combine cs (map snd (i_cells i))) _ eq_refl) as H. rewrite AI in H. destruct H as (_ & _ & H). rewrite H. now apply map_fst_combine. }
  destruct (graveyards cs' ss) as [ss'|]; [|discriminate]. destruct (bounding_coordinates _ _) as [bc|]; [|discriminate]. unfold finish in EP.
  destruct (i_quick i); [injection EP as <-; cbn [o_cells]; now rewrite E3|].
  destruct (remove_duplicates ss' _) as [[l cs4]|] eqn:R; [|discriminate]. injection EP as <-. cbn [o_cells].
  unfold remove_duplicates in R. destruct (entries 0 ss') as [es|]; [|discriminate]. cbv zeta in R. destruct (mapM (replace_cell _) _) as [cs5|] eqn:RC; [|discriminate]. injection R as _ <-.
  assert (E5 : map c_text cs5 = map c_text cs).
  { rewrite E3 in RC. apply PropDedupe.mapM_forall2 in RC. clear - RC. induction RC as [|c c2 a b H F IH]; [reflexivity|]. cbn [map]. f_equal; [|exact IH].
    unfold replace_cell in H. destruct (replace_all _ _); [|discriminate]. now injection H as <-. }
  rewrite map_fst_combine; [now apply (KEEP cs)|]. rewrite map_length. apply (f_equal (@length _)) in E3, E5. rewrite !map_length in *. congruence.
Qed.

Lemma gcells_nth str show : forall k xs ks ps ms g, nth_error (gcells str show xs ks ps ms) k = Some g -> exists x, nth_error xs k = Some x /\ g_text g = c_text (fst x).
Proof.
  induction k as [|k IH]; intros [|x xs] [|kw ks] [|p ps] [|m ms] g H; try discriminate; cbn [gcells nth_error] in *; [injection H as <-; now exists x|].
  exact (IH xs ks ps ms g H).
Qed.

(** ** The half spaces of a text *)

Lemma signed_numeric sg j : (0 <= j)%Z -> numeric (signed_word sg j) = true /\ py_int (signed_word sg j) = Some (if sg then (- j)%Z else j).
Proof.
  intro P. destruct (sid_digits j P) as [NE D]. assert (N := sid_no "-" j P eq_refl).
  assert (LS : lstrip_minus (sid j) = sid j).
  { destruct (sid j) as [|a t]; [reflexivity|]. cbn [lstrip_minus]. destruct (Ascii.eqb_spec a "-") as [->|]; [elim N; now left|reflexivity]. }
  assert (NU : numeric (sid j) = true) by (unfold numeric; rewrite LS; destruct (sid j); [now elim NE|exact D]).
  unfold signed_word, sgn. destruct sg; cbn [app T list_ascii_of_string].
  - split; [unfold numeric in *; cbn [lstrip_minus Ascii.eqb Bool.eqb]; now rewrite LS in *|]. rewrite py_int_minus by assumption. pose proof (py_int_str_Z j) as E. change (str_Z j) with (sid j) in E. rewrite py_int_digits in E by assumption. injection E as ->. reflexivity.
  - split; [exact NU|]. unfold sid. apply py_int_str_Z.
Qed.

Lemma halfspaces_in ts hs sg j : halfspaces ts = Some hs -> (0 <= j)%Z -> In (signed_word sg j) ts -> In (if sg then (- j)%Z else j) hs.
Proof.
  intros H P. destruct (signed_numeric sg j P) as [NU EI]. revert hs H. induction ts as [|t ts IH]; intros hs H I; [destruct I|]. cbn [halfspaces] in H. destruct I as [->|I].
  - rewrite NU, EI in H. destruct (halfspaces ts) as [l|]; [|discriminate]. injection H as <-. now left.
  - destruct (numeric t); [|now apply IH]. destruct (py_int t) as [z|]; [|discriminate]. destruct (halfspaces ts) as [l|]; [|discriminate]. injection H as <-. right. now apply IH.
Qed.

(** Only the names of surfaces count. *)
Lemma halfspaces_atoms ts : halfspaces ts = halfspaces (tok_atoms (map word_tok ts)).
Proof.
  unfold tok_atoms. induction ts as [|t ts IH]; [reflexivity|]. cbn [map flat_map].
  destruct (word_tok_cases t) as [[-> Q]|[[-> Q]|[[-> Q]|(_ & _ & _ & Q)]]].
  1,2,3: rewrite Q; cbn [app]; rewrite <- IH; reflexivity.
  rewrite Q. destruct (text_eqb_spec t (T ")")) as [E|_].
  - rewrite E. cbn [app]. rewrite <- IH. reflexivity.
  - cbn [app halfspaces]. now rewrite IH.
Qed.

(** ** The cells of a file *)

Lemma word_of_atom ws w : In w (tok_atoms (map word_tok ws)) -> In w ws.
Proof.
  unfold tok_atoms. intro I. apply in_flat_map in I as (t & I & H). apply in_map_iff in I as (v & <- & I).
  destruct (word_tok_cases v) as [[-> Q]|[[-> Q]|[[-> Q]|(_ & _ & _ & Q)]]]; rewrite Q in H; try destruct H.
  destruct (text_eqb v (T ")")); [destruct H|]. destruct H as [<-|[]]. exact I.
Qed.

Lemma load_texts str show quick s cells ss ds rank d N : describes s cells ss ds -> good_cards cells (map snd ss) ds rank -> fine_cards quick (trs_of ds) ss ->
  (forall fuel, N <= fuel -> load str show fuel quick s = Done d) -> forall k c g, nth_error cells k = Some c -> nth_error (d_cells d) k = Some g ->
  (forall w r, In w (g_text g) -> w <> "-"%char :: "-"%char :: r) /\
  (forall sg y sn, In (signed_word sg (ss_id y)) (atoms (cs_region c)) -> In y (map snd ss) -> ss_shape y = Plain sn -> In (signed_word sg (ss_id y)) (g_text g)) /\
  ((forall w y f i, In w (atoms (cs_region c)) -> In y (map snd ss) -> ss_shape y = Body f i -> ~ names (ss_id y) w) -> tok_atoms (map word_tok (g_text g)) = atoms (cs_region c)).
Proof.
  intros (title & noisy & cs & b1 & b2 & dd & H1 & H2 & H3 & H4 & H5 & H6 & H7 & SC & SS & SD & -> & ->) G FW L k c g HC HG.
  destruct (file_read s title noisy cs b1 ss b2 dd H1 H2 H3 H4 H5 H6 H7 SC SS SD) as (p & R & _ & FC & FS & IG & TG & MG).
  assert (FC' : Forall2 (fun x y => cell_got x y /\ cell_kept y) (map snd cs) (f_cells p)) by (clear - FC; induction FC; cbn [map]; constructor; auto).
  assert (FS' : Forall2 surf_got (map snd ss) (f_surfs p)) by (clear - FS; induction FS as [|x y l l' [H _] F IH]; cbn [map]; constructor; auto).
  set (cells := map snd cs) in *. set (surfs := map snd ss) in *. set (ds := map snd dd) in *.
  assert (FM : memory_fine quick p) by now apply (cards_memory quick ss ds).
  destruct (load_stages str show (S N) quick s p d (R N) (L (S N) ltac:(lia))) as (imps & o & pls & mcs & EP & _ & _ & EC).
  rewrite EC in HG. apply gcells_nth in HG as (x & HX & EG).
  assert (PT := process_texts _ rank _ _ (input_good cells surfs ds rank quick p G FM FC' FS' TG imps) EP). unfold in_of in PT. cbn [i_cells i_surfs] in PT. rewrite map_map in PT. cbn [fst] in PT.
  destruct (nth_there _ _ k c (forall2_len _ _ _ FC') HC) as (y & HY). destruct (forall2_nth _ _ _ FC' k c y HC HY) as [(_ & _ & EX & _) ((_ & TK & _) & _)].
  assert (AT : tok_atoms (map word_tok (c_text (fst y))) = atoms (cs_region c)) by (rewrite <- TK; exact (proj1 expr_atoms _ _ EX)).
  destruct (forall2_nth _ _ _ PT k (fst y) (fst x)) as (P1 & P2 & P3); [now apply (map_nth_error (fun x => fst x))|now apply map_nth_error|].
  rewrite EG. split; [exact P1|]. split.
  - intros sg z sn IA IZ SH. apply P2.
    + apply word_of_atom. now rewrite AT.
    + pose proof (gc_pos _ _ _ _ G z IZ). lia.
    + intros u IU MU E. destruct (forall2_pick _ _ _ _ FS' IU) as (v & IV & SG). destruct (got_macro _ _ SG MU) as (f & i & _ & _ & SH2 & _).
      destruct SG as (E1 & _). rewrite E1 in E. assert (v = z) by (exact (PropDedupe.nodup_map_inj ss_id _ _ _ (gc_ids _ _ _ _ G) IV IZ E)). congruence.
  - intro NN. rewrite P3; [exact AT|]. intros w u IW IU MU NW. destruct (forall2_pick _ _ _ _ FS' IU) as (v & IV & SG). destruct (got_macro _ _ SG MU) as (f & i & _ & _ & SH2 & _).
    destruct SG as (E1 & _). rewrite E1 in NW. apply (NN w v f i); [|exact IV|exact SH2|exact NW]. rewrite <- AT. unfold tok_atoms. apply in_flat_map. exists (word_tok w).
    split; [now apply in_map|]. rewrite (names_atom _ _ NW). now left.
Qed.
