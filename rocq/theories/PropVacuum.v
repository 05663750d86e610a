(** Which surfaces of an MCNP file become vacuum boundaries: csg2csg/MCNPInput.py 61-88 and 1142-1162 (importances and boundary
    conditions) seen from the characters of the file, and csg2csg/OpenMCSurface.py 9-23 for what is written for OpenMC. *)
From Coq Require Import QArith Reals Lra Lia.
From Verif Require Import PyStr PyStrFacts PyInt PyIntFacts PyDict FortranNumber RegionSpec RegionFacts LexSpec CellModel CellProofs CellText
  SurfModel GeomSpec SurfSpec FlattenModel FlattenProofs MacroModel MacroText FlattenDeck NotsModel BoundaryModel DedupeModel MaterialModel
  PropFlatten NotsProofs NamesModel PropBoundary DedupeProofs KeywordModel DeckScan FileModel FileProofs PropKeyword PropDeck ProcessModel ProcessSpec ProcessProofs PropProcess PropRead ConvertModel
  MainModel PropPlace PropMain PropCards PropDedupe MacroSpec MacroProofs PropMacro.
From Verif Require Import SurfWritersProofs PropProgram PropTexts OpenMCPrune.
From Verif Require PropOpenMC.
Open Scope nat_scope.
Open Scope list_scope.

(** ** What is recorded for a cell *)

(** A geometry, as it is written, names surface [n], and not right after an opening parenthesis. *)
Definition set_off (geom : text) (n : Z) : Prop :=
  exists a w b z, mcnp_lex geom = a ++ TAtom w :: b /\ py_int w = Some z /\ Z.abs z = n /\ forall a', a <> a' ++ [TOpen].

Lemma recorded_words ws : forall ao n, In n (recorded ao ws) <->
  exists a w b z, ws = a ++ w :: b /\ py_int w = Some z /\ Z.abs z = n /\ (a = [] -> ao = false) /\ forall a', a <> a' ++ [T "("].
Proof.
  induction ws as [|s ws IH]; intros ao n; cbn [recorded].
  - split; [intros []|]. intros ([|? ?] & w & b & z & E & _); discriminate.
  - assert (TL : forall ao', In n (recorded ao' ws) <-> exists a w b z, s :: ws = (s :: a) ++ w :: b /\ py_int w = Some z /\ Z.abs z = n /\ (a = [] -> ao' = false) /\ forall a', a <> a' ++ [T "("]).
    { intro ao'. rewrite IH. split; intros (a & w & b & z & E & H).
      - exists a, w, b, z. split; [cbn [app]; now rewrite E|exact H].
      - exists a, w, b, z. split; [cbn [app] in E; now injection E|exact H]. }
    assert (HD : forall a w b z, s :: ws = a ++ w :: b -> py_int w = Some z -> (a = [] /\ w = s) \/ exists a1, a = s :: a1).
    { intros [|x a] w b z E _; cbn [app] in E; [injection E as -> _; now left|]. injection E as <- _. right. now exists a. }
    destruct (text_eqb s (T "(")) eqn:P.
    + apply text_eqb_eq in P. subst s. rewrite TL. split; intros (a & w & b & z & E & Z1 & Z2 & Z3 & Z4).
      * exists (T "(" :: a), w, b, z. split; [exact E|]. split; [exact Z1|]. split; [exact Z2|]. split; [discriminate|]. intros [|x a'] Q; cbn [app] in Q; injection Q as Q1.
        { now specialize (Z3 Q1). }
        { now apply (Z4 a'). }
      * destruct (HD a w b z E Z1) as [[-> ->]|(a1 & ->)]; [discriminate Z1|]. exists a1, w, b, z. split; [exact E|]. split; [exact Z1|]. split; [exact Z2|]. split.
        { intros ->. elim (Z4 []). reflexivity. }
        { intros a' ->. now elim (Z4 (T "(" :: a')). }
    + assert (NP : s <> T "(") by (intro Q; rewrite Q in P; discriminate P).
      assert (NX : forall a : list text, (forall a', a <> a' ++ [T "("]) -> forall a', s :: a <> a' ++ [T "("]).
      { intros a F [|x a'] Q; cbn [app] in Q; [injection Q as Q1 _; contradiction|]. injection Q as _ Q. now apply (F a'). }
      assert (REST : In n (recorded false ws) <-> exists a w b z, s :: ws = (s :: a) ++ w :: b /\ py_int w = Some z /\ Z.abs z = n /\ forall a', s :: a <> a' ++ [T "("]).
      { rewrite TL. split; intros (a & w & b & z & E & Z1 & Z2 & Z3).
        - exists a, w, b, z. split; [exact E|]. split; [exact Z1|]. split; [exact Z2|]. apply NX, Z3.
        - exists a, w, b, z. split; [exact E|]. split; [exact Z1|]. split; [exact Z2|]. split; [reflexivity|]. intros a' ->. now apply (Z3 (s :: a')). }
      destruct ao.
      * rewrite REST. split; intros (a & w & b & z & E & Z1 & Z2 & Z3).
        { exists (s :: a), w, b, z. split; [exact E|]. split; [exact Z1|]. split; [exact Z2|]. split; [discriminate|exact Z3]. }
        { destruct Z3 as [Z3 Z4]. destruct (HD a w b z E Z1) as [[-> ->]|(a1 & ->)]; [discriminate (Z3 eq_refl)|]. exists a1, w, b, z. auto. }
      * rewrite in_app_iff, REST. split.
        { intros [I|(a & w & b & z & E & Z1 & Z2 & Z3)].
          - unfold surf_of in I. destruct (py_int s) as [z|] eqn:EZ; [|destruct I]. destruct I as [I|[]]. exists [], s, ws, z. split; [reflexivity|]. split; [exact EZ|]. split; [exact I|].
            split; [reflexivity|]. intros [|? ?]; discriminate.
          - exists (s :: a), w, b, z. split; [exact E|]. split; [exact Z1|]. split; [exact Z2|]. split; [reflexivity|exact Z3]. }
        { intros (a & w & b & z & E & Z1 & Z2 & _ & Z3). destruct (HD a w b z E Z1) as [[-> ->]|(a1 & ->)].
          - left. unfold surf_of. rewrite Z1. now left.
          - right. exists a1, w, b, z. auto. }
Qed.

Lemma tok_open w : word_tok w = TOpen -> w = T "(".
Proof.
  intro E. destruct (word_tok_cases w) as [[-> Q]|[[-> Q]|[[-> Q]|(_ & _ & _ & Q)]]]; [rewrite E in Q; discriminate Q|rewrite E in Q; discriminate Q|reflexivity|].
  rewrite E in Q. destruct (text_eqb w (T ")")); discriminate Q.
Qed.
Lemma tok_atom w v : word_tok w = TAtom v -> w = v.
Proof.
  intro E. destruct (word_tok_cases w) as [[-> Q]|[[-> Q]|[[-> Q]|(_ & _ & _ & Q)]]]; try (rewrite E in Q; discriminate Q).
  rewrite E in Q. destruct (text_eqb w (T ")")); [discriminate Q|now injection Q].
Qed.
Lemma tok_int w z : py_int w = Some z -> word_tok w = TAtom w.
Proof.
  intro E. destruct (word_tok_cases w) as [[-> Q]|[[-> Q]|[[-> Q]|(_ & _ & _ & Q)]]]; try discriminate E.
  destruct (text_eqb_spec w (T ")")) as [W|_]; [rewrite W in E; discriminate E|exact Q].
Qed.

Lemma recorded_tokens geom its sf r n : hash_ok true geom = true -> expr (mcnp_lex geom) r ->
  CellModel.generalise (words (CellModel.spacify geom)) = Some (its, sf) -> (In n sf <-> set_off geom n).
Proof.
  intros HO EX GE. unfold CellModel.generalise in GE. apply gen_loop_surfs in GE. rewrite GE, recorded_words. unfold set_off.
  rewrite <- (spacify_lex geom HO) in *. set (ws := words (CellModel.spacify geom)) in *. split.
  - intros (a & w & b & z & E & Z1 & Z2 & Z3 & Z4). exists (map word_tok a), w, (map word_tok b), z.
    split; [rewrite E, map_app; cbn [map]; now rewrite (tok_int w z Z1)|]. split; [exact Z1|]. split; [exact Z2|]. intros a' Q.
    apply map_eq_app in Q as (l1 & l2 & -> & _ & Q). destruct l2 as [|x [|? ?]]; try discriminate Q. injection Q as Q. apply tok_open in Q. subst x. now apply (Z4 l1).
  - intros (a & w & b & z & E & Z1 & Z2 & Z3). apply map_eq_app in E as (l1 & l2 & -> & E1 & E2). destruct l2 as [|x l2]; [discriminate E2|].
    cbn [map] in E2. injection E2 as E2 E3. apply tok_atom in E2. subst x. exists l1, w, l2, z. split; [reflexivity|]. split; [exact Z1|]. split; [exact Z2|]. split.
    + intros ->. cbn [item_is]. destruct (text_eqb_spec (last ([] ++ w :: l2) []) (T "(")) as [Q|_]; [|reflexivity]. exfalso.
      cbn [app] in Q. assert (W : word_tok (last (w :: l2) []) = TOpen) by now rewrite Q.
      assert (L : map word_tok (w :: l2) = map word_tok (removelast (w :: l2)) ++ [TOpen]).
      { rewrite <- W. rewrite (app_removelast_last (l := w :: l2) []) at 1 by discriminate. now rewrite map_app. }
      cbn [app] in EX. rewrite L in EX. destruct (proj1 wf_ends _ _ EX) as (t' & t & Q1 & Q2). apply app_inj_tail in Q1 as [_ <-]. discriminate Q2.
    + intros a' ->. apply (Z3 (map word_tok a')). now rewrite <- E1, map_app.
Qed.

(** ** Flattening and complements *)

(** A cell that names no macrobody keeps what is recorded for it. *)
Definition same_record (c c' : cell) : Prop := forall n, In n (c_surfs c') <-> In n (c_surfs c).
Definition recorded_well (c : cell) : Prop := exists its sf, CellModel.generalise (c_text c) = Some (its, sf) /\ forall n, In n sf <-> In n (c_surfs c).

Lemma flatten_cell_record id x c c' : Forall token (c_text c) -> (forall w, In w (c_text c) -> macro_match id w = false) ->
  recorded_well c -> flatten_cell id x c = Some c' -> c_text c' = c_text c /\ same_record c c' /\ recorded_well c'.
Proof.
  intros TK NM (its & sf & GE & ES) H. unfold flatten_cell in H. cbn [flatten_words] in H.
  assert (E : existsb (macro_match id) (c_text c) = false).
  { destruct (existsb (macro_match id) (c_text c)) eqn:E; [|reflexivity]. apply existsb_exists in E as (w & I & E). now rewrite NM in E. }
  rewrite E in H. unfold update in H. rewrite drop_dollars_none in H.
  2:{ intro J. apply in_spacify in J as [J|[J|J]]; try discriminate. revert J. apply join_nodollar.
      apply (Forall_impl _) with (2 := TK). intros w. apply token_nodollar. }
  assert (W : words (CellModel.spacify (join_sp (c_text c))) = c_text c).
  { rewrite words_join. clear - TK. induction TK as [|w l T F IH]; [reflexivity|]. cbn [flat_map]. now rewrite (token_words w T), IH. }
  rewrite W, GE in H. injection H as <-. unfold recorded_well, same_record. cbn [c_text c_surfs].
  assert (S : forall n, In n (c_surfs c ++ sf) <-> In n (c_surfs c)) by (intro n; rewrite in_app_iff, ES; tauto).
  split; [reflexivity|]. split; [exact S|]. exists its, sf. split; [exact GE|]. intro n. rewrite S. apply ES.
Qed.

Definition record_kept (l : list surface) (c c' : cell) : Prop := unnamed l c -> recorded_well c -> same_record c c'.

Lemma flatten_loop_record l : forall d d', flatten_loop l d = Some d' -> Forall2 (record_kept l) (FlattenModel.d_cells d) (FlattenModel.d_cells d').
Proof.
  induction l as [|s l IH]; intros d d' H; cbn [flatten_loop] in H.
  - injection H as <-. induction (FlattenModel.d_cells d); constructor; auto. intros _ _ n. reflexivity.
  - destruct (flatten_one d s) as [d1|] eqn:E; [|discriminate]. specialize (IH d1 d' H). unfold flatten_one in E.
    destruct (is_macrobody s) eqn:M.
    + destruct (explode_macrobody (d_last d) s) as [x|]; [|discriminate].
      destruct (mapM (flatten_cell (sid (s_id s)) x) (FlattenModel.d_cells d)) as [cs|] eqn:MC; [|discriminate]. injection E as <-. cbn [FlattenModel.d_cells] in IH.
      apply PropDedupe.mapM_forall2 in MC. clear - MC IH M. revert IH. generalize (FlattenModel.d_cells d').
      induction MC as [|c c1 a b H MC IHc]; intros l2 F; inversion F as [|? c2 ? l2' K F']; subst; constructor; [|auto].
      intros (TK & NM) RW. destruct (flatten_cell_record _ _ _ _ TK (fun w Iw => NM s w (or_introl eq_refl) M Iw) RW H) as (ET & ES & RW1).
      intro n. rewrite <- (ES n). apply K; [|exact RW1]. split; rewrite ET; [exact TK|]. intros t w It. apply NM. now right.
    + injection E as <-. clear - IH. induction IH as [|c c2 a b K F IHc]; constructor; [|exact IHc]. intros (TK & NM).
      apply K. split; [exact TK|]. intros t w It. apply NM. now right.
Qed.
Lemma flatten_record d d' : flatten_macrobodies d = Some d' -> Forall2 (record_kept (FlattenModel.d_surfs d)) (FlattenModel.d_cells d) (FlattenModel.d_cells d').
Proof.
  unfold flatten_macrobodies. destruct (flatten_loop (FlattenModel.d_surfs d) d) as [d1|] eqn:E; [|discriminate]. intro H. injection H as <-. cbn [FlattenModel.d_cells].
  now apply flatten_loop_record.
Qed.

(** A cell of importance 0 names no macrobody in any way the program would notice. *)
Lemma graveyard_unnamed i rank c q : good_input i rank -> In (c, q) (i_cells i) -> plain_graveyard i c -> unnamed (i_surfs i) c.
Proof.
  intros G Ic (GE & NN). destruct (g_cells _ _ G c q Ic) as (_ & (TK & _) & _ & W).
  assert (WW : forall w, In w (c_text c) -> word_tok w <> TAtom w \/ (exists s sg, In s (i_surfs i) /\ is_macrobody s = false /\ w = signed_word sg (s_id s)) \/
    exists d q, In (d, q) (i_cells i) /\ w = "#"%char :: str_Z (c_id d)).
  { intros w Iw. destruct (word_tok_cases w) as [[-> Q]|[[-> Q]|[[-> Q]|(_ & _ & _ & Q)]]]; [left; discriminate..|].
    destruct (text_eqb_spec w (T ")")) as [Ew|Nw]; [left; subst w; discriminate|]. right.
    destruct (W w Iw Q) as [(s & sg & Is & ->)|[(s & sg & k & Is & Ms & K1 & _ & ->)|(d0 & q0 & Id & -> & _)]].
    - left. exists s, sg. split; [exact Is|]. split; [|reflexivity]. destruct (is_macrobody s) eqn:Ms; [|reflexivity]. exfalso.
      apply (NN s _ Is Ms Iw). destruct sg; [right; left; reflexivity|left; reflexivity].
    - exfalso. apply (NN s _ Is Ms Iw). right. right. exists sg, k. split; [|reflexivity]. pose proof (facets_le s). lia.
    - right. eauto. }
  split; [exact TK|]. intros s w Is Ms Iw. destruct (macro_match (sid (s_id s)) w) eqn:MM; [|reflexivity]. exfalso.
  destruct (WW w Iw) as [Q|[(s' & sg & Is' & Ms' & ->)|(d0 & q0 & Id & ->)]].
  - apply match_shape in MM as [->|[->|S]]; [apply Q, word_tok_sid|apply Q, word_tok_minus|].
    apply sub_in_app in S as (a & b & E). apply word_tok_single_inv in Q as (ch & -> & Dl).
    assert (D : In "."%char [ch]) by (rewrite E, !in_app_iff; right; left; right; now left). destruct D as [->|[]]. discriminate Dl.
  - pose proof (g_pos _ _ G s Is). pose proof (g_pos _ _ G s' Is').
    destruct (after_digits (s_id s) (s_id s')) as [D1 D2]; [lia|lia| |destruct sg; congruence].
    intro E. assert (s = s') by (exact (nodup_map_inj s_id _ _ _ (g_ids _ _ G) Is Is' E)). congruence.
  - apply match_shape in MM as [E|[E|S]].
    + pose proof (sid_nohash (s_id s)) as D. rewrite <- E in D. apply D. now left.
    + discriminate E.
    + apply sub_in_app in S as (a & b & E).
      assert (D : In "."%char ("#"%char :: str_Z (c_id d0))) by (rewrite E, !in_app_iff; right; left; right; now left).
      destruct D as [D|D]; [discriminate|]. revert D. destruct (g_cells _ _ G d0 q0 Id) as (P & _). apply (sid_no "." (c_id d0)); [lia|reflexivity].
Qed.

(** ** The surfaces after processing *)

Lemma new_trans n s x t : explode_macrobody n s = Some x -> In t (inherit s (x_surfs x)) -> s_bc t = TRANSMISSION.
Proof.
  assert (K : explode_macrobody n s = Some x -> Forall (fun t => s_bc t = TRANSMISSION) (x_surfs x)).
  { unfold explode_macrobody. generalize (s_coef s). intros l E. destruct (s_type s); try (injection E as <-; constructor);
      repeat (match type of E with match ?l with _ => _ end = _ => destruct l as [|? ?] end; try discriminate E);
      injection E as <-; cbn [x_surfs]; repeat (constructor; [reflexivity|]); constructor. }
  intros E I. specialize (K E). rewrite Forall_forall in K. unfold inherit in I. destruct (s_tr s); [|now apply K].
  apply in_map_iff in I as (u & <- & I). exact (K u I).
Qed.

(** What is left of a surface is a vacuum boundary exactly if its number is recorded for a cell of importance 0. *)
Lemma process_vacuum i rank fuel o cs : good_input i rank -> Forall (fun s => s_bc s = TRANSMISSION) (i_surfs i) -> process fuel i = Done o ->
  apply_importances (i_imps i) (i_cells i) = Some cs -> (forall c q, In (c, q) cs -> (q == 0)%Q -> plain_graveyard i c) ->
  (forall s, In s (o_surfs o) -> (s_bc s = VACUUM \/ s_bc s = TRANSMISSION) /\
    (s_bc s = VACUUM <-> exists c q, In (c, q) cs /\ (q == 0)%Q /\ In (s_id s) (c_surfs c))) /\
  (i_quick i = true -> forall s, In s (i_surfs i) -> is_macrobody s = false -> In (s_id s) (map s_id (o_surfs o))).
Proof.
  intros G SB EP EA PG. destruct (stages i rank G) as (N & d & cells2 & surfs2 & EF & EN & ET & IP & Nd & _). unfold process in EP. rewrite EF in EP.
  destruct (explode_nots fuel _) as [cells| |] eqn:EX; try discriminate. rewrite ET in EP.
  assert (ES := explode_surfs _ _ _ EX). assert (FK := flatten_record _ _ EF). cbn [FlattenModel.d_cells FlattenModel.d_surfs] in FK.
  assert (L2 : length cells = length (map snd (i_cells i))).
  { apply (f_equal (@length _)) in ES. rewrite !map_length in ES. rewrite ES, <- (forall2_len _ _ _ FK). now rewrite !map_length. }
  set (ic := combine cells (map snd (i_cells i))) in *.
  pose proof (apply_importances_cells (i_imps i) (i_cells i) ic (eq_sym (map_snd_combine _ _ L2))) as AI. rewrite EA in AI.
  unfold apply_boundary_conditions in EP. destruct (apply_importances (i_imps i) ic) as [cells3|]; [|contradiction]. destruct AI as (Sn & Fi & Fc).
  assert (Fst : map fst ic = cells) by (apply map_fst_combine; exact L2). rewrite Fst in Fc.
  destruct (graveyards cells3 surfs2) as [surfs3|] eqn:EG; [|discriminate].
  assert (S2 : Forall (fun s => s_bc s = TRANSMISSION) surfs2).
  { assert (S1 : Forall (fun s => s_bc s = TRANSMISSION) (FlattenModel.d_surfs d)).
    { unfold flatten_macrobodies in EF. cbn [FlattenModel.d_surfs] in EF. destruct (flatten_loop _ _) as [d'|] eqn:L; [|discriminate]. injection EF as <-. cbn [FlattenModel.d_surfs].
      apply (flatten_loop_inv _ (fun n s x t _ => new_trans n s x t)) in L; [|exact SB|exact SB]. apply Forall_forall. intros s I. apply filter_In in I as [I _]. rewrite Forall_forall in L. now apply L. }
    clear - S1 ET. revert surfs2 ET. induction S1 as [|s l H F IH]; intros ss M; cbn [mapM] in M; [injection M as <-; constructor|].
    destruct (apply_transform _ s) as [t|] eqn:A; [|discriminate]. destruct (mapM _ l) as [ss'|]; [|discriminate]. injection M as <-.
    constructor; [rewrite (proj1 (transform_inv _ _ _ A)); exact H|now apply IH]. }
  assert (E3 : surfs3 = map (fun s => vacuum_if (dead cells3 s) s) surfs2).
  { rewrite graveyards_eq in EG; [now injection EG|exact Nd|]. intros c q j I Q J. destruct (in_dec Z.eq_dec j (map s_id surfs2)) as [K|K]; [exact K|]. exfalso.
    assert (X : graveyards cells3 surfs2 = None) by (apply C39_fails_iff; exists c, q, j; split; [exact I|]; split; [now apply Qeq_bool_iff|]; now split). congruence. }
  (* the cells of importance 0 *)
  assert (DEAD : forall s, dead cells3 s = true <-> exists c q, In (c, q) cs /\ (q == 0)%Q /\ In (s_id s) (c_surfs c)).
  { assert (F3 : Forall2 (fun x y => snd x = snd y /\ ((snd x == 0)%Q -> same_record (fst x) (fst y))) cs cells3).
    { assert (F4 : Forall2 (fun c c2 => record_kept (i_surfs i) c c2) (map fst cs) (map fst cells3)).
      { rewrite Fi, Fc. clear - FK ES. revert cells ES. induction FK as [|a b l l' K F IH]; intros [|c2 cells2] E; try discriminate; constructor.
        - cbn [map] in E. injection E as E _. intros U R n. rewrite E. now apply K.
        - apply IH. cbn [map] in E. now injection E. }
      assert (H : forall c q, In (c, q) cs -> (q == 0)%Q -> unnamed (i_surfs i) c /\ recorded_well c).
      { intros c q I Z. assert (P := PG c q I Z). assert (Ic : In c (map fst (i_cells i))) by (rewrite <- Fi; now apply (in_map fst cs (c, q))).
        apply in_map_iff in Ic as ([c' q'] & E & Ic). cbn [fst] in E. subst c'. split; [now apply (graveyard_unnamed i rank c q')|].
        destruct P as [P _]. exists (c_items c), (c_surfs c). split; [exact P|]. tauto. }
      clear - F4 Sn H. revert cells3 F4 Sn. induction cs as [|[c r] cs IH]; intros [|[c3 r3] cells3] F Sn; cbn [map fst snd] in *; inversion F as [|? ? ? ? K F']; subst; constructor.
      - injection Sn as <- Sn. cbn [fst snd]. split; [reflexivity|]. intro Z. destruct (H c r (or_introl eq_refl) Z) as [U R]. now apply K.
      - injection Sn as _ Sn. apply IH; [|exact F'|exact Sn]. intros c0 q I. apply H. now right. }
    intro s. unfold dead. rewrite existsb_exists. unfold marked. split.
    - intros ([c2 q] & I & H). apply andb_prop in H as [Q M]. cbn [fst snd] in *. apply Qeq_bool_iff in Q. apply existsb_exists in M as (j & J & E). apply Z.eqb_eq in E. subst j.
      destruct (forall2_pick _ _ _ _ F3 I) as ([c q'] & I' & E & K). cbn [fst snd] in *. subst q'. exists c, q. split; [exact I'|]. split; [exact Q|]. now apply (K Q).
    - intros (c & q & I & Q & J). destruct (forall2_take _ _ _ _ F3 I) as ([c2 q'] & I' & E & K). cbn [fst snd] in *. subst q'. exists (c2, q). split; [exact I'|].
      cbn [fst snd]. rewrite (proj2 (Qeq_bool_iff q 0) Q). cbn [andb]. apply existsb_exists. exists (s_id s). split; [now apply (K Q)|apply Z.eqb_refl]. }
  assert (ALL : Forall (fun s => (s_bc s = VACUUM \/ s_bc s = TRANSMISSION) /\ (s_bc s = VACUUM <-> exists c q, In (c, q) cs /\ (q == 0)%Q /\ In (s_id s) (c_surfs c))) surfs3).
  { rewrite E3. apply Forall_map. apply (Forall_impl _) with (2 := S2). intros s H. unfold vacuum_if. destruct (dead cells3 s) eqn:D.
    - apply DEAD in D. cbn [with_bc s_bc s_id]. tauto.
    - rewrite H. split; [now right|]. split; [discriminate|]. intro X. apply DEAD in X. congruence. }
  rewrite Forall_forall in ALL. destruct (bounding_coordinates _ _) as [bc|]; [|discriminate]. unfold finish in EP. destruct (i_quick i); [injection EP as <-; split; [exact ALL|]; intros _ s I M; cbn [o_surfs]; rewrite E3, map_vacuum_ids; now apply IP|].
  destruct (remove_duplicates surfs3 _) as [[l ?]|] eqn:R; [|discriminate]. injection EP as <-. cbn [o_surfs]. unfold remove_duplicates in R.
  destruct (entries 0 surfs3) as [es|] eqn:ENT; [|discriminate]. cbv zeta in R. destruct (mapM (replace_cell _) _); [|discriminate]. injection R as <- _. apply entries_org in ENT.
  split; [|discriminate]. intros s I. apply ALL. rewrite <- ENT. unfold keep in I. apply in_map_iff in I as (e & <- & I). apply filter_In in I as [I _]. now apply in_map.
Qed.

(** ** The file *)

(** The importance of a cell is one number. *)
Lemma importance_one ds k c q q' : once c -> (forall vs ws, last_imp ds vs -> last_imp ds ws -> vs = ws) ->
  importance ds k c q -> importance ds k c q' -> q = q'.
Proof.
  intros O U [(vs & v & L & E & P)|[L H]] [(vs' & v' & L' & E' & P')|[L' H']].
  - rewrite (U _ _ L L') in E. congruence.
  - exfalso. apply L' in L. apply nth_error_None in L. congruence.
  - exfalso. apply L in L'. apply nth_error_None in L'. congruence.
  - destruct H as [(v & K & P)|[N ->]], H' as [(v' & K' & P')|[N' ->]]; [|now elim (N' v)|now elim (N v')|reflexivity].
    apply in_map_iff in K as (e1 & E1 & I1). apply in_map_iff in K' as (e2 & E2 & I2).
    assert (E : e1 = e2) by (apply (kinds_once (cs_keys c)); auto; unfold kind; now rewrite E1, E2). subst e2. rewrite E1 in E2. injection E2 as <-. congruence.
Qed.

(** The cell cards with their geometry as it is written. *)
Definition geometries (cs : list (card * cell_says)) (geoms : list text) : Prop :=
  Forall2 (fun x g => says_geom (PropDeck.card_text (fst x)) (snd x) g) cs geoms.
(** A card of importance 0 names surface [n], and not right after an opening parenthesis. *)
Definition outside_names (ds : list data_says) (cells : list cell_says) (geoms : list text) (n : Z) : Prop :=
  exists k c g q, nth_error cells k = Some c /\ nth_error geoms k = Some g /\ importance ds k c q /\ (q == 0)%Q /\ set_off g n.

Lemma forall2_same_right {A B C} (P : A -> B -> Prop) (Q : A -> C -> Prop) l l1 l2 : Forall2 P l l1 -> Forall2 Q l l2 -> Forall2 (fun b c => exists a, P a b /\ Q a c) l1 l2.
Proof. intros F. revert l2. induction F as [|a b l l1 H F IH]; intros l2 G; inversion G; subst; constructor; eauto. Qed.

(** C86: which surfaces of a file become vacuum boundaries.  In the deck read from the file every surface is either an
    ordinary one or a vacuum boundary, and it is a vacuum boundary exactly if a cell card of importance 0 names it somewhere
    else than right after an opening parenthesis.  (The full property would be: exactly if such a card names it at all, by its
    own number, by a complement or by a macrobody; see the refutations below and C39.)  Unless duplicates are removed, every
    surface card other than a macrobody has its surface in the deck. *)
Theorem C86_vacuum_partial str show quick s title noisy cs b1 ss b2 dd rank geoms :
  file_of s (title :: noisy) -> sub_in (T "message") title = false ->
  with_comments (flat_map (fun x => card_lines (fst x)) cs ++ b1 :: flat_map (fun x => card_lines (fst x)) ss ++ b2 ::
                 flat_map (fun x => card_lines (fst x)) dd) noisy ->
  b1 <> [] -> spaces b1 -> b2 <> [] -> spaces b2 ->
  says_cells cs -> says_surfs ss -> says_datas dd ->
  good_cards (map snd cs) (map snd ss) (map snd dd) rank -> fine_cards quick (trs_of (map snd dd)) ss ->
  geometries cs geoms ->
  exists N d, (forall fuel, N <= fuel -> load str show fuel quick s = Done d) /\
    (forall x, In x (d_surfs d) -> (s_bc (fst x) = VACUUM \/ s_bc (fst x) = TRANSMISSION) /\
      (s_bc (fst x) = VACUUM <-> outside_names (map snd dd) (map snd cs) geoms (s_id (fst x)))) /\
    (quick = true -> forall y sn, In y ss -> ss_shape (snd y) = Plain sn -> In (ss_id (snd y)) (map (fun x => s_id (fst x)) (d_surfs d))).
Proof.
  intros H1 H2 H3 H4 H5 H6 H7 SC SS SD G FW GM.
  destruct (C83_cards_partial str show quick s title noisy cs b1 ss b2 dd rank H1 H2 H3 H4 H5 H6 H7 SC SS SD G FW) as (N & d & L & _).
  exists N, d. split; [exact L|].
  destruct (file_read s title noisy cs b1 ss b2 dd H1 H2 H3 H4 H5 H6 H7 SC SS SD) as (p & R & _ & FC & FS & IG & TG & MG).
  assert (FC' : Forall2 (fun x y => cell_got x y /\ cell_kept y) (map snd cs) (f_cells p)) by (clear - FC; induction FC; cbn [map]; constructor; auto).
  assert (FS' : Forall2 surf_got (map snd ss) (f_surfs p)) by (clear - FS; induction FS as [|x y l l' [H _] F IH]; cbn [map]; constructor; auto).
  assert (SB := read_file_bc _ _ _ (R 0)). set (cells := map snd cs) in *. set (surfs := map snd ss) in *. set (ds := map snd dd) in *.
  assert (FM : memory_fine quick p) by now apply (cards_memory quick ss ds).
  assert (LC := forall2_len _ _ _ FC').
  (* the geometries *)
  assert (FG : Forall2 (fun y g => forall n, In n (c_surfs (fst y)) <-> set_off g n) (f_cells p) geoms).
  { assert (F1 := file_cells s title noisy cs b1 _ p 0 H1 H2 H3 H4 H5 SC (R 0)). clear - F1 GM FC. unfold geometries in GM.
    assert (F2 := forall2_same_right _ _ _ _ _ (forall2_both _ _ _ _ F1 FC) GM). apply forall2_mono with (2 := F2).
    intros y g (x & (_ & E & _) & SG). destruct (cell_card_words _ _ _ SG) as (y' & E' & _ & K' & W). rewrite (E' 0) in E. injection E as <-.
    destruct SG as (head & tail & wid & wm & _ & _ & _ & _ & _ & _ & _ & _ & _ & HO & EX & _). destruct K' as [_ GE]. rewrite W in GE.
    intro n. exact (recorded_tokens g _ _ _ n HO EX GE). }
  (* importances *)
  destruct (gc_imps _ _ _ _ G) as [NS GI]. assert (EPI := imps_processed ds _ IG NS).
  set (xs := map (fun x => (fst x, k_imp (snd x))) (f_cells p)).
  destruct (imps_applied ds (f_imps p) xs IG) as (ics & EA & MA & HA); [split; [exact NS|]; unfold xs; rewrite map_length, <- LC; exact GI|].
  assert (LK : length ics = length cells) by (rewrite LC; apply (f_equal (@length _)) in MA; unfold xs in MA; now rewrite !map_length in MA).
  assert (IMP : forall k c y, nth_error cells k = Some c -> nth_error ics k = Some y -> importance ds k c (snd y)).
  { intros k c y N1 N2. destruct (nth_there _ _ k c LC N1) as (x & N3).
    assert (N4 : nth_error xs k = Some (fst x, k_imp (snd x))) by (unfold xs; apply (map_nth_error (fun x => (fst x, k_imp (snd x)))), N3).
    destruct (forall2_nth _ _ _ FC' k c x N1 N3) as [(_ & _ & _ & _ & _ & KR) _]. destruct KR as (_ & _ & _ & _ & K1 & K2).
    destruct (HA k _ y N4 N2) as [H|[H E]]; [now left|right]. split; [exact H|]. cbn [snd] in E. rewrite E.
    destruct (existsb (fun e => match e_kw e with KImp _ => true | _ => false end) (cs_keys c)) eqn:EX.
    - left. apply existsb_exists in EX as (e & IE & HE). destruct (e_kw e) as [ | |v| | ] eqn:EK; try discriminate.
      assert (HK : has_kw (KImp v) (cs_keys c)) by (unfold has_kw; apply in_map_iff; now exists e). exists v. split; [exact HK|]. now apply K1.
    - right. assert (NK : forall v, ~ has_kw (KImp v) (cs_keys c)).
      { intros v HK. apply in_map_iff in HK as (e & HE & IE). apply not_true_iff_false in EX. apply EX. apply existsb_exists. exists e. split; [exact IE|]. now rewrite HE. }
      split; [exact NK|]. now apply K2. }
  assert (MEM : forall k y, nth_error ics k = Some y -> exists c x, nth_error cells k = Some c /\ nth_error (f_cells p) k = Some x /\ fst y = fst x).
  { intros k y HK. destruct (nth_there _ _ k _ LK HK) as (c0 & H0). destruct (nth_there _ _ k c0 LC H0) as (x & HX). exists c0, x. split; [exact H0|]. split; [exact HX|].
    assert (E1 : nth_error (map fst ics) k = Some (fst y)) by exact (map_nth_error fst k ics HK). rewrite MA in E1. unfold xs in E1. rewrite map_map in E1.
    rewrite (map_nth_error (fun x => fst (fst x, k_imp (snd x))) k _ HX) in E1. cbn [fst] in E1. congruence. }
  assert (PG : forall c q, In (c, q) ics -> (q == 0)%Q -> plain_graveyard (in_of quick p (f_imps p)) c).
  { intros c q I Z. apply In_nth_error in I as (k & HK). destruct (MEM k _ HK) as (c0 & x & H0 & HX & EC). cbn [fst] in EC.
    destruct (forall2_nth _ _ _ FC' k c0 x H0 HX) as [(_ & _ & EX & _) K]. subst c. split; [apply K|].
    intros y w IY MY IW NW. destruct (forall2_pick _ _ _ _ FS' IY) as (sy & IS & SG). destruct (got_macro _ _ SG MY) as (f & i & _ & _ & SH & _).
    destruct SG as (EID & _). rewrite EID in NW.
    apply (gc_zero _ _ _ _ G k c0 q sy f i w H0 (IMP _ _ _ H0 HK) Z IS SH); [|exact NW]. apply (atom_in_text x); [exact K|exact EX|exact IW|]. now apply (names_atom (ss_id sy)). }
  (* the deck *)
  assert (LD := L (S N) ltac:(lia)). unfold load, in_memory in LD. rewrite (R N), EPI in LD. fold xs in LD.
  change (mkIn (f_surfs p) xs (fun id => dget id (f_trans p)) (f_imps p) quick) with (in_of quick p (f_imps p)) in LD.
  destruct (process (S N) _) as [o| |] eqn:EP; try discriminate LD.
  assert (PV := process_vacuum (in_of quick p (f_imps p)) rank (S N) o ics (input_good cells surfs ds rank quick p G FM FC' FS' TG (f_imps p)) SB EP EA PG).
  destruct (mapM (universe_placing (f_trans p)) (map snd (f_cells p))) as [ps|]; [|discriminate LD].
  destruct (reorganise_materials show (f_mats p) _) as [[ms mcs]|]; [|discriminate LD]. injection LD as <-. cbn [ConvertModel.d_surfs].
  destruct PV as [PV PQ]. split.
  2:{ intros Q y sn IY SH. rewrite map_map. cbn [fst]. apply (in_map snd) in IY. destruct (forall2_take _ _ _ _ FS' IY) as (z & IZ & EZ & _ & HZ). rewrite SH in HZ.
      destruct HZ as (sn' & E & _). change (map (fun x => s_id x) (o_surfs o)) with (map s_id (o_surfs o)). rewrite <- EZ. apply PQ; [exact Q|exact IZ|]. now apply sense_plain in E. }
  intros z I. apply in_map_iff in I as (y & <- & I). cbn [fst]. destruct (PV y I) as [B V]. split; [exact B|]. rewrite V. unfold outside_names. split.
  - intros (c & q & IC & Z & IN). apply In_nth_error in IC as (k & HK). destruct (MEM k _ HK) as (c0 & x & H0 & HX & EC). cbn [fst] in EC. subst c.
    destruct (nth_there (f_cells p) geoms k x (forall2_len _ _ _ FG) HX) as (g & HG). exists k, c0, g, q. split; [exact H0|]. split; [exact HG|].
    split; [exact (IMP k c0 _ H0 HK)|]. split; [exact Z|]. now apply (forall2_nth _ _ _ FG k x g HX HG).
  - intros (k & c & g & q & HC & HG & HI & Z & SO). destruct (nth_there _ _ k c (eq_sym LK) HC) as ([c1 q1] & HK). destruct (MEM k _ HK) as (c0 & x & H0 & HX & EC). cbn [fst] in EC.
    exists c1, q1. split; [now apply nth_error_In in HK|]. split.
    + assert (Q : q1 = q); [|now rewrite Q]. apply (importance_one ds k c); [apply (says_once cs); [exact SC|now apply nth_error_In in HC]| |exact (IMP k c _ HC HK)|exact HI].
      intros vs ws. now apply (last_imp_unique ds (f_imps p)).
    + rewrite EC. now apply (forall2_nth _ _ _ FG k x g HX HG).
Qed.
Print Assumptions C86_vacuum_partial.

(** ** By region *)

(** A region names surface [n]. *)
Definition region_names (r : region) (n : Z) : Prop := exists w z, In w (atoms r) /\ py_int w = Some z /\ Z.abs z = n.

Lemma set_off_names geom r n : expr (mcnp_lex geom) r ->
  (set_off geom n -> region_names r n) /\ (~ In TOpen (mcnp_lex geom) -> region_names r n -> set_off geom n).
Proof.
  intro E. assert (A := proj1 expr_atoms _ _ E). unfold tok_atoms in A. split.
  - intros (a & w & b & z & L & Z1 & Z2 & _). exists w, z. split; [|auto]. rewrite <- A, L. apply in_flat_map. exists (TAtom w). split; [apply in_app_iff; right; now left|now left].
  - intros NO (w & z & I & Z1 & Z2). rewrite <- A in I. apply in_flat_map in I as (t & I & J). destruct t; cbn in J; try contradiction.
    destruct J as [J|J]; [subst|contradiction]. apply in_split in I as (a & b & L). exists a, w, b, z. split; [exact L|]. split; [exact Z1|]. split; [reflexivity|].
    intros a' ->. apply NO. rewrite L. rewrite !in_app_iff. left. right. now left.
Qed.

(** The same by the regions of the cells: a vacuum boundary is named by a cell of importance 0; a surface that such a cell,
    written without opening parentheses, names is a vacuum boundary if it is still in the deck. *)
Theorem C86_named_partial str show quick s title noisy cs b1 ss b2 dd rank geoms :
  file_of s (title :: noisy) -> sub_in (T "message") title = false ->
  with_comments (flat_map (fun x => card_lines (fst x)) cs ++ b1 :: flat_map (fun x => card_lines (fst x)) ss ++ b2 ::
                 flat_map (fun x => card_lines (fst x)) dd) noisy ->
  b1 <> [] -> spaces b1 -> b2 <> [] -> spaces b2 ->
  says_cells cs -> says_surfs ss -> says_datas dd ->
  good_cards (map snd cs) (map snd ss) (map snd dd) rank -> fine_cards quick (trs_of (map snd dd)) ss ->
  geometries cs geoms ->
  exists N d, (forall fuel, N <= fuel -> load str show fuel quick s = Done d) /\
    forall x, In x (d_surfs d) ->
      (s_bc (fst x) = VACUUM -> exists k c q, nth_error (map snd cs) k = Some c /\ importance (map snd dd) k c q /\ (q == 0)%Q /\ region_names (cs_region c) (s_id (fst x))) /\
      (forall k c g q, nth_error (map snd cs) k = Some c -> nth_error geoms k = Some g -> importance (map snd dd) k c q -> (q == 0)%Q ->
         ~ In TOpen (mcnp_lex g) -> region_names (cs_region c) (s_id (fst x)) -> s_bc (fst x) = VACUUM).
Proof.
  intros H1 H2 H3 H4 H5 H6 H7 SC SS SD G FW GM.
  destruct (C86_vacuum_partial str show quick s title noisy cs b1 ss b2 dd rank geoms H1 H2 H3 H4 H5 H6 H7 SC SS SD G FW GM) as (N & d & L & V & _).
  exists N, d. split; [exact L|]. intros x I. destruct (V x I) as [_ W].
  assert (EX : forall k c g, nth_error (map snd cs) k = Some c -> nth_error geoms k = Some g -> expr (mcnp_lex g) (cs_region c)).
  { intros k c g HC HG. apply nth_map_inv in HC as (y & HY & <-). destruct (forall2_nth _ _ _ GM k y g HY HG) as (head & tail & wid & wm & _ & _ & _ & _ & _ & _ & _ & _ & _ & _ & E & _). exact E. }
  split.
  - intro B. apply W in B as (k & c & g & q & HC & HG & HI & Z & SO). exists k, c, q. split; [exact HC|]. split; [exact HI|]. split; [exact Z|].
    now apply (set_off_names g _ _ (EX k c g HC HG)).
  - intros k c g q HC HG HI Z NO RN. apply W. exists k, c, g, q. split; [exact HC|]. split; [exact HG|]. split; [exact HI|]. split; [exact Z|].
    now apply (set_off_names g (cs_region c)); [exact (EX k c g HC HG)| |].
Qed.
Print Assumptions C86_named_partial.

(** ** OpenMC *)

(** C86, OpenMC: the surfaces of geometry.xml carry the attribute boundary, vacuum for those surfaces and transmission for
    all others. *)
Theorem C86_openmc_partial str show nuclide_order universe_order quick s title noisy cs b1 ss b2 dd rank geoms :
  file_of s (title :: noisy) -> sub_in (T "message") title = false ->
  with_comments (flat_map (fun x => card_lines (fst x)) cs ++ b1 :: flat_map (fun x => card_lines (fst x)) ss ++ b2 ::
                 flat_map (fun x => card_lines (fst x)) dd) noisy ->
  b1 <> [] -> spaces b1 -> b2 <> [] -> spaces b2 ->
  says_cells cs -> says_surfs ss -> says_datas dd ->
  good_cards (map snd cs) (map snd ss) (map snd dd) rank -> fine_cards quick (trs_of (map snd dd)) ss -> uncut_cards ss ->
  whole_universes (map snd cs) -> openmc_nuclides (map snd cs) (map snd dd) -> geometries cs geoms -> (forall x, word (str x)) ->
  exists N g ms d,
    (forall fuel, N <= fuel -> program str show fuel nuclide_order universe_order quick [OPENMC] s = Done ([(OPENMC, Xml g ms)], Some d)) /\
    forall x, In x g -> x_tag x = T "surface" -> exists t id t' b,
      PropOpenMC.attr "id" x = Some t /\ py_int t = Some id /\ PropOpenMC.attr "boundary" x = Some t' /\ PropOpenMC.condition t' = Some b /\
      (b = VACUUM \/ b = TRANSMISSION) /\ (b = VACUUM <-> outside_names (map snd dd) (map snd cs) geoms id).
Proof.
  intros H1 H2 H3 H4 H5 H6 H7 SC SS SD G FW UC WU ON GM W.
  destruct (C86_vacuum_partial str show quick s title noisy cs b1 ss b2 dd rank geoms H1 H2 H3 H4 H5 H6 H7 SC SS SD G FW GM) as (N1 & d1 & L1 & V & _).
  assert (DS : describes s (map snd cs) ss (map snd dd)) by (exists title, noisy, cs, b1, b2, dd; auto 20).
  destruct (read_deck str show quick s _ ss _ rank DS G FW) as (N & d & L & D & NS & ON1). specialize (NS UC).
  assert (E : d1 = d) by (assert (A := L1 (N1 + N) ltac:(lia)); rewrite (L (N1 + N) ltac:(lia)) in A; now injection A). subst d1.
  assert (OD := deck_for_openmc str show _ _ _ d W D NS WU ON (gc_fill _ _ _ _ G)).
  destruct (PropOpenMC.C76_openmc_geometry_partial str show d OD) as (g & ms & xs & ys & keep & TR & -> & FX & FY & _ & _).
  exists N, (xs ++ ys), ms, d. split.
  { intros fuel HF. unfold program. rewrite (L fuel HF). cbn [run write_code]. now rewrite TR. }
  intros x I TG. apply in_app_iff in I as [I|I].
  - destruct (forall2_pick _ _ _ _ FX I) as (y & IY & SY). destruct (dm_surfs _ _ _ _ _ _ D y IY) as (_ & sn & ES). destruct (SY sn ES) as (_ & (t & A1 & A2) & (t' & A3 & A4) & _).
    exists t, (s_id (fst y)), t', (s_bc (fst y)). do 4 (split; [assumption|]). now apply V.
  - exfalso. destruct (forall2_pick _ _ _ _ FY I) as (y & IY & SY). apply filter_In in IY as [IY _]. destruct OD as (_ & FC & _). rewrite Forall_forall in FC.
    destruct (FC y IY) as (r0 & (u & U) & FI & _). apply In_nth_error in IY as (k & HG). destruct (nth_there _ _ k y (dm_count _ _ _ _ _ _ D) HG) as (c & HC).
    destruct (cm_region _ _ _ _ _ _ _ _ _ (dm_cells _ _ _ _ _ _ D k c y HC HG)) as (r & ER & _).
    assert (CT : exists ct, PropOpenMC.content_is y ct).
    { unfold PropOpenMC.content_is. destruct (g_fill y) as [f|] eqn:EF; [|eexists; reflexivity]. destruct (py_int f) as [z|] eqn:EZ; [|now elim (FI f eq_refl)]. eexists. eexists. split; reflexivity. }
    destruct CT as (ct & CT). destruct (SY r u ct ER U CT) as (TC & _). rewrite TG in TC. discriminate TC.
Qed.
Print Assumptions C86_openmc_partial.

(** ** Examples and what is false *)

(** Two balls; the outside of both is written with a parenthesis. *)
Definition file86 : text :=
  T "Two balls" ++ newline :: T "1 0 -1 -2" ++ newline :: T "2 0 (1:2)" ++ newline :: newline ::
  T "1 SO 5" ++ newline :: T "2 SO 6" ++ newline :: newline :: T "IMP:N 1 0" ++ newline :: T "nps 1000" ++ [newline].
Definition cells86 : list (card * cell_says) :=
  [((mkL (T "1 0 -1 -2") None, []), mkCS 1 None (RAnd (RAtom (T "-1")) (RAtom (T "-2"))) []);
   ((mkL (T "2 0 (1:2)") None, []), mkCS 2 None (ROr (RAtom (T "1")) (RAtom (T "2"))) [])].
Definition surfs86 : list (card * surf_says) :=
  [((mkL (T "1 so 5") None, []), mkSS 1 None (Plain (of_fun (sphere 0 0 0 5))));
   ((mkL (T "2 so 6") None, []), mkSS 2 None (Plain (of_fun (sphere 0 0 0 6))))].
Definition data86 : list (card * data_says) :=
  [((mkL (T "imp:n 1 0") None, []), DImp NEUTRON [T "1"; T "0"]); ((mkL (T "nps 1000") None, []), DOther)].
Definition geoms86 : list text := [T "-1 -2"; T "(1:2)"].

Lemma file86_read : file_of file86 ((T "two balls" ++ [newline]) ::
   (flat_map (fun x => card_lines (fst x)) cells86 ++ [newline] :: flat_map (fun x => card_lines (fst x)) surfs86 ++ [newline] ::
                 flat_map (fun x => card_lines (fst x)) data86)).
Proof.
  exists (readlines file86). split; [vm_compute; reflexivity|]. split; [|vm_compute; reflexivity].
  assert (E : forallb ended (readlines file86) = true) by (vm_compute; reflexivity).
  apply Forall_forall. intros x I. rewrite forallb_forall in E. now apply ended_ok, E.
Qed.
Lemma comments86 : with_comments (flat_map (fun x => card_lines (fst x)) cells86 ++ [newline] :: flat_map (fun x => card_lines (fst x)) surfs86 ++ [newline] ::
                 flat_map (fun x => card_lines (fst x)) data86)
   (flat_map (fun x => card_lines (fst x)) cells86 ++ [newline] :: flat_map (fun x => card_lines (fst x)) surfs86 ++ [newline] ::
                 flat_map (fun x => card_lines (fst x)) data86).
Proof. vm_compute. repeat (apply wc_line; [intros r E; discriminate E|]). apply wc_nil. Qed.

Lemma geoms86_written : geometries cells86 geoms86.
Proof.
  constructor; [|constructor; [|constructor]]; cbn [fst snd].
  - exists (T "1 0 -1 -2"), [newline], (T "1"), (T "0"). cbn [cs_keys cs_id cs_region cs_mat].
    split; [vm_compute; reflexivity|]. split; [reflexivity|]. split; [reflexivity|]. split; [constructor|]. split; [constructor|].
    split; [split; [discriminate|reflexivity]|]. split; [split; [discriminate|reflexivity]|]. split; [reflexivity|].
    split; [vm_compute; intuition discriminate|]. split; [reflexivity|]. split; [apply parse_sound; vm_compute; reflexivity|]. split; reflexivity.
  - exists (T "2 0 (1:2)"), [newline], (T "2"), (T "0"). cbn [cs_keys cs_id cs_region cs_mat].
    split; [vm_compute; reflexivity|]. split; [reflexivity|]. split; [reflexivity|]. split; [constructor|]. split; [constructor|].
    split; [split; [discriminate|reflexivity]|]. split; [split; [discriminate|reflexivity]|]. split; [reflexivity|].
    split; [vm_compute; intuition discriminate|]. split; [reflexivity|]. split; [apply parse_sound; vm_compute; reflexivity|]. split; reflexivity.
Qed.
Lemma says_cells86 : says_cells cells86.
Proof.
  assert (F := geoms86_written). unfold geometries, geoms86 in F. inversion F as [|? ? ? ? G1 F1]; subst. inversion F1 as [|? ? ? ? G2 _]; subst.
  constructor; [|constructor; [|constructor]]; cbn [fst snd] in *.
  - split; [apply one_line; [vm_compute; intuition discriminate|exists "1"%char; split; [now left|reflexivity]|intros (r & E); discriminate]|].
    destruct G1 as (h & t & w & m & G1). now exists h, t, w, m, (T "-1 -2").
  - split; [apply one_line; [vm_compute; intuition discriminate|exists "2"%char; split; [now left|reflexivity]|intros (r & E); discriminate]|].
    destruct G2 as (h & t & w & m & G2). now exists h, t, w, m, (T "(1:2)").
Qed.
Lemma says_surfs86 : says_surfs surfs86.
Proof.
  constructor; [|constructor; [|constructor]]; cbn [fst snd surfs86].
  - split; [apply one_line; [vm_compute; intuition discriminate|exists "1"%char; split; [now left|reflexivity]|intros (r & E); discriminate]|].
    exists (T "1"), "so"%string, [T "5"], [5%R]. cbn [ss_id ss_tr ss_shape]. split; [reflexivity|]. split; [vm_compute; intuition discriminate|].
    split; [vm_compute; reflexivity|]. split; [|constructor; constructor]. constructor; [|constructor]. now apply whole_float.
  - split; [apply one_line; [vm_compute; intuition discriminate|exists "2"%char; split; [now left|reflexivity]|intros (r & E); discriminate]|].
    exists (T "2"), "so"%string, [T "6"], [6%R]. cbn [ss_id ss_tr ss_shape]. split; [reflexivity|]. split; [vm_compute; intuition discriminate|].
    split; [vm_compute; reflexivity|]. split; [|constructor; constructor]. constructor; [|constructor]. now apply whole_float.
Qed.
Lemma says_datas86 : says_datas data86.
Proof.
  assert (NI : forall r, ~ indented ("i"%char :: r) /\ ~ indented ("n"%char :: r)) by (intro r; split; intros (x & E); discriminate).
  assert (NM : forall x, is_material_line x = false -> ~ material_name x) by (intros x E M; apply is_material_spec in M; congruence).
  split.
  - constructor; [|constructor; [|constructor]]; cbn [fst snd]; (split; [split; [apply NI|]|]).
    + constructor.
    + exists (T "1 0"). split; [reflexivity|]. split; [reflexivity|]. split; [|reflexivity]. constructor.
    + constructor.
    + split; [intros [(r & E)|(r & E)]; discriminate|]. constructor; [|constructor]. split; [vm_compute; reflexivity|now apply NM].
  - eexists [_], _, _. split; [reflexivity|]. split; discriminate.
Qed.
Lemma last_imp86 vs : last_imp (map snd data86) vs -> vs = [T "1"; T "0"].
Proof.
  intros (a & b & E & _). cbn [map snd data86] in E. destruct a as [|? [|? a]]; cbn [app] in E; try discriminate; [now injection E as <- _|].
  apply (f_equal (@length _)) in E. cbn [length] in E. rewrite app_length in E. cbn [length] in E. lia.
Qed.
Lemma good_cards86 : good_cards (map snd cells86) (map snd surfs86) (map snd data86) Z.to_nat.
Proof.
  assert (BODY : forall s f i, In s (map snd surfs86) -> ss_shape s <> Body f i) by (intros s f i [<-|[<-|[]]]; discriminate).
  assert (A1 : forall sg, exists y sg', In y (map snd surfs86) /\ signed_word sg 1 = signed_word sg' (ss_id y)) by (intro sg; eexists _, sg; split; [left; reflexivity|reflexivity]).
  assert (A2 : forall sg, exists y sg', In y (map snd surfs86) /\ signed_word sg 2 = signed_word sg' (ss_id y)) by (intro sg; eexists _, sg; split; [right; left; reflexivity|reflexivity]).
  split.
  - cbn [map snd surfs86 ss_id]. repeat constructor; cbn; intuition discriminate.
  - intros s [<-|[<-|[]]]; reflexivity.
  - intros s t f i f' i' u I J B. now elim (BODY s f i I).
  - intros s id [<-|[<-|[]]]; discriminate.
  - intros c [<-|[<-|[]]]; (split; [reflexivity|]); intros w; cbn [snd cs_region atoms app In].
    + intros [<-|[<-|[]]]; left; [apply (A1 true)|apply (A2 true)].
    + intros [<-|[<-|[]]]; left; [apply (A1 false)|apply (A2 false)].
  - intros c star v tr [<-|[<-|[]]]; intros H; destruct H.
  - split.
    + intros p vs v I IV. cbn [map snd data86 In] in I. destruct I as [I|[I|[]]]; try discriminate. injection I as <- <-.
      cbn [In] in IV. destruct IV as [<-|[<-|[]]]; split; vm_compute; intuition discriminate.
    + intros _. exists [T "1"; T "0"]. split; [exists []; eexists; split; [reflexivity|]|split; [cbn; lia|]].
      * intros ws I. cbn [In] in I. intuition discriminate.
      * repeat (constructor; [vm_compute; discriminate|]). constructor.
  - intros k c q s f i w HC IM Z IS B. now elim (BODY s f i IS).
  - intros n es (a & b & E & _). change (mats_of (map snd data86)) with (@nil (text * list PropMaterial.entry)) in E. destruct a; discriminate E.
  - intros c m d [<-|[<-|[]]]; discriminate.
Qed.
Lemma spells86 x m vals : In x surfs86 -> spells (card_words (fst x)) (ss_tr (snd x)) m vals -> m = "so"%string /\ ss_tr (snd x) = None.
Proof.
  intros [<-|[<-|[]]] (idtok & toks & E & _); cbn [fst snd ss_tr] in *; match type of E with ?w = _ => let v := eval vm_compute in w in change w with v in E end;
    injection E; intros; (split; [|reflexivity]); apply mnemonic_inj; symmetry; assumption.
Qed.
Lemma fine_cards86 quick : fine_cards quick (trs_of (map snd data86)) surfs86.
Proof.
  apply Forall_forall. intros x I m vals S. destruct (spells86 x m vals I S) as [-> E]. split; [rewrite E; discriminate|].
  right. split; [intro C; inversion C|intros [H|[H|H]]; discriminate H].
Qed.
Lemma uncut_cards86 : uncut_cards surfs86.
Proof. apply Forall_forall. intros x I m vals S C. destruct (spells86 x m vals I S) as [-> _]; inversion C. Qed.
Lemma whole86 : whole_universes (map snd cells86).
Proof. intros c I. split; [intros v H|intros star v tr H]; cbn [map cells86 snd In] in I; destruct I as [<-|[<-|[]]]; destruct H. Qed.
Lemma nuclides86 : openmc_nuclides (map snd cells86) (map snd data86).
Proof. intros n es (a & b & E & _). change (mats_of (map snd data86)) with (@nil (text * list PropMaterial.entry)) in E. destruct a; discriminate E. Qed.

Lemma imp86 : last_imp (map snd data86) [T "1"; T "0"].
Proof. exists []. eexists. split; [reflexivity|]. intros ws I. cbn [In] in I. intuition discriminate. Qed.
Lemma outside86 n : outside_names (map snd data86) (map snd cells86) geoms86 n <-> n = 2%Z.
Proof.
  split.
  - intros (k & c & g & q & HC & HG & HI & Z & SO). destruct HI as [(vs & v & L & NV & PF)|[L _]].
    2:{ specialize (L _ imp86). cbn [length] in L. destruct k as [|[|k]]; [lia|lia|]. cbn in HC. destruct k; discriminate HC. }
    rewrite (last_imp86 vs L) in NV. destruct k as [|[|k]]; cbn [nth_error] in NV; [injection NV as <-; vm_compute in PF; injection PF as <-; discriminate Z| |destruct k; discriminate NV].
    injection HG as <-. destruct SO as (a & w & b & z & E & Z1 & Z2 & NO). change (mcnp_lex (T "(1:2)")) with [TOpen; TAtom (T "1"); TUnion; TAtom (T "2"); TClose] in E.
    destruct a as [|? [|? [|? [|? [|? a]]]]]; try discriminate E.
    + injection E as <- _ _. elim (NO []). reflexivity.
    + injection E as _ _ _ <- _. vm_compute in Z1. injection Z1 as <-. now rewrite <- Z2.
    + injection E as _ _ _ _ _ E. destruct a; discriminate E.
  - intros ->. exists 1, (snd (nth 1 cells86 (nth 0 cells86 (mkL [] None, [], mkCS 0 None (RAtom []) [])))), (T "(1:2)"), 0%Q. split; [reflexivity|]. split; [reflexivity|]. split.
    + left. exists [T "1"; T "0"], (T "0"). split; [exact imp86|]. split; [reflexivity|vm_compute; reflexivity].
    + split; [reflexivity|]. exists [TOpen; TAtom (T "1"); TUnion], (T "2"), [TClose], 2%Z. split; [vm_compute; reflexivity|]. split; [reflexivity|]. split; [reflexivity|].
      intros [|? [|? [|? [|? a]]]] Q; discriminate Q.
Qed.

(** Ball 2 is a vacuum boundary, ball 1 is not, although the outside names both. *)
Example C86_example str show : exists N d, (forall fuel, N <= fuel -> load str show fuel true file86 = Done d) /\
  (forall x, In x (d_surfs d) -> (s_bc (fst x) = VACUUM <-> s_id (fst x) = 2%Z)) /\ forall n, In n [1; 2]%Z -> In n (map (fun x => s_id (fst x)) (d_surfs d)).
Proof.
  destruct (C86_vacuum_partial str show true file86 _ _ cells86 [newline] surfs86 [newline] data86 Z.to_nat geoms86 file86_read) as (N & d & L & V & Q);
    [vm_compute; reflexivity|exact comments86|discriminate|reflexivity|discriminate|reflexivity|exact says_cells86|exact says_surfs86|exact says_datas86|exact good_cards86|
     exact (fine_cards86 true)|exact geoms86_written|].
  exists N, d. split; [exact L|]. split.
  - intros x I. rewrite (proj2 (V x I)). apply outside86.
  - intros n [<-|[<-|[]]].
    + exact (Q eq_refl _ _ (or_introl eq_refl) eq_refl).
    + exact (Q eq_refl _ _ (or_intror (or_introl eq_refl)) eq_refl).
Qed.

Theorem C86_parenthesis_refuted str show : exists s cells ss ds k c n N d x,
  describes s cells ss ds /\ nth_error cells k = Some c /\ importance ds k c 0%Q /\ region_names (cs_region c) n /\
  (forall fuel, N <= fuel -> load str show fuel true s = Done d) /\ In x (d_surfs d) /\ s_id (fst x) = n /\ s_bc (fst x) = TRANSMISSION.
Proof.
  destruct (C86_vacuum_partial str show true file86 _ _ cells86 [newline] surfs86 [newline] data86 Z.to_nat geoms86 file86_read) as (N & d & L & V & Q);
    [vm_compute; reflexivity|exact comments86|discriminate|reflexivity|discriminate|reflexivity|exact says_cells86|exact says_surfs86|exact says_datas86|exact good_cards86|
     exact (fine_cards86 true)|exact geoms86_written|].
  assert (I := Q eq_refl _ _ (or_introl eq_refl) eq_refl). apply in_map_iff in I as (x & E & I). change (s_id (fst x) = 1%Z) in E.
  exists file86, (map snd cells86), surfs86, (map snd data86), 1, (snd (nth 1 cells86 (nth 0 cells86 (mkL [] None, [], mkCS 0 None (RAtom []) [])))), 1%Z, N, d, x.
  split.
  { eexists _, _, cells86, [newline], [newline], data86. split; [exact file86_read|]. split; [vm_compute; reflexivity|]. split; [exact comments86|].
    split; [discriminate|]. split; [reflexivity|]. split; [discriminate|]. split; [reflexivity|]. split; [exact says_cells86|]. split; [exact says_surfs86|].
    split; [exact says_datas86|]. split; reflexivity. }
  split; [reflexivity|]. split; [left; exists [T "1"; T "0"], (T "0"); split; [exact imp86|]; split; [reflexivity|vm_compute; reflexivity]|].
  split; [exists (T "1"), 1%Z; split; [left; reflexivity|split; reflexivity]|]. split; [exact L|]. split; [exact I|]. split; [exact E|].
  destruct (V x I) as [[B|B] W]; [|exact B]. apply W, outside86 in B. rewrite E in B. discriminate B.
Qed.
Print Assumptions C86_parenthesis_refuted.

(** The file of the example of C83: its outside is the complement of the ball, and no surface is a vacuum boundary. *)
Definition geoms83 : list text := [T "-1 2"; T "-2"; T "-1"; T "#3"].
Lemma geoms83_written : geometries cells83 geoms83.
Proof.
  assert (NU : number (T "3")) by (exists [], (T "3"), []; repeat split; auto; discriminate).
  constructor; [|constructor; [|constructor; [|constructor; [|constructor]]]]; cbn [fst snd cells83].
  - exists (T "1 1 -7.8 -1         2"), [newline], (T "1"), (T "1"). cbn [cs_keys cs_id cs_region cs_mat].
    split; [vm_compute; reflexivity|]. split; [reflexivity|]. split; [reflexivity|].
    split; [constructor; [|constructor]; (split; [reflexivity|]; split; [discriminate|]; split; [|exact I]; exact NU)|].
    split; [repeat constructor; cbn; intuition discriminate|].
    split; [split; [discriminate|reflexivity]|]. split; [split; [discriminate|reflexivity]|]. split; [reflexivity|].
    split; [vm_compute; intuition discriminate|]. split; [reflexivity|]. split; [apply parse_sound; vm_compute; reflexivity|].
    split; [reflexivity|]. split; [reflexivity|]. exists (T "-7.8"). split; [split; [discriminate|reflexivity]|]. split; [vm_compute; reflexivity|vm_compute; reflexivity].
  - exists (T "2 1 -2.5 -2"), [newline], (T "2"), (T "1"). cbn [cs_keys cs_id cs_region cs_mat].
    split; [vm_compute; reflexivity|]. split; [reflexivity|]. split; [reflexivity|].
    split; [constructor; [|constructor]; (split; [reflexivity|]; split; [discriminate|]; split; [|exact I]; exact NU)|].
    split; [repeat constructor; cbn; intuition discriminate|].
    split; [split; [discriminate|reflexivity]|]. split; [split; [discriminate|reflexivity]|]. split; [reflexivity|].
    split; [vm_compute; intuition discriminate|]. split; [reflexivity|]. split; [apply parse_sound; vm_compute; reflexivity|].
    split; [reflexivity|]. split; [reflexivity|]. exists (T "-2.5"). split; [split; [discriminate|reflexivity]|]. split; [vm_compute; reflexivity|vm_compute; reflexivity].
  - exists (T "3 0 -1"), [newline], (T "3"), (T "0"). cbn [cs_keys cs_id cs_region cs_mat].
    split; [vm_compute; reflexivity|]. split; [reflexivity|]. split; [reflexivity|].
    split; [constructor; [|constructor]; (split; [reflexivity|]; split; [discriminate|]; split; [exact NU|])|].
    { split; [reflexivity|]. split; [reflexivity|]. split; [now left|discriminate]. }
    split; [repeat constructor; cbn; intuition discriminate|].
    split; [split; [discriminate|reflexivity]|]. split; [split; [discriminate|reflexivity]|]. split; [reflexivity|].
    split; [vm_compute; intuition discriminate|]. split; [reflexivity|]. split; [apply parse_sound; vm_compute; reflexivity|].
    split; reflexivity.
  - exists (T "4 0 #3"), [newline], (T "4"), (T "0"). cbn [cs_keys cs_id cs_region cs_mat].
    split; [vm_compute; reflexivity|]. split; [reflexivity|]. split; [reflexivity|]. split; [constructor|]. split; [constructor|].
    split; [split; [discriminate|reflexivity]|]. split; [split; [discriminate|reflexivity]|]. split; [reflexivity|].
    split; [vm_compute; intuition discriminate|]. split; [reflexivity|]. split; [apply parse_sound; vm_compute; reflexivity|].
    split; reflexivity.
Qed.
Lemma imp83 : last_imp (map snd data83) [T "1"; T "1"; T "1"; T "0"].
Proof. exists []. eexists. split; [reflexivity|]. intros ws I. cbn [In] in I. intuition discriminate. Qed.
Lemma outside83 n : ~ outside_names (map snd data83) (map snd cells83) geoms83 n.
Proof.
  intros (k & c & g & q & HC & HG & HI & Z & SO). destruct HI as [(vs & v & L & NV & PF)|[L _]].
  2:{ specialize (L _ imp83). assert (K : k < 4) by (change 4 with (length (map snd cells83)); apply nth_error_Some; congruence). cbn [length] in L. lia. }
  rewrite (last_imp83 vs L) in NV.
  destruct k as [|[|[|[|k]]]]; cbn [nth_error] in NV; try (injection NV as <-; vm_compute in PF; injection PF as <-; vm_compute in Z; discriminate Z); [|destruct k; discriminate NV].
  injection HG as <-. destruct SO as (a & w & b & z & E & Z1 & _). change (mcnp_lex (T "#3")) with [TAtom (T "#3")] in E.
  destruct a as [|? a]; [|destruct a; discriminate E]. injection E as <- _. discriminate Z1.
Qed.

(** The whole outside of the model is the complement of a cell, and no boundary is left: a transport code would lose every
    particle that leaves the ball. *)
Theorem C86_complement_refuted str show : exists s cells ss ds k c j c' n N d,
  describes s cells ss ds /\ nth_error cells k = Some c /\ importance ds k c 0%Q /\ cs_region c = RAtom ("#"%char :: str_Z (cs_id c')) /\
  nth_error cells j = Some c' /\ region_names (cs_region c') n /\
  (forall fuel, N <= fuel -> load str show fuel true s = Done d) /\ In n (map (fun x => s_id (fst x)) (d_surfs d)) /\ forall x, In x (d_surfs d) -> s_bc (fst x) = TRANSMISSION.
Proof.
  destruct (C86_vacuum_partial str show true file83 _ _ cells83 [newline] surfs83 [newline] data83 Z.to_nat geoms83 file83_read) as (N & d & L & V & Q);
    [vm_compute; reflexivity|exact comments83|discriminate|reflexivity|discriminate|reflexivity|exact says_cells83|exact says_surfs83|exact says_datas83|exact good_cards83|
     exact (fine_cards83 true)|exact geoms83_written|].
  exists file83, (map snd cells83), surfs83, (map snd data83), 3, (mkCS 4 None (RAtom (T "#3")) []), 2,
    (mkCS 3 None (RAtom (T "-1")) [mkE (T " ") (KFill false (T "3") (Some (T " ", T "7"))) false false]), 1%Z, N, d.
  split; [exact describes83|]. split; [reflexivity|]. split; [left; exists [T "1"; T "1"; T "1"; T "0"], (T "0"); split; [exact imp83|]; split; [reflexivity|vm_compute; reflexivity]|].
  split; [reflexivity|]. split; [reflexivity|]. split; [exists (T "-1"), (-1)%Z; split; [left; reflexivity|split; reflexivity]|]. split; [exact L|].
  split; [exact (Q eq_refl _ _ (or_introl eq_refl) eq_refl)|].
  intros x I. destruct (V x I) as [[B|B] W]; [|exact B]. apply W in B. now elim (outside83 _ B).
Qed.
Print Assumptions C86_complement_refuted.

(** OpenMC: ball 2 with a vacuum boundary and ball 1 without. *)
Example C86_openmc_example str show nuclide_order universe_order : (forall x, word (str x)) ->
  exists N g ms d, (forall fuel, N <= fuel -> program str show fuel nuclide_order universe_order true [OPENMC] file86 = Done ([(OPENMC, Xml g ms)], Some d)) /\
    forall x, In x g -> x_tag x = T "surface" -> exists t id t', PropOpenMC.attr "id" x = Some t /\ py_int t = Some id /\ PropOpenMC.attr "boundary" x = Some t' /\
      (PropOpenMC.condition t' = Some VACUUM <-> id = 2%Z).
Proof.
  intro W. destruct (C86_openmc_partial str show nuclide_order universe_order true file86 _ _ cells86 [newline] surfs86 [newline] data86 Z.to_nat geoms86 file86_read) as (N & g & ms & d & L & H);
    [vm_compute; reflexivity|exact comments86|discriminate|reflexivity|discriminate|reflexivity|exact says_cells86|exact says_surfs86|exact says_datas86|exact good_cards86|
     exact (fine_cards86 true)|exact uncut_cards86|exact whole86|exact nuclides86|exact geoms86_written|exact W|].
  exists N, g, ms, d. split; [exact L|]. intros x I TG. destruct (H x I TG) as (t & id & t' & b & A1 & A2 & A3 & A4 & _ & A5). exists t, id, t'.
  do 3 (split; [assumption|]). rewrite A4. rewrite outside86 in A5. split; [intro E; injection E as E; now apply A5|intro E; apply A5 in E; now rewrite E].
Qed.
