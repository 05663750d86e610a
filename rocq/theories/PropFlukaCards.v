(** C84, FLUKA: which surface cards become bodies that can be written (csg2csg/MCNPInput.py 1303-1378, FLUKASurfaceCard.py
    9-436). *)
From Coq Require Import QArith Reals Lra Lia.
From Coq Require Lqa.
From Verif Require Import PyStr PyStrFacts PyInt PyIntFacts PyDict FortranNumber RegionSpec RegionFacts LexSpec CellModel CellProofs CellText CellWritersProofs
  CellWritersOut SurfModel GeomSpec SurfSpec SurfProofs SurfWritersProofs SurfTargets MacroModel MacroSpec FlattenModel FlattenProofs FlattenDeck NotsModel BoundaryModel DedupeModel NuclideData MaterialModel MaterialProofs PropMaterial
  PropMaterialOut PropMaterialTargets KeywordModel DeckScan FileModel FileProofs PropKeyword PropDeck PropTransform ProcessModel ProcessSpec PropProcess PropRead ConvertModel LayoutProofs
  MainModel PropPlace PropMain PropCards PropProgram PropTexts.
From Verif Require ProcessProofs.
Open Scope nat_scope.
Open Scope list_scope.

(** ** The surfaces *)

(** What is asked of a surface card with transform [tr] and these words: no torus (C80); a plane has a normal; a cone that is not moved is cut to one sheet
    (C43); a motion is not degenerate, and a moved quadric has a second-order part. *)
Definition fluka_words (trs : list (text * motion)) (tr : option text) (ws : list text) : Prop :=
  forall m vals, spells ws tr m vals ->
    ~ torus_card m /\
    (m = "p"%string -> (nth 0 vals 0, nth 1 vals 0, nth 2 vals 0) <> (0, 0, 0))%R /\
    (tr = None -> In m ["k/x"; "k/y"; "k/z"]%string -> exists x y z t s, vals = [x; y; z; t; s] /\ (0 <= t)%R /\ (s = 1 \/ s = -1)%R) /\
    (tr = None -> In m ["kx"; "ky"; "kz"]%string -> exists x t s, vals = [x; t; s] /\ (0 <= t)%R /\ (s = 1 \/ s = -1)%R) /\
    (forall id mo, tr = Some id -> last_for id trs mo -> det_of mo <> 0%R /\
       (m = "sq"%string -> (nth 0 vals 0, nth 1 vals 0, nth 2 vals 0) <> (0, 0, 0))%R).
Definition fluka_cards (trs : list (text * motion)) (ss : list (card * surf_says)) : Prop :=
  Forall (fun x => fluka_words trs (ss_tr (snd x)) (card_words (fst x))) ss.

(** A surface as the writer needs it. *)
Definition normal_ok (s : surface) : Prop :=
  s_type s = PLANE_GENERAL -> match s_coef s with a :: b :: c :: _ => (a, b, c) <> (0, 0, 0)%R | _ => True end.
Definition cut_cone (s : surface) : Prop :=
  is_cone (s_type s) = true -> exists x y z t2 sh, s_coef s = [x; y; z; t2; sh] /\ (sh = 1 \/ sh = -1)%R /\ (0 <= t2)%R.
Definition after (s : surface) : Prop := is_torus (s_type s) = false /\ normal_ok s /\ cut_cone s.

(** The first nine coefficients of a quadric are not all zero. *)
Definition proper (l : list R) : Prop :=
  match l with
  | a :: b :: c :: d :: e :: f :: g :: h :: j :: _ => ~ (a = 0 /\ b = 0 /\ c = 0 /\ d = 0 /\ e = 0 /\ f = 0 /\ g = 0 /\ h = 0 /\ j = 0)%R
  | _ => True
  end.

(** A surface that is still to be moved. *)
Definition before (cards : text -> option trans) (s : surface) : Prop :=
  is_torus (s_type s) = false /\ normal_ok s /\ (s_tr s = None -> cut_cone s) /\ (is_macrobody s = true -> exists f i, body s f i) /\
  (forall id t, s_tr s = Some id -> cards id = Some t -> det_of (motion_of t) <> 0%R /\
     (is_macrobody s = false -> forall g, SurfModel.generalise s = Some g -> proper (s_coef g) /\ forall m, transform g t = Some m -> ~ only_zx m)).

(** A quadric that is moved to a plane was a plane. *)
Lemma form_zero a b c d e f b1 b2 b3 b4 b5 b6 b7 b8 b9 :
  let q u1 u2 u3 v1 v2 v3 := (u1 * (a * v1 + d * v2 + f * v3) + u2 * (d * v1 + b * v2 + e * v3) + u3 * (f * v1 + e * v2 + c * v3))%R in
  det3 b1 b2 b3 b4 b5 b6 b7 b8 b9 <> 0%R ->
  (q b1 b4 b7 b1 b4 b7 = 0 -> q b2 b5 b8 b2 b5 b8 = 0 -> q b3 b6 b9 b3 b6 b9 = 0 -> q b1 b4 b7 b2 b5 b8 = 0 -> q b2 b5 b8 b3 b6 b9 = 0 -> q b1 b4 b7 b3 b6 b9 = 0 ->
  a = 0 /\ b = 0 /\ c = 0 /\ d = 0 /\ e = 0 /\ f = 0)%R.
Proof.
  intros q D M11 M22 M33 M12 M23 M13.
  set (D0 := det3 b1 b2 b3 b4 b5 b6 b7 b8 b9) in *.
  set (p1 := (b5 * b9 - b6 * b8)%R). set (p2 := (- (b4 * b9 - b6 * b7))%R). set (p3 := (b4 * b8 - b5 * b7)%R).
  set (s1 := (- (b2 * b9 - b3 * b8))%R). set (s2 := (b1 * b9 - b3 * b7)%R). set (s3 := (- (b1 * b8 - b2 * b7))%R).
  set (t1 := (b2 * b6 - b3 * b5)%R). set (t2 := (- (b1 * b6 - b3 * b4))%R). set (t3 := (b1 * b5 - b2 * b4)%R).
  set (W := fun u1 u2 u3 v1 v2 v3 : R => (u1 * v1 * q b1 b4 b7 b1 b4 b7 + u2 * v2 * q b2 b5 b8 b2 b5 b8 + u3 * v3 * q b3 b6 b9 b3 b6 b9 +
    (u1 * v2 + u2 * v1) * q b1 b4 b7 b2 b5 b8 + (u2 * v3 + u3 * v2) * q b2 b5 b8 b3 b6 b9 + (u1 * v3 + u3 * v1) * q b1 b4 b7 b3 b6 b9)%R).
  assert (W0 : forall u1 u2 u3 v1 v2 v3, W u1 u2 u3 v1 v2 v3 = 0%R).
  { intros. unfold W. rewrite M11, M22, M33, M12, M23, M13. ring. }
  assert (K : forall x, (x * D0 ^ 2 = 0)%R -> x = 0%R).
  { intros x H. apply Rmult_integral in H as [H|H]; [exact H|]. elim D. apply Rsqr_0_uniq. unfold Rsqr. rewrite <- H. ring. }
  repeat split; apply K.
  - rewrite <- (W0 p1 p2 p3 p1 p2 p3). unfold W, q, D0, det3, p1, p2, p3. ring.
  - rewrite <- (W0 s1 s2 s3 s1 s2 s3). unfold W, q, D0, det3, s1, s2, s3. ring.
  - rewrite <- (W0 t1 t2 t3 t1 t2 t3). unfold W, q, D0, det3, t1, t2, t3. ring.
  - rewrite <- (W0 p1 p2 p3 s1 s2 s3). unfold W, q, D0, det3, p1, p2, p3, s1, s2, s3. ring.
  - rewrite <- (W0 s1 s2 s3 t1 t2 t3). unfold W, q, D0, det3, s1, s2, s3, t1, t2, t3. ring.
  - rewrite <- (W0 p1 p2 p3 t1 t2 t3). unfold W, q, D0, det3, p1, p2, p3, t1, t2, t3. ring.
Qed.
Lemma line_zero g h j b1 b2 b3 b4 b5 b6 b7 b8 b9 : det3 b1 b2 b3 b4 b5 b6 b7 b8 b9 <> 0%R ->
  (g * b1 + h * b4 + j * b7 = 0 -> g * b2 + h * b5 + j * b8 = 0 -> g * b3 + h * b6 + j * b9 = 0 -> g = 0 /\ h = 0 /\ j = 0)%R.
Proof.
  intros D L1 L2 L3.
  assert (K : forall x, (x * det3 b1 b2 b3 b4 b5 b6 b7 b8 b9 = 0)%R -> x = 0%R) by (intros x H; apply Rmult_integral in H as [H|H]; [exact H|contradiction]).
  repeat split; apply K; unfold det3.
  - transitivity ((g * b1 + h * b4 + j * b7) * (b5 * b9 - b6 * b8) - (g * b2 + h * b5 + j * b8) * (b4 * b9 - b6 * b7) + (g * b3 + h * b6 + j * b9) * (b4 * b8 - b5 * b7))%R;
      [ring|rewrite L1, L2, L3; ring].
  - transitivity (- (g * b1 + h * b4 + j * b7) * (b2 * b9 - b3 * b8) + (g * b2 + h * b5 + j * b8) * (b1 * b9 - b3 * b7) - (g * b3 + h * b6 + j * b9) * (b1 * b8 - b2 * b7))%R;
      [ring|rewrite L1, L2, L3; ring].
  - transitivity ((g * b1 + h * b4 + j * b7) * (b2 * b6 - b3 * b5) - (g * b2 + h * b5 + j * b8) * (b1 * b6 - b3 * b4) + (g * b3 + h * b6 + j * b9) * (b1 * b5 - b2 * b4))%R;
      [ring|rewrite L1, L2, L3; ring].
Qed.

Lemma moved_normal g t m z a b c d e f g0 h j k : s_type g = GENERAL_QUADRATIC -> s_tr g <> None -> s_coef g = [a; b; c; d; e; f; g0; h; j; k] ->
  det_of (motion_of t) <> 0%R -> proper (s_coef g) -> transform g t = Some m -> ~ only_zx m -> simplify m = Some z -> after z.
Proof.
  intros TY TR EC DT PR E NZ SI. unfold transform in E. destruct (s_tr g); [|congruence]. rewrite EC in E, PR. unfold det_of, motion_of in DT. cbn [r1 r2 r3] in DT.
  destruct (t_shift t) as [[sx sy] sz], (t_v1 t) as [[b1 b2] b3], (t_v2 t) as [[b4 b5] b6], (t_v3 t) as [[b7 b8] b9].
  unfold pt_of, dot, cross_pt in DT. cbn [GeomSpec.px GeomSpec.py GeomSpec.pz] in DT.
  assert (D : det3 b1 b2 b3 b4 b5 b6 b7 b8 b9 <> 0%R) by (intro H; apply DT; rewrite <- H; unfold det3; ring). clear DT.
  injection E as <-. unfold only_zx, set_tc in NZ. cbn [s_type s_coef app] in NZ. rewrite TY in NZ.
  unfold simplify, set_tc in SI. cbn [s_type s_coef app firstn] in SI. rewrite TY in SI.
  unfold matmul, transpose, mk_mat in NZ, SI. cbn [nth] in NZ, SI.
  match type of SI with (if ?b then _ else _) = _ => destruct b eqn:EB end.
  2:{ match type of SI with (if ?b then _ else _) = _ => destruct b end; injection SI as <-; (split; [reflexivity|]); split; intro H; discriminate H. }
  injection SI as <-. split; [reflexivity|]. split; [|intro H; discriminate H]. intros _. cbn [s_coef]. intro N0.
  cbn [forallb] in EB. rewrite !andb_true_iff, !Reqb_true in EB. destruct EB as (Z1 & Z2 & Z3 & Z4 & Z5 & _).
  match type of NZ with ~ (_ /\ _ /\ _ /\ _ /\ _ /\ ?x <> _) => destruct (Req_dec x 0) as [Z6|Z6]; [|exfalso; apply NZ; now repeat split] end. clear NZ.
  set (q := fun u1 u2 u3 v1 v2 v3 : R => (u1 * (a * v1 + d / 2 * v2 + f / 2 * v3) + u2 * (d / 2 * v1 + b * v2 + e / 2 * v3) + u3 * (f / 2 * v1 + e / 2 * v2 + c * v3))%R).
  assert (Q1 : q b1 b4 b7 b1 b4 b7 = 0%R) by (unfold q; rewrite <- Z1; field).
  assert (Q2 : q b2 b5 b8 b2 b5 b8 = 0%R) by (unfold q; rewrite <- Z2; field).
  assert (Q3 : q b3 b6 b9 b3 b6 b9 = 0%R) by (unfold q; rewrite <- Z3; field).
  assert (Q4 : q b1 b4 b7 b2 b5 b8 = 0%R) by (apply (Rmult_eq_reg_l 2); [|lra]; unfold q; rewrite Rmult_0_r, <- Z4; field).
  assert (Q5 : q b2 b5 b8 b3 b6 b9 = 0%R) by (apply (Rmult_eq_reg_l 2); [|lra]; unfold q; rewrite Rmult_0_r, <- Z5; field).
  assert (Q6 : q b1 b4 b7 b3 b6 b9 = 0%R) by (apply (Rmult_eq_reg_l 2); [|lra]; unfold q; rewrite Rmult_0_r, <- Z6; field).
  destruct (form_zero a b c (d / 2) (e / 2) (f / 2) b1 b2 b3 b4 b5 b6 b7 b8 b9 D Q1 Q2 Q3 Q4 Q5 Q6) as (A & B & C & D4 & D5 & D6).
  assert (d = 0 /\ e = 0 /\ f = 0)%R as (DD & EE & FF) by (repeat split; lra). clear - N0 A B C DD EE FF D PR. subst a b c d e f.
  injection N0 as N1 N2 N3. 
  destruct (line_zero g0 h j b1 b2 b3 b4 b5 b6 b7 b8 b9 D) as (G & H & J).
  - rewrite <- N1. field.
  - rewrite <- N2. field.
  - rewrite <- N3. field.
  - apply PR. now repeat split.
Qed.

Lemma form_of s g : is_torus (s_type s) = false -> SurfModel.generalise s = Some g ->
  s_type g = GENERAL_QUADRATIC /\ s_tr g = s_tr s /\ exists a b c d e f g0 h j k, s_coef g = [a; b; c; d; e; f; g0; h; j; k].
Proof.
  intros NT E. unfold SurfModel.generalise in E. revert E. generalize (s_coef s). intros l E. destruct (s_type s); try discriminate NT;
    repeat (match type of E with match ?l with _ => _ end = _ => destruct l as [|? ?] end; try discriminate E);
    injection E as <-; (split; [reflexivity|split; [reflexivity|]]); do 10 eexists; reflexivity.
Qed.

Lemma after_moved cards s t : apply_transform cards s = Some t -> before cards s -> after t.
Proof.
  intros E (NT & NO & CC & MB & TR). unfold apply_transform in E. destruct (s_tr s) as [id|] eqn:ET; [|injection E as <-; split; [exact NT|split; [exact NO|now apply CC]]].
  destruct (is_macrobody s) eqn:EM.
  { injection E as <-. split; [exact NT|]. split; [exact NO|]. intro H. exfalso. clear - EM H. unfold is_macrobody in EM. destruct (s_type s); discriminate. }
  destruct (SurfModel.generalise s) as [g|] eqn:EG; [|discriminate]. destruct (form_of s g NT EG) as (TG & RG & a & b & c & d & e & f & g0 & h & j & k & EC).
  destruct (cards id) as [tr|] eqn:EI.
  - destruct (transform g tr) as [m|] eqn:EF; [|discriminate]. destruct (TR id tr eq_refl EI) as [DT NZ]. destruct (NZ eq_refl g eq_refl) as [PR NX].
    eapply moved_normal; eauto. rewrite RG, ET. discriminate.
  - injection E as <-. unfold after, normal_ok, cut_cone. rewrite TG. split; [reflexivity|]. split; discriminate.
Qed.

Lemma unit_nonzero x y z : (x, y, z) <> (0, 0, 0)%R -> (x / norm3 x y z, y / norm3 x y z, z / norm3 x y z)%R <> (0, 0, 0)%R.
Proof. intros N E. assert (U := ProcessProofs.unit_axis x y z N). injection E as E1 E2 E3. rewrite E1, E2, E3 in U. lra. Qed.
Lemma neg_nonzero x y z : (x, y, z) <> (0, 0, 0)%R -> (-1 * x, -1 * y, -1 * z)%R <> (0, 0, 0)%R.
Proof. intros N E. apply N. injection E as E1 E2 E3. repeat (apply f_equal2); lra. Qed.

(** The facets of a macrobody. *)
Definition facet (u : surface) : Prop :=
  is_torus (s_type u) = false /\ is_macrobody u = false /\ is_cone (s_type u) = false /\ normal_ok u /\ 
  forall g, SurfModel.generalise u = Some g -> proper (s_coef g).
Lemma facet_plane n a b c d : (a, b, c) <> (0, 0, 0)%R -> facet (new_plane n a b c d).
Proof.
  intro N. split; [reflexivity|]. split; [reflexivity|]. split; [reflexivity|]. split; [intros _; exact N|].
  intros g E. injection E as <-. cbn [s_coef set_tc proper]. intros (_ & _ & _ & _ & _ & _ & -> & -> & ->). now apply N.
Qed.
Lemma facet_new n s f i x : body s f i -> explode_macrobody n s = Some x -> Forall facet (x_surfs x).
Proof.
  intros B E. destruct B as [i tr bc x0 x1 y0 y1 z0 z1|i tr bc v a b c O NA NB NC|i tr bc b h r NH]; injection E as <-.
  - assert (X : forall ty l k, (ty = PLANE_X \/ ty = PLANE_Y \/ ty = PLANE_Z) -> length l = 4 -> facet (mkS k None ty l TRANSMISSION)).
    { intros ty l k TY LL. destruct l as [|l0 [|l1 [|l2 [|l3 [|]]]]]; try discriminate LL. destruct TY as [-> | [-> | ->]]; (do 3 (split; [reflexivity|])); (split; [discriminate|]); intros g E;
        injection E as <-; cbn [s_coef set_tc proper]; intros (_ & _ & _ & _ & _ & _ & Q1 & Q2 & Q3); lra. }
    unfold explode_rpp. cbn [x_surfs]. repeat (constructor; [first [apply facet_plane; intro Q; injection Q; lra|apply X; [tauto|reflexivity]]|]). constructor.
  - unfold explode_box. cbn [x_surfs app]. repeat (constructor; [apply facet_plane; first [now apply unit_nonzero|now apply neg_nonzero, unit_nonzero]|]). constructor.
  - unfold explode_rcc. cbn [x_surfs]. constructor; [|constructor; [apply facet_plane; now apply neg_nonzero, unit_nonzero|constructor; [apply facet_plane; now apply unit_nonzero|constructor]]].
    do 3 (split; [reflexivity|]). split; [discriminate|]. intros g E. injection E as <-. cbn [s_coef set_tc proper]. intros (Q1 & Q2 & Q3 & _).
    assert (U := ProcessProofs.unit_axis _ _ _ NH). lra.
Qed.
Lemma before_new cards n s x t : before cards s -> explode_macrobody n s = Some x -> In t (inherit s (x_surfs x)) -> before cards t.
Proof.
  intros (_ & _ & _ & MB & TR) E I. destruct (is_macrobody s) eqn:EM.
  2:{ exfalso. unfold is_macrobody in EM. unfold explode_macrobody in E. destruct (s_type s); try discriminate EM; injection E as <-; unfold inherit in I; destruct (s_tr s); destruct I. }
  destruct (MB eq_refl) as (f & i & B). assert (FA := facet_new n s f i x B E). destruct (ProcessProofs.body_facts s f i n B) as (x' & E' & _ & _ & _ & FR & _).
  rewrite E in E'. injection E' as <-. rewrite Forall_forall in FA, FR. unfold inherit in I. destruct (s_tr s) as [id|] eqn:ET.
  - apply in_map_iff in I as (u & <- & I). destruct (FA u I) as (A1 & A2 & A3 & A4 & A5). destruct (FR u I) as (_ & _ & _ & NX). change (before cards (ProcessProofs.given u (Some id))).
    split; [exact A1|]. split; [exact A4|]. split; [intros _ H; cbn [ProcessProofs.given s_type] in H; congruence|]. split; [intro H; unfold is_macrobody in *; cbn [ProcessProofs.given s_type] in H; congruence|].
    intros id' tr EI EC. cbn [ProcessProofs.given s_tr] in EI. injection EI as <-. destruct (TR id tr eq_refl EC) as [DT _]. split; [exact DT|]. intros _ g EG. split.
    + assert (exists g', SurfModel.generalise u = Some g' /\ s_coef g' = s_coef g) as (g' & E1 & E2).
      { clear - EG A1. unfold SurfModel.generalise, ProcessProofs.given in *. cbn [s_type s_coef s_id s_tr s_bc] in EG. revert EG A1. generalize (s_coef u). intros l EG A1.
        destruct (s_type u); try discriminate A1; repeat (match type of EG with match ?l with _ => _ end = _ => destruct l as [|? ?] end; try discriminate EG); injection EG as <-; eexists; (split; [reflexivity|reflexivity]). }
      rewrite <- E2. now apply A5.
    + intros m EF. now apply (NX id tr g m EG).
  - destruct (FA t I) as (A1 & A2 & A3 & A4 & A5). destruct (FR t I) as (NT & _). split; [exact A1|]. split; [exact A4|]. split; [intros _ H; congruence|]. split; [congruence|]. intros id tr EI. congruence.
Qed.

(** Through the processing. *)
Lemma process_two (P Q : surface -> Prop) fuel i o :
  (forall n s x t, P s -> explode_macrobody n s = Some x -> In t (inherit s (x_surfs x)) -> P t) ->
  (forall s t, apply_transform (i_cards i) s = Some t -> P s -> Q t) -> (forall s, Q s -> Q (with_bc VACUUM s)) ->
  process fuel i = Done o -> Forall P (i_surfs i) -> Forall Q (o_surfs o) /\ exists ss, bounding_coordinates ss [0; 0; 0; 0; 0; 0]%R = Some (o_bounds o).
Proof.
  intros X1 X2 X3 E F. unfold process in E. destruct (flatten_macrobodies _) as [d|] eqn:FL; [|discriminate].
  assert (F1 : Forall P (FlattenModel.d_surfs d)).
  { unfold flatten_macrobodies in FL. cbn [FlattenModel.d_surfs] in FL. destruct (flatten_loop _ _) as [d'|] eqn:L; [|discriminate]. injection FL as <-. cbn [FlattenModel.d_surfs].
    apply (flatten_loop_inv P X1) in L; [|exact F|exact F]. apply Forall_forall. intros s I. apply filter_In in I as [I _]. rewrite Forall_forall in L. now apply L. }
  destruct (explode_nots fuel _) as [cs| |]; try discriminate. destruct (mapM _ (FlattenModel.d_surfs d)) as [ss|] eqn:M; [|discriminate].
  assert (F2 : Forall Q ss).
  { clear - M F1 X2. revert ss M. induction F1 as [|s l H F IH]; intros ss M; cbn [mapM] in M; [injection M as <-; constructor|].
    destruct (apply_transform _ s) as [t|] eqn:A; [|discriminate]. destruct (mapM _ l) as [ss'|]; [|discriminate]. injection M as <-. constructor; [now apply (X2 s t A)|now apply IH]. }
  unfold apply_boundary_conditions in E. destruct (apply_importances _ _) as [cs'|]; [|discriminate]. destruct (graveyards cs' ss) as [ss'|] eqn:G; [|discriminate].
  assert (F3 : Forall Q ss').
  { clear - G F2 X3. revert ss ss' G F2. induction cs' as [|[c q] cs IH]; intros ss ss' G F; cbn [graveyards] in G; [now injection G as <-|].
    destruct (Qeq_bool q 0); [|now apply (IH ss ss')]. destruct (set_vacuums _ ss) as [s1|] eqn:S; [|discriminate]. apply (IH s1 ss' G). now apply (set_vacuums_inv Q X3 _ _ _ S). }
  destruct (bounding_coordinates _ _) as [bc|] eqn:BC; [|discriminate]. unfold finish in E. destruct (i_quick i); [injection E as <-; split; [exact F3|now exists ss']|].
  destruct (remove_duplicates ss' _) as [[l ?]|] eqn:R; [|discriminate]. injection E as <-. cbn [o_surfs o_bounds]. split; [|now exists ss']. unfold remove_duplicates in R.
  destruct (entries 0 ss') as [es|] eqn:EN; [|discriminate]. cbv zeta in R. destruct (mapM (replace_cell _) _); [|discriminate]. injection R as <- _. apply entries_org in EN. subst ss'.
  unfold keep. apply Forall_map. apply Forall_forall. intros e I. apply filter_In in I as [I _]. rewrite Forall_forall in F3. apply F3. now apply in_map.
Qed.

(** The cards are as asked. *)
Lemma stored_proper m vals y g : stored m vals (s_type y) (s_coef y) -> ~ torus_card m ->
  (m = "p"%string -> (nth 0 vals 0, nth 1 vals 0, nth 2 vals 0) <> (0, 0, 0))%R -> (m = "sq"%string -> (nth 0 vals 0, nth 1 vals 0, nth 2 vals 0) <> (0, 0, 0))%R ->
  (m = "gq"%string -> proper vals) -> SurfModel.generalise y = Some g -> proper (s_coef g).
Proof.
  intros ST NT NP NS NG E. unfold SurfModel.generalise in E. destruct ST; try (elim NT; unfold torus_card; tauto); injection E as <-; cbn [s_coef set_tc proper];
    try (intros (Q1 & Q2 & Q3 & Q4 & Q5 & Q6 & Q7 & Q8 & Q9); lra).
  - intros (_ & _ & _ & _ & _ & _ & -> & -> & ->). now apply (NP eq_refl).
  - exact (NG eq_refl).
  - intros (-> & -> & -> & _). now apply (NS eq_refl).
Qed.
Lemma gq_proper mo vals : movable mo "gq" vals -> proper vals.
Proof.
  intro M. inversion M as [? ? IN|? ? ? ? ? IN|? ? ? IN| | |a b c d e f rest D H]; subst; try (cbn [In] in IN; repeat (destruct IN as [IN|IN]; [discriminate IN|]); destruct IN).
  destruct rest as [|g [|h [|j rest]]]; try exact I. intros (-> & -> & -> & -> & -> & -> & _). apply H. unfold det3. field.
Qed.
Lemma cards_before quick ss ds p : says_surfs ss -> fine_cards quick (trs_of ds) ss -> fluka_cards (trs_of ds) ss ->
  Forall2 (fun x y => surf_got (snd x) y /\ read_surface (PropDeck.card_text (fst x)) = Some y) ss (f_surfs p) -> trans_got ds (f_trans p) ->
  Forall (before (fun id => dget id (f_trans p))) (f_surfs p).
Proof.
  intros SS FW FC FS TG. assert (MF := cards_memory quick ss ds p SS FW FS TG). destruct MF as [MF _]. destruct TG as [TK TM].
  unfold says_surfs in SS. unfold fine_cards in FW. unfold fluka_cards in FC. rewrite Forall_forall in SS, FC, FW. apply Forall_forall. intros y I.
  destruct (forall2_pick _ _ _ _ FS I) as (x & IX & SG & RS). destruct (SS x IX) as [GC SY].
  destruct (got_stored x y GC SY SG RS) as (m & vals & SP & ST). destruct (FC x IX m vals SP) as (NT & NP & K1 & K2 & KT).
  assert (ETR : s_tr y = ss_tr (snd x)) by apply SG.
  assert (LAST : forall id t, s_tr y = Some id -> dget id (f_trans p) = Some t -> exists mo, last_for id (trs_of ds) mo /\ motion_of t = mo).
  { intros id t ET EG. assert (IT : In id (map fst (trs_of ds))) by (apply TK; now apply dget_keys in EG).
    destruct (last_exists id _ IT) as (mo & L). destruct (TM id mo L) as (t' & ET' & EM). rewrite EG in ET'. injection ET' as <-. now exists mo. }
  destruct (is_macrobody y) eqn:EM.
  - destruct (got_macro (snd x) y SG EM) as (f & i & f' & i' & _ & B & _). unfold before, normal_ok, cut_cone.
    assert (TY : is_torus (s_type y) = false /\ s_type y <> PLANE_GENERAL /\ is_cone (s_type y) <> true) by (clear - EM; unfold is_macrobody in EM; destruct (s_type y); try discriminate EM; repeat split; discriminate).
    destruct TY as (T1 & T2 & T3). split; [exact T1|]. split; [congruence|]. split; [congruence|]. split; [intros _; eauto|]. intros id t ET EG. split; [|rewrite EM; discriminate].
    destruct (LAST id t ET EG) as (mo & L & ->). rewrite ETR in ET. now apply (KT id mo).
  - destruct ST as [ST|ST]; [congruence|]. split; [now apply (stored_is_torus m vals)|]. split.
    { intro TY. clear - ST TY NP. destruct ST; try discriminate TY. exact (NP eq_refl). }
    split.
    { intros NTR IC. rewrite ETR in NTR. specialize (K1 NTR). specialize (K2 NTR). clear - ST IC K1 K2.
      destruct ST; try discriminate IC;
        first [destruct K1 as (x' & y' & z' & t' & s' & E & P & S); [cbn [In]; tauto|]; try discriminate E; injection E as <- <- <- <- <-|
               destruct K2 as (x' & t' & s' & E & P & S); [cbn [In]; tauto|]; try discriminate E; injection E as <- <- <-];
        do 5 eexists; (split; [reflexivity|]); split; assumption. }
    split; [congruence|]. intros id t ET EG. destruct (LAST id t ET EG) as (mo & L & EMO). rewrite EMO.
    assert (ET' := ET). rewrite ETR in ET'. destruct (KT id mo ET' L) as [DT KS]. split; [exact DT|]. intros _ g GE. split.
    + apply (stored_proper m vals y g); auto. intros ->. apply (gq_proper mo). now apply (FW x IX "gq"%string vals SP) with (id := id).
    + intros z TE. destruct (MF y id t I ET EG EM) as (_ & _ & NX). exact (NX g z GE TE).
Qed.

(** The surfaces of the deck can be written. *)
Lemma deck_bodies str show quick s cells ss ds d N : describes s cells ss ds -> fine_cards quick (trs_of ds) ss -> fluka_cards (trs_of ds) ss ->
  (forall fuel, N <= fuel -> load str show fuel quick s = Done d) ->
  exists bc l, bounding_coordinates l [0; 0; 0; 0; 0; 0]%R = Some bc /\ forall x, In x (d_surfs d) -> after (fst x) /\ snd x = cone_box (fst x) bc.
Proof.
  intros (title & noisy & cs & b1 & b2 & dd & H1 & H2 & H3 & H4 & H5 & H6 & H7 & SC & SS & SD & -> & ->) FW FK L.
  destruct (file_read s title noisy cs b1 ss b2 dd) as (p & R & _ & FC & FS & _ & TG & _); auto.
  assert (LD : load str show (S N) quick s = Done d) by (apply L; lia).
  assert (B := cards_before quick ss (map snd dd) p SS FW FK FS TG).
  revert LD. unfold load, in_memory. rewrite (R N). destruct (process_importances (f_imps p)) as [imps|]; [|discriminate].
  destruct (process (S N) _) as [o| |] eqn:EP; try discriminate.
  destruct (mapM (universe_placing (f_trans p)) (map snd (f_cells p))) as [ps|]; [|discriminate].
  destruct (reorganise_materials show (f_mats p) _) as [[ms cs2]|]; [|discriminate]. injection 1 as <-. cbn [ConvertModel.d_surfs].
  match type of EP with process _ ?i = _ => destruct (process_two (before (i_cards i)) after (S N) i o (fun n y z t => before_new _ n y z t) (fun y t => after_moved _ y t) (fun y H => H) EP B) as [FA (l & BC)] end.
  exists (o_bounds o), l. split; [exact BC|]. intros x I. apply in_map_iff in I as (y & <- & I). cbn [fst snd]. split; [|reflexivity]. rewrite Forall_forall in FA. now apply FA.
Qed.
