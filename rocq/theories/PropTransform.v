(** Properties C22-C24: transforming surfaces. *)
From Coq Require Import Reals Qreals List Lra Psatz.
From Verif Require Import PyStr PyStrFacts FortranNumber PyInt GeomSpec SurfModel SurfSpec SurfProofs PropSurf.
Import ListNotations.
Open Scope R_scope.

(* ---------------------------------------------------------------- C22 *)

(** C22: transforming a quadric gives the surface seen through the transform, for any
    displacement and any matrix. *)
Theorem C22_transform_moves s t sn :
  s_type s = GENERAL_QUADRATIC -> s_tr s <> None -> surf_sense s = Some sn ->
  exists s', transform s t = Some s' /\ s_id s' = s_id s /\ denotes s' (moved (motion_of t) sn).
Proof.
  intros A B C. destruct (transform_gq s t _ sn A B eq_refl C) as (s' & E & I & _ & _ & _ & D). eauto.
Qed.
Print Assumptions C22_transform_moves.

(** What the input reader does for one surface, sheets and tori and the faulty case of
    simplify aside. *)
Theorem C22_apply_transform_partial cards s t id sn :
  s_tr s = Some id -> cards id = Some t -> surf_sense s = Some sn ->
  ~ sheeted s -> is_torus (s_type s) = false ->
  (forall g m, generalise s = Some g -> transform g t = Some m -> ~ only_zx m) ->
  exists s', apply_transform cards s = Some s' /\ s_id s' = s_id s /\ denotes s' (moved (motion_of t) sn).
Proof.
  intros Etr Ec Es NS NT NZ. unfold apply_transform. rewrite Etr.
  assert (NM : is_macrobody s = false).
  { destruct s as [i tr ty l bc]. unfold surf_sense in Es. cbn [s_type s_coef] in Es.
    destruct ty; try reflexivity; discriminate Es. }
  rewrite NM.
  destruct (generalise_sense s sn Es NS) as (g & Eg & Ig & Tg & _ & (sg & Esg & Sg) & _ & Qg).
  rewrite Eg, Ec.
  destruct (transform_gq g t _ sg (Qg NT) ltac:(congruence) eq_refl Esg) as (m & Em & Im & _ & _ & _ & (sm & Esm & Sm)).
  rewrite Em.
  destruct (simplify_sense m sm Esm (NZ g m Eg Em)) as (r & Er & Ir & _ & _ & (sr & Esr & Sr)).
  exists r. split; [exact Er|split; [congruence|]].
  exists sr. split; [exact Esr|].
  intros p. destruct (Sr p) as [A1 A2], (Sm p) as [B1 B2], (Sg (to_aux (motion_of t) p)) as [C1 C2].
  unfold moved in *. cbn [neg pos] in *. tauto.
Qed.
Print Assumptions C22_apply_transform_partial.

(** ** Rotations *)

(** Specification: the auxiliary system keeps distances. *)
Definition rigid (m : motion) : Prop := forall p q,
  dot (sub_pt (to_aux m p) (to_aux m q)) (sub_pt (to_aux m p) (to_aux m q)) = dot (sub_pt p q) (sub_pt p q).

(** The cones. *)
Definition is_cone (t : stype) : bool := match t with CONE_X | CONE_Y | CONE_Z => true | _ => false end.

Lemma sq2 x y : x ^ 2 + y ^ 2 = 0 -> x = 0 /\ y = 0.
Proof. intros H. split; nra. Qed.
Lemma sq3 x y z : x ^ 2 + y ^ 2 + z ^ 2 = 0 -> x = 0 /\ y = 0 /\ z = 0.
Proof. intros H. repeat split; nra. Qed.

(** The second-order terms after a transform: the form in the columns of the matrix. *)
Lemma zx_terms i tr bc a b c d e f g h j k sh b1 b2 b3 b4 b5 b6 b7 b8 b9 m :
  transform (mkS i (Some tr) GENERAL_QUADRATIC [a; b; c; d; e; f; g; h; j; k] bc) (mkTr sh (b1, b2, b3) (b4, b5, b6) (b7, b8, b9)) = Some m ->
  only_zx m ->
  a * b1 ^ 2 + b * b4 ^ 2 + c * b7 ^ 2 + d * b1 * b4 + e * b4 * b7 + f * b7 * b1 = 0 /\
  a * b2 ^ 2 + b * b5 ^ 2 + c * b8 ^ 2 + d * b2 * b5 + e * b5 * b8 + f * b8 * b2 = 0 /\
  a * b3 ^ 2 + b * b6 ^ 2 + c * b9 ^ 2 + d * b3 * b6 + e * b6 * b9 + f * b9 * b3 = 0 /\
  2 * a * b1 * b2 + 2 * b * b4 * b5 + 2 * c * b7 * b8 + d * (b1 * b5 + b4 * b2) + e * (b4 * b8 + b7 * b5) + f * (b7 * b2 + b1 * b8) = 0 /\
  2 * a * b1 * b3 + 2 * b * b4 * b6 + 2 * c * b7 * b9 + d * (b1 * b6 + b4 * b3) + e * (b4 * b9 + b7 * b6) + f * (b7 * b3 + b1 * b9) <> 0.
Proof.
  destruct sh as [[sx sy] sz]. unfold transform. cbn [s_tr s_coef t_shift t_v1 t_v2 t_v3].
  set (rot := mk_mat [[1; 0; 0; 0]; [0; b1; b2; b3]; [0; b4; b5; b6]; [0; b7; b8; b9]]).
  set (A := mk_mat [[k; g / 2; h / 2; j / 2]; [g / 2; a; d / 2; f / 2]; [h / 2; d / 2; b; e / 2]; [j / 2; f / 2; e / 2; c]]).
  set (m1 := matmul (transpose rot) (matmul A rot)).
  set (shf := mk_mat [[1; 0; 0; 0]; [- sx; 1; 0; 0]; [- sy; 0; 1; 0]; [- sz; 0; 0; 1]]).
  remember (matmul (transpose shf) (matmul m1 shf)) as mm eqn:Emm.
  intros Em. injection Em as <-. unfold only_zx. cbn [s_type s_coef set_tc app].
  assert (SH : forall x y, In (x, y) [(1, 1); (2, 2); (3, 3); (1, 2); (2, 1); (1, 3); (3, 1); (3, 2); (2, 3)]%nat -> mm x y = m1 x y).
  { intros x y I. cbn [In] in I. rewrite Emm. unfold matmul at 1 2, transpose, shf, mk_mat.
    repeat (destruct I as [I|I]; [injection I as <- <-; cbn [nth]; ring|]). destruct I. }
  rewrite !SH by (cbn [In]; auto 10).
  assert (E : forall x y, In (x, y) [(1, 1); (2, 2); (3, 3); (1, 2); (2, 1); (1, 3); (3, 1); (3, 2); (2, 3)]%nat ->
    m1 x y = rot 1%nat x * (a * rot 1%nat y + d / 2 * rot 2%nat y + f / 2 * rot 3%nat y)
           + rot 2%nat x * (d / 2 * rot 1%nat y + b * rot 2%nat y + e / 2 * rot 3%nat y)
           + rot 3%nat x * (f / 2 * rot 1%nat y + e / 2 * rot 2%nat y + c * rot 3%nat y)).
  { intros x y I. unfold m1, matmul, transpose.
    assert (R0 : forall z, In z [1; 2; 3]%nat -> rot 0%nat z = 0).
    { intros z Iz. unfold rot, mk_mat. cbn [nth]. cbn [In] in Iz. destruct Iz as [<-|[<-|[<-|[]]]]; reflexivity. }
    assert (Ix : In x [1; 2; 3]%nat /\ In y [1; 2; 3]%nat).
    { cbn [In] in I. repeat (destruct I as [I|I]; [injection I as <- <-; cbn [In]; auto|]). destruct I. }
    rewrite (R0 x), (R0 y) by apply Ix. unfold A, mk_mat. cbn [nth]. ring. }
  rewrite !E by (cbn [In]; auto 10). clear E SH. unfold rot, mk_mat. cbn [nth].
  intros (Z1 & Z2 & Z3 & Z4 & Z5 & Z).
  split; [lra|]. split; [lra|]. split; [lra|]. split; [lra|]. intros H. apply Z. lra.
Qed.

Lemma no_zx s t id sn g m : s_tr s = Some id -> surf_sense s = Some sn -> is_torus (s_type s) = false -> s_type s <> GENERAL_QUADRATIC ->
  (is_cone (s_type s) = true -> rigid (motion_of t)) -> generalise s = Some g -> transform g t = Some m -> ~ only_zx m.
Proof.
  intros Etr Es NT NG RG. destruct s as [i tr ty l bc]. cbn [s_tr] in Etr. subst tr.
  unfold surf_sense in Es. cbn [s_type s_coef] in Es, NT, NG, RG. unfold generalise. cbn [s_type s_coef].
  destruct t as [[[sx sy] sz] [[b1 b2] b3] [[b4 b5] b6] [[b7 b8] b9]].
  assert (ORT : is_cone ty = true -> b1 ^ 2 + b4 ^ 2 + b7 ^ 2 = 1 /\ b2 ^ 2 + b5 ^ 2 + b8 ^ 2 = 1 /\
            b1 * b2 + b4 * b5 + b7 * b8 = 0).
  { intros C. specialize (RG C). clear -RG. unfold rigid, to_aux, motion_of, dot, sub_pt in RG.
    cbn [pt_of t_shift t_v1 t_v2 t_v3 mo r1 r2 r3 px py pz] in RG.
    pose proof (RG (Pt 1 0 0) (Pt 0 0 0)) as H1. pose proof (RG (Pt 0 1 0) (Pt 0 0 0)) as H2.
    pose proof (RG (Pt 1 1 0) (Pt 0 0 0)) as H4. cbn [px py pz] in *. clear RG.
    repeat split; lra. }
  clear RG.
  destruct ty; try discriminate NT; try congruence; cbn [sem] in Es; dl l; intros Eg; injection Eg as <-;
  intros Em Hz; destruct (zx_terms _ _ _ _ _ _ _ _ _ _ _ _ _ _ _ _ _ _ _ _ _ _ _ _ Em Hz) as (Z1 & Z2 & Z3 & Z4 & Z); apply Z; clear Em Hz Z.
  1,2,3,4: ring.
  - destruct (sq2 b4 b7) as [-> ->]; [lra|]. ring.
  - destruct (sq2 b1 b7) as [-> ->]; [lra|]. ring.
  - destruct (sq2 b1 b4) as [-> ->]; [lra|]. ring.
  - destruct (sq3 b1 b4 b7) as [-> [-> ->]]; [lra|]. ring.
  - destruct (ORT eq_refl) as (O1 & O2 & O4). exfalso. clear ORT.
    assert (E1 : (1 + c2) * b1 ^ 2 = 1) by lra. assert (E2 : (1 + c2) * b2 ^ 2 = 1) by lra.
    assert (E4 : (1 + c2) * (b1 * b2) = 0) by lra.
    assert (H : ((1 + c2) * b1 ^ 2) * ((1 + c2) * b2 ^ 2) = ((1 + c2) * (b1 * b2)) ^ 2) by ring. rewrite E1, E2, E4 in H. lra.
  - destruct (ORT eq_refl) as (O1 & O2 & O4). exfalso. clear ORT.
    assert (E1 : (1 + c2) * b4 ^ 2 = 1) by lra. assert (E2 : (1 + c2) * b5 ^ 2 = 1) by lra.
    assert (E4 : (1 + c2) * (b4 * b5) = 0) by lra.
    assert (H : ((1 + c2) * b4 ^ 2) * ((1 + c2) * b5 ^ 2) = ((1 + c2) * (b4 * b5)) ^ 2) by ring. rewrite E1, E2, E4 in H. lra.
  - destruct (ORT eq_refl) as (O1 & O2 & O4). exfalso. clear ORT.
    assert (E1 : (1 + c2) * b7 ^ 2 = 1) by lra. assert (E2 : (1 + c2) * b8 ^ 2 = 1) by lra.
    assert (E4 : (1 + c2) * (b7 * b8) = 0) by lra.
    assert (H : ((1 + c2) * b7 ^ 2) * ((1 + c2) * b8 ^ 2) = ((1 + c2) * (b7 * b8)) ^ 2) by ring. rewrite E1, E2, E4 in H. lra.
Qed.

(** The same for the cylinder of an RCC: the quadric of the unit vector (u, v, w). *)
Lemma no_zx_tube i tr bc u v w g h j k t m : u ^ 2 + v ^ 2 + w ^ 2 = 1 ->
  transform (mkS i (Some tr) GENERAL_QUADRATIC [1 - u ^ 2; 1 - v ^ 2; 1 - w ^ 2; -2 * u * v; -2 * v * w; -2 * u * w; g; h; j; k] bc) t = Some m ->
  ~ only_zx m.
Proof.
  intros U. destruct t as [sh [[b1 b2] b3] [[b4 b5] b6] [[b7 b8] b9]]. intros Em Hz.
  destruct (zx_terms _ _ _ _ _ _ _ _ _ _ _ _ _ _ _ _ _ _ _ _ _ _ _ _ Em Hz) as (Z1 & _ & _ & _ & Z). apply Z.
  assert (P : forall x y z, (1 - u ^ 2) * x ^ 2 + (1 - v ^ 2) * y ^ 2 + (1 - w ^ 2) * z ^ 2 + -2 * u * v * x * y + -2 * v * w * y * z + -2 * u * w * z * x
     = (v * z - w * y) ^ 2 + (w * x - u * z) ^ 2 + (u * y - v * x) ^ 2).
  { intros x y z. replace u with u by reflexivity.
    transitivity ((u ^ 2 + v ^ 2 + w ^ 2) * (x ^ 2 + y ^ 2 + z ^ 2) - (u * x + v * y + w * z) ^ 2); [rewrite U; ring|ring]. }
  rewrite P in Z1. apply sq3 in Z1 as (A & B & C).
  transitivity (2 * ((v * b7 - w * b4) * (v * b9 - w * b6) + (w * b1 - u * b7) * (w * b3 - u * b9) + (u * b4 - v * b1) * (u * b6 - v * b3))).
  - transitivity (2 * ((u ^ 2 + v ^ 2 + w ^ 2) * (b1 * b3 + b4 * b6 + b7 * b9) - (u * b1 + v * b4 + w * b7) * (u * b3 + v * b6 + w * b9))); [rewrite U; ring|ring].
  - rewrite A, B, C. ring.
Qed.

(** C22 for planes, spheres, cylinders under any matrix and for two-sheeted cones under any rotation. *)
Theorem C22_solids_move cards s id t sn :
  s_tr s = Some id -> cards id = Some t -> surf_sense s = Some sn ->
  ~ sheeted s -> is_torus (s_type s) = false -> s_type s <> GENERAL_QUADRATIC ->
  (is_cone (s_type s) = true -> rigid (motion_of t)) ->
  exists s', apply_transform cards s = Some s' /\ s_id s' = s_id s /\ denotes s' (moved (motion_of t) sn).
Proof.
  intros Etr Ec Es NS NT NG RG. apply (C22_apply_transform_partial cards s t id sn Etr Ec Es NS NT).
  intros g m Eg Em. now apply (no_zx s t id sn g m).
Qed.
Print Assumptions C22_solids_move.

(** A cone turned by a rotation of 90 degrees about z and shifted. *)
Example C22_solids_example :
  let s := mkS 1 (Some (T "1")) CONE_X [1; 2; 3; 2; 0] TRANSMISSION in
  let t := mkTr (5, 0, 0) (0, 1, 0) (-1, 0, 0) (0, 0, 1) in
  (exists sn, surf_sense s = Some sn) /\ ~ sheeted s /\ is_torus (s_type s) = false /\ s_type s <> GENERAL_QUADRATIC /\ rigid (motion_of t).
Proof.
  cbn zeta. split; [eexists; reflexivity|]. split; [cbn; lra|]. split; [reflexivity|]. split; [discriminate|].
  intros p q. unfold to_aux, motion_of, dot, sub_pt. cbn [pt_of t_shift t_v1 t_v2 t_v3 mo r1 r2 r3 px py pz]. ring.
Qed.

(** For planes, spheres, cylinders and two-sheeted cones the condition on zx holds for
    every translation. *)
Theorem C22_translation_moves cards s id sn dx dy dz :
  s_tr s = Some id -> cards id = Some (mkTr (dx, dy, dz) (1, 0, 0) (0, 1, 0) (0, 0, 1)) ->
  surf_sense s = Some sn -> ~ sheeted s -> is_torus (s_type s) = false -> s_type s <> GENERAL_QUADRATIC ->
  exists s', apply_transform cards s = Some s' /\ s_id s' = s_id s /\
    denotes s' (Sense (fun p => neg sn (sub_pt p (Pt dx dy dz))) (fun p => pos sn (sub_pt p (Pt dx dy dz)))).
Proof.
  intros Etr Ec Es NS NT NG.
  destruct (C22_apply_transform_partial cards s _ id sn Etr Ec Es NS NT) as (s' & E & I & (sn' & En & Sn)).
  - intros g m Eg Em Z. revert Eg Em Z. destruct s as [i tr ty l bc]. cbn [s_tr] in Etr. subst tr.
    unfold surf_sense in Es. cbn [s_type s_coef] in Es, NT, NG.
    unfold generalise. cbn [s_type s_coef].
    destruct ty; try discriminate NT; try congruence; cbn [sem] in Es; dl l; intros Eg; injection Eg as <-;
    unfold transform; cbn [s_tr s_coef set_tc t_shift t_v1 t_v2 t_v3 app]; intros Em; injection Em as <-;
    unfold only_zx; cbn [s_type s_coef set_tc app];
    intros (_ & _ & _ & _ & _ & Z); apply Z; unfold matmul, transpose, mk_mat; cbn [nth]; field.
  - exists s'. split; [exact E|split; [exact I|]]. exists sn'. split; [exact En|].
    eapply same_trans; [exact Sn|].
    assert (T : forall p, to_aux (motion_of (mkTr (dx, dy, dz) (1, 0, 0) (0, 1, 0) (0, 0, 1))) p = sub_pt p (Pt dx dy dz)).
    { intros [x y z]. unfold to_aux, motion_of, dot, sub_pt. cbn [pt_of t_shift t_v1 t_v2 t_v3 mo r1 r2 r3 px py pz].
      f_equal; ring. }
    intros p. unfold moved. cbn [neg pos]. rewrite T. tauto.
Qed.
Print Assumptions C22_translation_moves.

(** C22 fails for the reader as a whole: the hyperbolic cylinder zx = 1 with the
    identity transform comes out as a plane. *)
Theorem C22_apply_transform_refuted :
  exists cards s t sn s', s_tr s = Some (T "1") /\ cards (T "1") = Some t /\ surf_sense s = Some sn /\
    apply_transform cards s = Some s' /\ ~ denotes s' (moved (motion_of t) sn).
Proof.
  set (t := mkTr (0, 0, 0) (1, 0, 0) (0, 1, 0) (0, 0, 1)).
  set (s := mkS 1 (Some (T "1")) GENERAL_QUADRATIC [0; 0; 0; 0; 0; 1; 0; 0; 0; -1] TRANSMISSION).
  assert (E : exists m, transform s t = Some m /\ m = s).
  { eexists. split; [reflexivity|]. unfold s, set_tc. cbn [s_id s_tr s_type s_bc app].
    f_equal. repeat (apply (f_equal2 (@cons R)); [unfold matmul, transpose, mk_mat; cbn [nth]; field|]). reflexivity. }
  destruct E as (m & Em & ->).
  assert (E : simplify s = Some (set_tc s PLANE_GENERAL [0; 0; 0; -1 * -1])).
  { unfold simplify, s. cbn [s_type s_coef firstn forallb]. rewrite !Reqb_refl. reflexivity. }
  exists (fun _ => Some t), s, t. eexists. eexists.
  split; [reflexivity|split; [reflexivity|split; [reflexivity|split]]].
  - unfold apply_transform. cbn [s_tr s]. change (is_macrobody s) with false.
    change (generalise s) with (Some s). cbv iota. rewrite Em. exact E.
  - intros (sn' & E' & H). unfold surf_sense in E'. cbn [s_type s_coef set_tc sem] in E'. injection E' as <-.
    destruct (H (Pt 2 0 2)) as [[H1 _] _]. revert H1. unfold moved, of_fun. cbn [neg].
    unfold plane, quadric, to_aux, motion_of, dot, sub_pt, t, pt_of.
    cbn [px py pz mo r1 r2 r3 t_shift t_v1 t_v2 t_v3]. lra.
Qed.
Print Assumptions C22_apply_transform_refuted.

Example transform_moves_ex :
  let s := mkS 1 (Some (T "1")) GENERAL_QUADRATIC [1; 1; 0; 0; 0; 0; 0; 0; 0; -4] TRANSMISSION in
  s_tr s <> None /\ exists sn, surf_sense s = Some sn.
Proof. cbn. split; [discriminate|eauto]. Qed.

(* ---------------------------------------------------------------- C23 *)

(** A transform card: name, identifier, entries. *)
Definition trans_text (t : text) (deg : bool) (id : text) (toks : list text) : Prop :=
  words t = (if deg then T "*tr" ++ id else T "tr" ++ id) :: toks /\ ~ In "*"%char id.

(** C23 (all but the form with two rows and the form with -1): the card is read as the
    motion MCNP means, under its identifier. *)
Theorem C23_transform_card_partial t deg id toks vals mo :
  trans_text t deg id toks -> reads toks vals -> tr_means deg vals mo ->
  length vals <> 9%nat -> nth 12 vals 1 = 1 ->
  exists tr, read_trans_card t = Some (id, tr) /\ motion_of tr = mo.
Proof.
  intros [W NS] RD M N9 N13.
  assert (E : read_trans_card t = match read_trans deg toks with Some tr => Some (id, tr) | None => None end).
  { unfold read_trans_card. rewrite W. destruct deg; [reflexivity|]. cbn. now rewrite (existsb_notin _ _ NS). }
  rewrite E. pose proof (reads_length _ _ RD) as L.
  assert (F : forall n, (n <= length vals)%nat -> floats n toks = Some (firstn n vals)).
  { clear -RD. intros n. revert n. induction RD as [|u v us vs H _ IH]; intros n Hn.
    - cbn in Hn. assert (n = 0%nat) by lia. subst. reflexivity.
    - destruct n as [|n]; [reflexivity|]. cbn [floats firstn]. rewrite H, IH by (cbn in Hn; lia). reflexivity. }
  unfold read_trans. rewrite L.
  assert (Cs : forall x y z, pt_of (cosines deg (x, y, z)) = row_of deg x y z).
  { intros x y z. unfold cosines, row_of, cosine_of. destruct deg; cbn [pt_of]; [|reflexivity].
    f_equal; f_equal; field. }
  destruct M; cbn [length] in *; try congruence.
  - rewrite (F 3%nat) by lia. cbn [firstn]. eexists. split; [reflexivity|]. reflexivity.
  - rewrite (F 3%nat) by lia. cbn [firstn Nat.eqb orb]. rewrite (F 12%nat) by lia. cbn [firstn].
    eexists. split; [reflexivity|]. unfold motion_of. cbn [t_shift t_v1 t_v2 t_v3]. rewrite !Cs. reflexivity.
  - rewrite (F 3%nat) by lia. cbn [firstn Nat.eqb orb]. rewrite (F 12%nat) by lia. cbn [firstn].
    eexists. split; [reflexivity|]. unfold motion_of. cbn [t_shift t_v1 t_v2 t_v3]. rewrite !Cs. reflexivity.
  - exfalso. cbn [nth] in N13. lra.
Qed.
Print Assumptions C23_transform_card_partial.

(** C23 fails when the third row is left out: with rows (1 0 0) and (0 0.6 0.8) the
    third axis must be (0 -0.8 0.6), the code gives (0 0.8 0.6), which is not even
    perpendicular to the second. *)
Theorem C23_two_rows_refuted :
  exists toks vals m tr, reads toks vals /\ tr_means false vals m /\
    read_trans false toks = Some tr /\ motion_of tr <> m /\ dot (r2 (motion_of tr)) (r3 (motion_of tr)) <> 0.
Proof.
  exists [T "0"; T "0"; T "0"; T "1"; T "0"; T "0"; T "0"; T "0.6"; T "0.8"].
  exists [Q2R 0; Q2R 0; Q2R 0; Q2R 1; Q2R 0; Q2R 0; Q2R 0; Q2R (6 # 10); Q2R (8 # 10)].
  assert (A : Q2R 0 = 0) by (unfold Q2R; cbn; field).
  assert (B : Q2R 1 = 1) by (unfold Q2R; cbn; field).
  assert (C : Q2R (6 # 10) = 6 / 10) by (unfold Q2R; cbn; field).
  assert (D : Q2R (8 # 10) = 8 / 10) by (unfold Q2R; cbn; field).
  eexists.
  exists (mkTr (Q2R 0, Q2R 0, Q2R 0) (Q2R 1, Q2R 0, Q2R 0) (Q2R 0, Q2R (6 # 10), Q2R (8 # 10))
           (py_cross (Q2R 1, Q2R 0, Q2R 0) (Q2R 0, Q2R (6 # 10), Q2R (8 # 10)))).
  split; [repeat constructor|split; [apply tr9|split; [reflexivity|]]].
  unfold motion_of. cbn [t_shift t_v1 t_v2 t_v3 py_cross pt_of mo r1 r2 r3].
  rewrite A, B, C, D. split.
  - intros H. injection H as H. revert H. cbn. lra.
  - unfold dot. cbn [px py pz]. lra.
Qed.
Print Assumptions C23_two_rows_refuted.

(** C23 fails for a card ending in -1: the displacement is not converted. *)
Theorem C23_minus_one_refuted :
  exists toks vals m tr, reads toks vals /\ tr_means false vals m /\
    read_trans false toks = Some tr /\ motion_of tr <> m.
Proof.
  exists [T "5"; T "0"; T "0"; T "1"; T "0"; T "0"; T "0"; T "1"; T "0"; T "0"; T "0"; T "1"; T "-1"].
  exists [Q2R 5; Q2R 0; Q2R 0; Q2R 1; Q2R 0; Q2R 0; Q2R 0; Q2R 1; Q2R 0; Q2R 0; Q2R 0; Q2R 1; Q2R (-1)].
  assert (A : Q2R 0 = 0) by (unfold Q2R; cbn; field).
  assert (B : Q2R 1 = 1) by (unfold Q2R; cbn; field).
  assert (C : Q2R 5 = 5) by (unfold Q2R; cbn; field).
  assert (D : Q2R (-1) = -1) by (unfold Q2R; cbn; field).
  exists (Motion (Pt (-5) 0 0) (Pt 1 0 0) (Pt 0 1 0) (Pt 0 0 1)).
  exists (mkTr (Q2R 5, Q2R 0, Q2R 0) (Q2R 1, Q2R 0, Q2R 0) (Q2R 0, Q2R 1, Q2R 0) (Q2R 0, Q2R 0, Q2R 1)).
  split; [repeat constructor|split].
  - rewrite A, B, C, D. apply (tr13m false 5 0 0 1 0 0 0 1 0 0 0 1).
    unfold to_aux, dot, sub_pt, row_of. cbn. f_equal; ring.
  - split; [reflexivity|].
    unfold motion_of. cbn [t_shift t_v1 t_v2 t_v3 pt_of].
    rewrite A, B, C. intros H. injection H. lra.
Qed.
Print Assumptions C23_minus_one_refuted.

Example transform_card_meaning_ex :
  trans_text (T "*tr12 1 2 3") true (T "12") [T "1"; T "2"; T "3"] /\
  exists vals m, reads [T "1"; T "2"; T "3"] vals /\ tr_means true vals m /\ length vals <> 9%nat /\ nth 12 vals 1 = 1.
Proof.
  split; [split; [reflexivity|vm_compute; intuition discriminate]|].
  exists [Q2R 1; Q2R 2; Q2R 3]. eexists. split; [repeat constructor|split; [apply tr3|]]. cbn. auto.
Qed.

(* ---------------------------------------------------------------- C24 *)

(** C24 (all types but tori): the transform never raises. *)
Theorem C24_transform_succeeds_partial cards s sn :
  surf_sense s = Some sn -> is_torus (s_type s) = false ->
  exists s', apply_transform cards s = Some s' /\ s_id s' = s_id s.
Proof.
  destruct s as [i [tr|] ty l bc]; unfold surf_sense, apply_transform; cbn [s_type s_coef s_tr].
  2:{ intros _ _. eexists; split; reflexivity. }
  intros E NT.
  assert (G : exists a b c d e f g h j k,
             generalise (mkS i (Some tr) ty l bc) = Some (mkS i (Some tr) GENERAL_QUADRATIC [a; b; c; d; e; f; g; h; j; k] bc)).
  { unfold generalise; cbn [s_type s_coef]. destruct ty; try discriminate NT; try discriminate E; cbn [sem] in E; dl l;
    eexists _, _, _, _, _, _, _, _, _, _; reflexivity. }
  destruct G as (a & b & c & d & e & f & g & h & j & k & G). rewrite G.
  assert (NM : is_macrobody (mkS i (Some tr) ty l bc) = false).
  { destruct ty; try reflexivity; discriminate E. }
  rewrite NM. destruct (cards tr) as [t|]; [|eexists; split; reflexivity].
  destruct t as [[[sx sy] sz] [[b1 b2] b3] [[b4 b5] b6] [[b7 b8] b9]].
  unfold transform. cbn [s_tr s_coef t_shift t_v1 t_v2 t_v3].
  unfold simplify. cbn [s_type set_tc s_coef app].
  destruct (forallb _ _); [eexists; split; reflexivity|].
  destruct (forallb _ _); eexists; split; reflexivity.
Qed.
Print Assumptions C24_transform_succeeds_partial.

(** Transforming a torus always raises an exception. *)
Theorem C24_torus_always_raises cards s t id sn :
  surf_sense s = Some sn -> is_torus (s_type s) = true -> s_tr s = Some id -> cards id = Some t ->
  apply_transform cards s = None.
Proof.
  destruct s as [i tr ty l bc]; unfold surf_sense, apply_transform; cbn [s_type s_coef s_tr].
  intros E NT -> C. rewrite C.
  destruct ty; try discriminate NT; cbn [sem] in E; dl l; reflexivity.
Qed.
Print Assumptions C24_torus_always_raises.

(** C24 fails for a torus. *)
Theorem C24_torus_refuted :
  exists cards s sn t, surf_sense s = Some sn /\ s_tr s = Some (T "1") /\ cards (T "1") = Some t /\
    apply_transform cards s = None.
Proof.
  exists (fun _ => Some (mkTr (0, 0, 5) (1, 0, 0) (0, 1, 0) (0, 0, 1))).
  exists (mkS 1 (Some (T "1")) TORUS_Z [0; 0; 0; 5; 1; 1] TRANSMISSION).
  eexists. eexists. split; [reflexivity|split; [reflexivity|split; [reflexivity|]]]. reflexivity.
Qed.
Print Assumptions C24_torus_refuted.

(** C24 fails for a cone with a selected sheet: moved, it has both sheets. *)
Theorem C24_sheet_refuted :
  exists cards s sn t s', surf_sense s = Some sn /\ s_tr s = Some (T "1") /\ cards (T "1") = Some t /\
    apply_transform cards s = Some s' /\ ~ denotes s' (moved (motion_of t) sn).
Proof.
  set (t := mkTr (0, 0, 0) (1, 0, 0) (0, 1, 0) (0, 0, 1)).
  set (s := mkS 1 (Some (T "1")) CONE_Z [0; 0; 0; 1; 1] TRANSMISSION).
  set (g := mkS 1 (Some (T "1")) CONE_Z [0; 0; 0; 1; 0] TRANSMISSION).
  destruct (C22_apply_transform_partial (fun _ => Some t) g t (T "1")
              (one_sheet (cone_z 0 0 0 1) (fun p => pz p - 0) 0) eq_refl eq_refl eq_refl) as (s' & E & _ & D).
  - cbn. auto.
  - reflexivity.
  - intros gg m Eg Em. injection Eg as <-. injection Em as <-. unfold only_zx. cbn [s_type s_coef set_tc app].
    intros (Z & _). revert Z. unfold matmul, transpose, mk_mat. cbn [nth]. intros Z. field_simplify in Z. lra.
  - exists (fun _ => Some t), s. eexists. exists t, s'.
    split; [reflexivity|split; [reflexivity|split; [reflexivity|split; [exact E|]]]].
    intros (sn' & E' & H). destruct D as (sn'' & E'' & H''). rewrite E' in E''. injection E'' as <-.
    destruct (H (Pt 0 0 (-1))) as [[H1 _] _]. destruct (H'' (Pt 0 0 (-1))) as [[_ H2] _].
    revert H1 H2. unfold moved, one_sheet. cbn [neg].
    unfold cone_z, to_aux, motion_of, dot, sub_pt, t, pt_of.
    cbn [px py pz mo r1 r2 r3 t_shift t_v1 t_v2 t_v3]. intros H1 H2.
    destruct H1 as [_ H1]; [apply H2; split; [lra|intros; lra]|]. specialize (H1 ltac:(lra)). lra.
Qed.
Print Assumptions C24_sheet_refuted.

Example transform_succeeds_ex :
  exists sn, surf_sense (mkS 3 (Some (T "2")) SPHERE_GENERAL [1; 2; 3; 4] TRANSMISSION) = Some sn.
Proof. eexists. reflexivity. Qed.
