(** C46: angles of a rotation matrix. *)
From Coq Require Import Reals Lra Psatz.
From Verif Require Import EulerModel.
Open Scope R_scope.

(** A rotation: the columns are of length 1 and perpendicular, and the determinant is 1. *)
Definition rotation (m : matrix) : Prop :=
  m0 m * m0 m + m3 m * m3 m + m6 m * m6 m = 1 /\ m1 m * m1 m + m4 m * m4 m + m7 m * m7 m = 1 /\ m2 m * m2 m + m5 m * m5 m + m8 m * m8 m = 1 /\
  m0 m * m1 m + m3 m * m4 m + m6 m * m7 m = 0 /\ m0 m * m2 m + m3 m * m5 m + m6 m * m8 m = 0 /\ m1 m * m2 m + m4 m * m5 m + m7 m * m8 m = 0 /\
  m0 m * (m4 m * m8 m - m5 m * m7 m) - m1 m * (m3 m * m8 m - m5 m * m6 m) + m2 m * (m3 m * m7 m - m4 m * m6 m) = 1.

(** ** The angle of a point *)

Lemma polar x y r : 0 < r -> r * r = x * x + y * y -> cos (atan2 y x) = x / r /\ sin (atan2 y x) = y / r.
Proof.
  intros R0 RR.
  assert (A : forall t, x <> 0 -> t = y / x -> sqrt (1 + t²) = r / Rabs x).
  { intros t N ->. replace (1 + (y / x)²) with ((r / Rabs x)²).
    - apply sqrt_Rsqr. apply Rlt_le. apply Rdiv_lt_0_compat; [exact R0|now apply Rabs_pos_lt].
    - unfold Rsqr. assert (E : Rabs x * Rabs x = x * x) by (rewrite <- Rabs_mult; apply Rabs_right; nra).
      assert (NA : Rabs x <> 0) by now apply Rabs_no_R0.
      replace (r / Rabs x * (r / Rabs x)) with ((r * r) / (Rabs x * Rabs x)) by (field; exact NA). rewrite E, RR. field. exact N. }
  unfold atan2. destruct (Rlt_dec 0 x) as [P|P].
  - rewrite cos_atan, sin_atan, (A (y / x)) by (try lra; reflexivity). rewrite Rabs_right by lra. split; field; lra.
  - destruct (Rlt_dec x 0) as [Q|Q].
    + assert (S : sqrt (1 + (y / x)²) = r / - x) by (rewrite (A (y / x)) by (try lra; reflexivity); rewrite Rabs_left by lra; reflexivity).
      assert (C : cos (atan (y / x)) = - (x / r)) by (rewrite cos_atan, S; field; lra).
      assert (SN : sin (atan (y / x)) = - (y / r)) by (rewrite sin_atan, S; field; lra).
      destruct (Rle_dec 0 y) as [Y|Y].
      * rewrite neg_cos, neg_sin, C, SN. split; ring.
      * replace (atan (y / x) - PI) with (- (PI - atan (y / x))) by ring. rewrite cos_neg, sin_neg.
        replace (PI - atan (y / x)) with (- atan (y / x) + PI) by ring. rewrite neg_cos, neg_sin, cos_neg, sin_neg, C, SN. split; ring.
    + assert (X : x = 0) by lra. subst x.
      destruct (Rlt_dec 0 y) as [Y|Y]; [|destruct (Rlt_dec y 0) as [Y'|Y']].
      * assert (r = y) by nra. subst r. rewrite cos_PI2, sin_PI2. split; field; lra.
      * assert (r = - y) by nra. subst r. rewrite cos_neg, sin_neg, cos_PI2, sin_PI2. split; field; lra.
      * exfalso. assert (y = 0) by lra. subst y. nra.
Qed.

Lemma there_and_back a : deg2rad (rad2deg a) = a.
Proof. unfold deg2rad, rad2deg. field. apply PI_neq0. Qed.

(** ** Facts about rotations *)

Lemma squares3 a b c : a * a + b * b + c * c = 0 -> a = 0 /\ b = 0 /\ c = 0.
Proof. intro H. assert (0 <= a * a) by nra. assert (0 <= b * b) by nra. assert (0 <= c * c) by nra. repeat split; nra. Qed.

Lemma cofactors m : rotation m ->
  m2 m = m3 m * m7 m - m6 m * m4 m /\ m5 m = m6 m * m1 m - m0 m * m7 m /\ m8 m = m0 m * m4 m - m3 m * m1 m /\
  m1 m = m5 m * m6 m - m8 m * m3 m /\ m4 m = m8 m * m0 m - m2 m * m6 m /\ m7 m = m2 m * m3 m - m5 m * m0 m /\
  m0 m = m4 m * m8 m - m7 m * m5 m /\ m3 m = m7 m * m2 m - m1 m * m8 m /\ m6 m = m1 m * m5 m - m4 m * m2 m.
Proof.
  destruct m as [a b c d e f g h i]. unfold rotation. cbn [m0 m1 m2 m3 m4 m5 m6 m7 m8]. intros (A & B & C & D & E & F & G).
  assert (X : forall a1 a2 a3 b1 b2 b3 c1 c2 c3, a1 * a1 + a2 * a2 + a3 * a3 = 1 -> b1 * b1 + b2 * b2 + b3 * b3 = 1 -> c1 * c1 + c2 * c2 + c3 * c3 = 1 ->
    a1 * b1 + a2 * b2 + a3 * b3 = 0 -> c1 * (a2 * b3 - a3 * b2) + c2 * (a3 * b1 - a1 * b3) + c3 * (a1 * b2 - a2 * b1) = 1 ->
    c1 = a2 * b3 - a3 * b2 /\ c2 = a3 * b1 - a1 * b3 /\ c3 = a1 * b2 - a2 * b1).
  { intros a1 a2 a3 b1 b2 b3 c1 c2 c3 AA BB CC AB DET.
    destruct (squares3 (c1 - (a2 * b3 - a3 * b2)) (c2 - (a3 * b1 - a1 * b3)) (c3 - (a1 * b2 - a2 * b1))) as (S1 & S2 & S3); [|repeat split; lra].
    replace ((c1 - (a2 * b3 - a3 * b2)) * (c1 - (a2 * b3 - a3 * b2)) + (c2 - (a3 * b1 - a1 * b3)) * (c2 - (a3 * b1 - a1 * b3)) + (c3 - (a1 * b2 - a2 * b1)) * (c3 - (a1 * b2 - a2 * b1)))
      with ((c1 * c1 + c2 * c2 + c3 * c3) - 2 * (c1 * (a2 * b3 - a3 * b2) + c2 * (a3 * b1 - a1 * b3) + c3 * (a1 * b2 - a2 * b1)) +
            ((a1 * a1 + a2 * a2 + a3 * a3) * (b1 * b1 + b2 * b2 + b3 * b3) - (a1 * b1 + a2 * b2 + a3 * b3) * (a1 * b1 + a2 * b2 + a3 * b3))) by ring.
    rewrite AA, BB, CC, AB, DET. ring. }
  destruct (X a d g b e h c f i) as (X1 & X2 & X3); try assumption; [lra|].
  destruct (X c f i a d g b e h) as (Y1 & Y2 & Y3); try assumption; [lra|lra|].
  destruct (X b e h c f i a d g) as (Z1 & Z2 & Z3); try assumption; [lra|].
  repeat split; lra.
Qed.

Lemma rows m : rotation m -> m3 m * m3 m + m4 m * m4 m + m5 m * m5 m = 1 /\ m6 m * m6 m + m7 m * m7 m + m8 m * m8 m = 1.
Proof.
  intro R. assert (C := cofactors m R). destruct R as (_ & _ & _ & _ & _ & _ & G). destruct m as [a b c d e f g h i]. cbn [m0 m1 m2 m3 m4 m5 m6 m7 m8] in *.
  destruct C as (C1 & C2 & C3 & C4 & C5 & C6 & C7 & C8 & C9). split.
  - transitivity (d * (h * c - b * i) + e * (i * a - c * g) + f * (g * b - a * h)); [|lra]. rewrite <- C8, <- C5, <- C2. ring.
  - transitivity (g * (b * f - e * c) + h * (c * d - f * a) + i * (a * e - d * b)); [|lra]. rewrite <- C9, <- C6, <- C3. ring.
Qed.

(** ** What comes back *)

(** For a matrix that is not singular, everything comes back with the sign of psi turned. *)
Lemma nonsingular m : rotation m -> 1 / 1000000 <= sqrt (m0 m ^ 2 + m3 m ^ 2) ->
  let s := sqrt (m0 m ^ 2 + m3 m ^ 2) in
  rotmatrix_from_angle (angle_from_rotmatrix m) =
    mkM (m0 m) ((m8 m * m3 m - m7 m * m6 m * m0 m) / (s * s)) ((- m7 m * m3 m - m8 m * m6 m * m0 m) / (s * s))
        (- m3 m) ((m8 m * m0 m + m7 m * m6 m * m3 m) / (s * s)) ((- m7 m * m0 m + m8 m * m6 m * m3 m) / (s * s)) (m6 m) (m7 m) (m8 m).
Proof.
  intros R S s. fold s in S. destruct (rows m R) as [_ R2]. assert (C0 := proj1 R).
  assert (SP : 0 < s) by lra. assert (SS : s * s = m0 m * m0 m + m3 m * m3 m).
  { unfold s. rewrite sqrt_sqrt; [ring|]. nra. }
  unfold angle_from_rotmatrix, rotmatrix_from_angle. fold s. destruct (Rlt_dec s (1 / 1000000)) as [L|_]; [lra|]. cbv beta iota zeta. rewrite !there_and_back.
  destruct (polar (m8 m) (m7 m) s SP) as [CP SNP]; [lra|]. destruct (polar s (- m6 m) 1 ltac:(lra)) as [CT ST]; [nra|].
  destruct (polar (m0 m) (m3 m) s SP SS) as [CS SNS].
  replace (-1 * atan2 (m3 m) (m0 m)) with (- atan2 (m3 m) (m0 m)) by ring. rewrite cos_neg, sin_neg, CP, SNP, CT, ST, CS, SNS.
  f_equal; field; lra.
Qed.

Theorem C46_nonsingular m : rotation m -> 1 / 1000000 <= sqrt (m0 m ^ 2 + m3 m ^ 2) ->
  (rotmatrix_from_angle (angle_from_rotmatrix m) = m <-> m3 m = 0).
Proof.
  intros R S. rewrite (nonsingular m R S). set (s := sqrt (m0 m ^ 2 + m3 m ^ 2)) in *. assert (SS : s * s = m0 m * m0 m + m3 m * m3 m).
  { unfold s. rewrite sqrt_sqrt; [ring|]. nra. }
  assert (C := cofactors m R). destruct R as (R0 & _ & _ & R3 & R4 & _ & _). destruct m as [a b c d e f g h i]. cbn [m0 m1 m2 m3 m4 m5 m6 m7 m8] in *. split.
  - intro E. injection E as _ _ E _ _. lra.
  - intros ->. assert (NA : a <> 0) by (intros ->; nra).
    rewrite SS. replace (a * a + 0 * 0) with (a * a) by ring.
    assert (B : b = - (g * h) / a) by (apply (Rmult_eq_reg_l a); [|exact NA]; field_simplify; [lra|exact NA]).
    assert (CC : c = - (g * i) / a) by (apply (Rmult_eq_reg_l a); [|exact NA]; field_simplify; [lra|exact NA]).
    assert (EE : e = i / a) by (apply (Rmult_eq_reg_l a); [|exact NA]; field_simplify; [lra|exact NA]).
    assert (FF : f = - h / a) by (apply (Rmult_eq_reg_l a); [|exact NA]; field_simplify; [lra|exact NA]).
    rewrite B, CC, EE, FF. f_equal; field; exact NA.
Qed.

(** A matrix with m0 = m3 = 0 comes back unchanged. *)
Theorem C46_singular m : rotation m -> m0 m = 0 -> m3 m = 0 -> rotmatrix_from_angle (angle_from_rotmatrix m) = m.
Proof.
  intros R A D. destruct (rows m R) as [R1 R2]. assert (C := cofactors m R). assert (C0 := proj1 R).
  unfold angle_from_rotmatrix, rotmatrix_from_angle. rewrite A, D. replace (0 ^ 2 + 0 ^ 2) with 0 by ring. rewrite sqrt_0.
  destruct (Rlt_dec 0 (1 / 1000000)) as [_|L]; [|lra]. cbv beta iota zeta. rewrite !there_and_back.
  destruct m as [a b c d e f g h i]. cbn [m0 m1 m2 m3 m4 m5 m6 m7 m8] in *. subst a d.
  destruct (polar e (- f) 1 ltac:(lra)) as [CP SNP]; [nra|]. destruct (polar 0 (- g) 1 ltac:(lra)) as [CT ST]; [nra|].
  rewrite CP, SNP, CT, ST, cos_0, sin_0. assert (G : g * g = 1) by nra. assert (H : h = 0) by nra. assert (I : i = 0) by nra.
  subst h i. f_equal; lra.
Qed.

(** A quarter turn about the z axis comes back as the quarter turn the other way. *)
Definition quarter := mkM 0 (-1) 0 1 0 0 0 0 1.
Theorem C46_refuted : exists m, rotation m /\ rotmatrix_from_angle (angle_from_rotmatrix m) <> m.
Proof.
  exists quarter. assert (R : rotation quarter) by (unfold rotation, quarter; cbn; repeat split; ring). split; [exact R|].
  assert (S : sqrt (m0 quarter ^ 2 + m3 quarter ^ 2) = 1) by (cbn [m0 m3 quarter]; replace (0 ^ 2 + 1 ^ 2) with 1 by ring; apply sqrt_1).
  intro E. apply (C46_nonsingular quarter R) in E; [cbn in E; lra|]. rewrite S. lra.
Qed.

Example about_x : rotation (mkM 1 0 0 0 0 (-1) 0 1 0) /\ 1 / 1000000 <= sqrt (m0 (mkM 1 0 0 0 0 (-1) 0 1 0) ^ 2 + m3 (mkM 1 0 0 0 0 (-1) 0 1 0) ^ 2).
Proof. split; [unfold rotation; cbn; repeat split; ring|]. cbn [m0 m3]. replace (1 ^ 2 + 0 ^ 2) with 1 by ring. rewrite sqrt_1. lra. Qed.
Example tilted : rotation (mkM 0 0 1 0 1 0 (-1) 0 0) /\ m0 (mkM 0 0 1 0 1 0 (-1) 0 0) = 0.
Proof. split; [unfold rotation; cbn; repeat split; ring|reflexivity]. Qed.

Print Assumptions C46_nonsingular.
Print Assumptions C46_singular.
Print Assumptions C46_refuted.
