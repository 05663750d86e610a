(** C60: which spheres the comparison in binary64 arithmetic takes for one. *)
From Coq Require Import ZArith Reals Bool List Lia Lra Psatz.
From Flocq Require Import Core BinarySingleNaN Relative Plus_error.
From Verif Require Import FloatModel.
Import ListNotations.
Open Scope R_scope.
Local Existing Instance prec_positive.
Local Existing Instance prec_small.

(** ** Specification *)

(** The real number a float stands for. *)
Definition val (x : float) : R := B2R x.
Definition finite_sphere (s : fsphere) : Prop := finite (f_x s) = true /\ finite (f_y s) = true /\ finite (f_z s) = true /\ finite (f_r s) = true.
Definition same_centre (s t : fsphere) : Prop := val (f_x s) = val (f_x t) /\ val (f_y s) = val (f_y t) /\ val (f_z s) = val (f_z t).
(** The distance of the centre from the origin, squared. *)
Definition away (s : fsphere) : R := val (f_x s) ^ 2 + val (f_y s) ^ 2 + val (f_z s) ^ 2.

(** ** Rounding *)

Notation fx := (FLT_exp (-1074) 53).
Definition rnd (x : R) : R := round radix2 fx ZnearestE x.
Definition Fm (x : R) : Prop := generic_format radix2 fx x.

Lemma val_format x : Fm (val x).
Proof. exact (generic_format_B2R 53 1024 x). Qed.

Lemma fmul_val x y : finite (fmul x y) = true -> val (fmul x y) = rnd (val x * val y).
Proof.
  intro F. assert (H := Bmult_correct 53 1024 prec_positive prec_small mode_NE x y). unfold val, fmul, finite in *.
  destruct (Rlt_bool _ _); [exact (proj1 H)|]. destruct (Bmult mode_NE x y); try discriminate F; discriminate H.
Qed.
Lemma fmul_small x y : finite x = true -> finite y = true -> Rabs (rnd (val x * val y)) < bpow radix2 1024 ->
  finite (fmul x y) = true /\ val (fmul x y) = rnd (val x * val y).
Proof.
  intros F1 F2 L. assert (H := Bmult_correct 53 1024 prec_positive prec_small mode_NE x y). unfold val, fmul, finite in *.
  rewrite Rlt_bool_true in H by exact L. destruct H as (H1 & H2 & _). rewrite F1, F2 in H2. now split.
Qed.

Lemma fadd_val x y : finite (fadd x y) = true -> finite x = true /\ finite y = true /\ val (fadd x y) = rnd (val x + val y).
Proof.
  intro F. assert (FF : finite x = true /\ finite y = true).
  { unfold fadd, finite in *. destruct x as [[]|[]| |sx mx ex Hx], y as [[]|[]| |sy my ey Hy]; try discriminate F; now split. }
  destruct FF as [F1 F2]. split; [exact F1|]. split; [exact F2|]. assert (H := Bplus_correct 53 1024 prec_positive prec_small mode_NE x y F1 F2).
  unfold val, fadd, finite in *. destruct (Rlt_bool _ _); [exact (proj1 H)|]. destruct H as [H _]. destruct (Bplus mode_NE x y); try discriminate F; discriminate H.
Qed.
Lemma fadd_small x y : finite x = true -> finite y = true -> Rabs (rnd (val x + val y)) < bpow radix2 1024 ->
  finite (fadd x y) = true /\ val (fadd x y) = rnd (val x + val y).
Proof.
  intros F1 F2 L. assert (H := Bplus_correct 53 1024 prec_positive prec_small mode_NE x y F1 F2). unfold val, fadd, finite in *.
  rewrite Rlt_bool_true in H by exact L. now destruct H as (H1 & H2 & _).
Qed.
Lemma fsub_small x y : finite x = true -> finite y = true -> Rabs (rnd (val x - val y)) < bpow radix2 1024 ->
  finite (fsub x y) = true /\ val (fsub x y) = rnd (val x - val y).
Proof.
  intros F1 F2 L. assert (H := Bminus_correct 53 1024 prec_positive prec_small mode_NE x y F1 F2). unfold val, fsub, finite in *.
  rewrite Rlt_bool_true in H by exact L. now destruct H as (H1 & H2 & _).
Qed.

Lemma rnd_le x y : x <= y -> rnd x <= rnd y.
Proof. apply round_le; auto with typeclass_instances. Qed.
Lemma rnd_format x : Fm x -> rnd x = x.
Proof. apply round_generic. auto with typeclass_instances. Qed.
Lemma rnd_opp x : rnd (- x) = - rnd x.
Proof. exact (round_NE_opp radix2 fx x). Qed.
Lemma bpow_Fm e : (-1074 <= e)%Z -> Fm (bpow radix2 e).
Proof. intro H. apply generic_format_FLT_bpow; [exact prec_positive|exact H]. Qed.
Lemma rnd_bound x e : (-1074 <= e)%Z -> Rabs x <= bpow radix2 e -> Rabs (rnd x) <= bpow radix2 e.
Proof.
  intros H L. apply Rabs_le_inv in L as [L1 L2]. apply Rabs_le. split.
  - rewrite <- (rnd_format (bpow radix2 e)) by now apply bpow_Fm. rewrite <- rnd_opp. now apply rnd_le.
  - rewrite <- (rnd_format (bpow radix2 e)) by now apply bpow_Fm. now apply rnd_le.
Qed.

Lemma double_format x : Fm x -> Fm (-2 * x).
Proof.
  intro F. apply FLT_format_generic in F; [|exact prec_positive]. destruct F as [[m e] -> B1 B2]. cbn [Fnum Fexp] in *.
  replace (-2 * F2R (Float radix2 m e)) with (F2R (Float radix2 (- m) (e + 1))).
  - apply generic_format_FLT. exists (Float radix2 (- m) (e + 1)); [reflexivity|cbn [Fnum]; now rewrite Z.abs_opp|cbn [Fexp]; lia].
  - unfold F2R. cbn [Fnum Fexp]. rewrite bpow_plus, opp_IZR. change (bpow radix2 1) with 2. ring.
Qed.

Lemma num_m2 : finite (fnum (-2) 0) = true /\ val (fnum (-2) 0) = -2.
Proof. split; [vm_compute; reflexivity|]. unfold val. replace (fnum (-2) 0) with (@B754_finite 53 1024 true 4503599627370496 (-51) eq_refl).
  - cbn [B2R]. unfold F2R. cbn. lra.
  - apply B2SF_inj. vm_compute. reflexivity.
Qed.

(** ** The centre *)

Lemma square_some x q : finite x = true -> fsquare x = Some q -> finite q = true /\ val q = rnd (val x * val x) /\ Rabs (val x) < bpow radix2 512.
Proof.
  intros F S. unfold fsquare in S. rewrite F in S. cbn [andb] in S. destruct (finite (fmul x x)) eqn:FM; [|discriminate S]. cbn [negb] in S. injection S as <-.
  assert (V := fmul_val _ _ FM). split; [exact FM|]. split; [exact V|].
  assert (L := abs_B2R_lt_emax 53 1024 (fmul x x)). change (B2R (fmul x x)) with (val (fmul x x)) in L. rewrite V in L.
  apply Rnot_le_lt. intro G. apply (Rlt_not_le _ _ L). apply Rle_trans with (rnd (val x * val x)); [|apply Rle_abs].
  rewrite <- (rnd_format (bpow radix2 1024)) by (apply bpow_Fm; lia). apply rnd_le.
  replace (val x * val x) with (Rabs (val x) * Rabs (val x)) by (rewrite <- Rabs_mult; apply Rabs_pos_eq; nra).
  change 1024%Z with (512 + 512)%Z. rewrite bpow_plus. assert (P := bpow_gt_0 radix2 512). nra.
Qed.

Lemma double_val x : finite x = true -> Rabs (val x) < bpow radix2 512 -> finite (fmul (fnum (-2) 0) x) = true /\ val (fmul (fnum (-2) 0) x) = -2 * val x.
Proof.
  intros F L. destruct num_m2 as [FN VN]. rewrite <- (rnd_format (-2 * val x)) by (apply double_format, val_format). rewrite <- VN.
  apply fmul_small; [exact FN|exact F|]. rewrite VN, rnd_format by (apply double_format, val_format).
  rewrite Rabs_mult, Rabs_left by lra. replace (- (-2)) with 2 by ring. apply Rlt_le_trans with (bpow radix2 (1 + 512)).
  - rewrite bpow_plus. change (bpow radix2 1) with 2. lra.
  - apply bpow_le. lia.
Qed.

Lemma equal_doubles x y : finite x = true -> finite y = true -> Rabs (val x) < bpow radix2 512 -> Rabs (val y) < bpow radix2 512 ->
  Beqb (fmul (fnum (-2) 0) y) (fmul (fnum (-2) 0) x) = true -> val x = val y.
Proof.
  intros F1 F2 L1 L2 E. destruct (double_val x F1 L1) as [A1 A2], (double_val y F2 L2) as [B1 B2]. rewrite Beqb_correct in E by assumption.
  destruct (Req_bool_spec (B2R (fmul (fnum (-2) 0) y)) (B2R (fmul (fnum (-2) 0) x))) as [H|]; [|discriminate E]. unfold val in *. lra.
Qed.

(** The parts of a comparison. *)
Lemma fdiff_parts s t side : finite_sphere s -> finite_sphere t -> fdiff s t = Some (true, side) ->
  side = false /\ same_centre s t /\ exists xx yy zz r1 xx' yy' zz' r2,
    fsquare (f_x s) = Some xx /\ fsquare (f_y s) = Some yy /\ fsquare (f_z s) = Some zz /\ fsquare (f_r s) = Some r1 /\
    fsquare (f_x t) = Some xx' /\ fsquare (f_y t) = Some yy' /\ fsquare (f_z t) = Some zz' /\ fsquare (f_r t) = Some r2 /\
    Beqb (fsub (fadd (fadd xx' yy') zz') r2) (fsub (fadd (fadd xx yy) zz) r1) = true.
Proof.
  intros (S1 & S2 & S3 & S4) (T1 & T2 & T3 & T4) D. unfold fdiff, sphere_general in D.
  destruct (fsquare (f_x s)) as [xx|] eqn:Q1; [|discriminate D]. destruct (fsquare (f_y s)) as [yy|] eqn:Q2; [|discriminate D].
  destruct (fsquare (f_z s)) as [zz|] eqn:Q3; [|discriminate D]. destruct (fsquare (f_r s)) as [r1|] eqn:Q4; [|discriminate D].
  destruct (fsquare (f_x t)) as [xx'|] eqn:Q5; [|discriminate D]. destruct (fsquare (f_y t)) as [yy'|] eqn:Q6; [|discriminate D].
  destruct (fsquare (f_z t)) as [zz'|] eqn:Q7; [|discriminate D]. destruct (fsquare (f_r t)) as [r2|] eqn:Q8; [|discriminate D].
  match type of D with Some (if ?x then _ else _) = _ => destruct x eqn:E end.
  - injection D as <-. split; [reflexivity|]. cbn [same_list] in E. repeat (apply andb_true_iff in E as [? E]). split.
    + unfold same_centre. repeat split; apply equal_doubles; try assumption;
        match goal with |- Rabs (val (?f ?u)) < _ => match goal with Q : fsquare (f u) = Some _, F : finite (f u) = true |- _ => exact (proj2 (proj2 (square_some _ _ F Q))) end end.
    + exists xx, yy, zz, r1, xx', yy', zz', r2. repeat (split; [assumption || reflexivity|]). assumption.
  - match type of D with Some (if ?x then _ else _) = _ => assert (R : x = false) end.
    { cbn [freverse map same_list]. replace (Beqb (fmul (fnum 1 0) (fnum (-1) 0)) (fnum 1 0)) with false by (vm_compute; reflexivity). reflexivity. }
    rewrite R in D. discriminate D.
Qed.

(** Spheres taken for one have the same centre, and are never taken for each other's complement. *)
Theorem C60_centre_partial s t side : finite_sphere s -> finite_sphere t -> fdiff s t = Some (true, side) -> same_centre s t /\ side = false.
Proof. intros S T D. destruct (fdiff_parts s t side S T D) as (-> & C & _). now split. Qed.
Print Assumptions C60_centre_partial.

(** ** The radius *)

(** Numbers of moderate size: nothing overflows. *)
Definition moderate (s : fsphere) : Prop :=
  Forall (fun x => Rabs (val x) <= bpow radix2 500) [f_x s; f_y s; f_z s; f_r s].

Lemma square_moderate x q : finite x = true -> fsquare x = Some q -> Rabs (val x) <= bpow radix2 500 ->
  finite q = true /\ val q = rnd (val x * val x) /\ 0 <= val q <= bpow radix2 1000.
Proof.
  intros F S L. destruct (square_some x q F S) as (A & B & _). split; [exact A|]. split; [exact B|]. rewrite B.
  assert (N : 0 <= val x * val x) by nra. assert (G : Rabs (val x * val x) <= bpow radix2 1000).
  { rewrite Rabs_mult. change 1000%Z with (500 + 500)%Z. rewrite bpow_plus. assert (P := Rabs_pos (val x)). assert (Q := bpow_gt_0 radix2 500). nra. }
  assert (H := rnd_bound _ 1000 ltac:(lia) G). apply Rabs_le_inv in H. split; [|lra]. rewrite <- (rnd_format 0) by apply generic_format_0. now apply rnd_le.
Qed.

Lemma sum_moderate a b e : (0 <= e <= 1020)%Z -> finite a = true -> finite b = true -> 0 <= val a <= bpow radix2 e -> 0 <= val b <= bpow radix2 e ->
  finite (fadd a b) = true /\ val (fadd a b) = rnd (val a + val b) /\ 0 <= val (fadd a b) <= bpow radix2 (e + 1).
Proof.
  intros E FA FB A B. assert (G : Rabs (val a + val b) <= bpow radix2 (e + 1)).
  { rewrite bpow_plus. change (bpow radix2 1) with 2. rewrite Rabs_pos_eq by lra. lra. }
  assert (H := rnd_bound _ (e + 1) ltac:(lia) G).
  destruct (fadd_small a b FA FB) as [F V].
  - apply Rle_lt_trans with (1 := H). apply bpow_lt. lia.
  - split; [exact F|]. split; [exact V|]. rewrite V. apply Rabs_le_inv in H. split; [|lra]. rewrite <- (rnd_format 0) by apply generic_format_0. apply rnd_le. lra.
Qed.

Lemma difference_moderate a b : finite a = true -> finite b = true -> 0 <= val a <= bpow radix2 1002 -> 0 <= val b <= bpow radix2 1000 ->
  finite (fsub a b) = true /\ val (fsub a b) = rnd (val a - val b).
Proof.
  intros FA FB A B. apply fsub_small; [assumption..|]. apply Rle_lt_trans with (bpow radix2 1003).
  - apply rnd_bound; [lia|]. assert (H : bpow radix2 1000 <= bpow radix2 1002) by (apply bpow_le; lia).
    change 1003%Z with (1002 + 1)%Z. rewrite bpow_plus. change (bpow radix2 1) with 2. apply Rabs_le. lra.
  - apply bpow_lt. lia.
Qed.

(** The sum of the squares of the centre, as computed. *)
Definition computed (s : fsphere) : R := rnd (rnd (rnd (val (f_x s) * val (f_x s)) + rnd (val (f_y s) * val (f_y s))) + rnd (val (f_z s) * val (f_z s))).

Lemma general_parts s xx yy zz r : finite_sphere s -> moderate s ->
  fsquare (f_x s) = Some xx -> fsquare (f_y s) = Some yy -> fsquare (f_z s) = Some zz -> fsquare (f_r s) = Some r ->
  finite (fsub (fadd (fadd xx yy) zz) r) = true /\ val (fsub (fadd (fadd xx yy) zz) r) = rnd (computed s - rnd (val (f_r s) * val (f_r s))).
Proof.
  intros (S1 & S2 & S3 & S4) M Q1 Q2 Q3 Q4. unfold moderate in M. repeat match goal with H : Forall _ (_ :: _) |- _ => inversion_clear H end.
  destruct (square_moderate _ _ S1 Q1) as (A1 & A2 & A3); [assumption|]. destruct (square_moderate _ _ S2 Q2) as (B1 & B2 & B3); [assumption|].
  destruct (square_moderate _ _ S3 Q3) as (C1 & C2 & C3); [assumption|]. destruct (square_moderate _ _ S4 Q4) as (D1 & D2 & D3); [assumption|].
  destruct (sum_moderate xx yy 1000 ltac:(lia) A1 B1 A3 B3) as (E1 & E2 & E3). change (1000 + 1)%Z with 1001%Z in E3.
  assert (L : bpow radix2 1000 <= bpow radix2 1001) by (apply bpow_le; lia).
  destruct (sum_moderate (fadd xx yy) zz 1001 ltac:(lia) E1 C1 E3 ltac:(lra)) as (F1 & F2 & F3). change (1001 + 1)%Z with 1002%Z in F3.
  destruct (difference_moderate _ r F1 D1 F3 D3) as (G1 & G2). split; [exact G1|]. rewrite G2, F2, E2, A2, B2, C2, D2. reflexivity.
Qed.

Lemma same_k s t side : finite_sphere s -> finite_sphere t -> moderate s -> moderate t -> fdiff s t = Some (true, side) ->
  same_centre s t /\ rnd (computed s - rnd (val (f_r s) * val (f_r s))) = rnd (computed s - rnd (val (f_r t) * val (f_r t))).
Proof.
  intros FS FT MS MT D. destruct (fdiff_parts s t side FS FT D) as (_ & C & xx & yy & zz & r1 & xx' & yy' & zz' & r2 & Q1 & Q2 & Q3 & Q4 & P1 & P2 & P3 & P4 & E).
  split; [exact C|]. destruct (general_parts s xx yy zz r1 FS MS Q1 Q2 Q3 Q4) as [A1 A2]. destruct (general_parts t xx' yy' zz' r2 FT MT P1 P2 P3 P4) as [B1 B2].
  rewrite Beqb_correct in E by assumption. destruct (Req_bool_spec (B2R (fsub (fadd (fadd xx' yy') zz') r2)) (B2R (fsub (fadd (fadd xx yy) zz) r1))) as [H|]; [|discriminate E].
  unfold val in A2, B2. rewrite A2, B2 in H. unfold computed in *. destruct C as (C1 & C2 & C3). unfold val in *. rewrite <- C1, <- C2, <- C3 in H. now symmetry.
Qed.

(** ** Two different radii far from each other *)

Notation u := (bpow radix2 (-53)).
Notation h := (bpow radix2 (-1075)).

Lemma u_le : u_ro radix2 53 / (1 + u_ro radix2 53) <= u.
Proof.
  apply Rle_trans with (1 := u_rod1pu_ro_le_u_ro radix2 53). unfold u_ro. apply Req_le. change (- (53) + 1)%Z with (1 + -53)%Z. rewrite bpow_plus. change (bpow radix2 1) with 2. field.
Qed.
Lemma rnd_error x : Rabs (rnd x - x) <= u * Rabs x + h.
Proof.
  destruct (relative_error_N_FLT'_ex radix2 (-1074) 53 prec_positive (fun x => negb (Z.even x)) x) as (e & eta & E1 & E2 & _ & E3).
  unfold rnd. rewrite E3. replace (x * (1 + e) + eta - x) with (x * e + eta) by ring. apply Rle_trans with (1 := Rabs_triang _ _). rewrite Rabs_mult.
  assert (U := u_le). assert (P := Rabs_pos x). assert (H : / 2 * bpow radix2 (-1074) = h).
  { change (-1075)%Z with (-1 + -1074)%Z. rewrite bpow_plus. change (bpow radix2 (-1)) with (/ 2). reflexivity. }
  rewrite H in E2. nra.
Qed.
Lemma rnd_sum_error x y : Fm x -> Fm y -> Rabs (rnd (x + y) - (x + y)) <= u * Rabs (x + y).
Proof.
  intros F1 F2. destruct (FLT_plus_error_N_ex radix2 (-1074) 53 (fun x => negb (Z.even x)) x y F1 F2) as (e & E1 & E2).
  unfold rnd. rewrite E2. replace ((x + y) * (1 + e) - (x + y)) with ((x + y) * e) by ring. rewrite Rabs_mult.
  assert (U := u_le). assert (P := Rabs_pos (x + y)). nra.
Qed.
Lemma rnd_Fm x : Fm (rnd x).
Proof. apply generic_format_round; auto with typeclass_instances. Qed.
Lemma opp_Fm x : Fm x -> Fm (- x).
Proof. apply generic_format_opp. Qed.
Lemma rnd_pos x : 0 <= x -> 0 <= rnd x.
Proof. intro H. rewrite <- (rnd_format 0) by apply generic_format_0. now apply rnd_le. Qed.

Lemma u_small : 0 < u < / 1000.
Proof. split; [apply bpow_gt_0|]. apply Rlt_trans with (bpow radix2 (-10)); [apply bpow_lt; lia|]. cbn. lra. Qed.

Lemma rnd_square x : 0 <= rnd (x * x) <= (1 + u) * (x * x) + h /\ Rabs (rnd (x * x) - x * x) <= u * (x * x) + h.
Proof.
  assert (N : 0 <= x * x) by nra. assert (E := rnd_error (x * x)). rewrite (Rabs_pos_eq (x * x)) in E by exact N. split; [|exact E].
  split; [now apply rnd_pos|]. apply Rabs_le_inv in E. lra.
Qed.
Lemma rnd_sum x y : Fm x -> Fm y -> 0 <= x -> 0 <= y -> 0 <= rnd (x + y) <= (1 + u) * (x + y).
Proof.
  intros F1 F2 P1 P2. assert (E := rnd_sum_error x y F1 F2). rewrite (Rabs_pos_eq (x + y)) in E by lra. split; [apply rnd_pos; lra|]. apply Rabs_le_inv in E. lra.
Qed.

Lemma computed_bound s : 0 <= computed s <= (1 + u) ^ 2 * ((1 + u) * away s + 3 * h).
Proof.
  unfold computed, away. set (x := val (f_x s)). set (y := val (f_y s)). set (z := val (f_z s)).
  destruct (rnd_square x) as [X _], (rnd_square y) as [Y _], (rnd_square z) as [Z _].
  destruct (rnd_sum (rnd (x * x)) (rnd (y * y))) as [P1 P2]; [apply rnd_Fm|apply rnd_Fm|lra..|].
  destruct (rnd_sum (rnd (rnd (x * x) + rnd (y * y))) (rnd (z * z))) as [Q1 Q2]; [apply rnd_Fm|apply rnd_Fm|lra..|].
  split; [exact Q1|]. apply Rle_trans with (1 := Q2). assert (U := u_small).
  set (X' := rnd (x * x)) in *. set (Y' := rnd (y * y)) in *. set (Z' := rnd (z * z)) in *. set (P := rnd (X' + Y')) in *.
  assert (A : P + Z' <= (1 + u) * (X' + Y' + Z')) by nra. assert (B : X' + Y' + Z' <= (1 + u) * (x ^ 2 + y ^ 2 + z ^ 2) + 3 * h) by lra.
  replace ((1 + u) ^ 2) with ((1 + u) * (1 + u)) by ring. rewrite Rmult_assoc. apply Rmult_le_compat_l; [lra|]. apply Rle_trans with (1 := A). apply Rmult_le_compat_l; [lra|exact B].
Qed.

(** Spheres taken for one have radii whose squares differ by little compared with the squares of the radii and the
    distance from the origin. *)
Theorem C60_close_partial s t side : finite_sphere s -> finite_sphere t -> moderate s -> moderate t -> fdiff s t = Some (true, side) ->
  Rabs (val (f_r s) ^ 2 - val (f_r t) ^ 2) <= bpow radix2 (-51) * (away s + val (f_r s) ^ 2 + val (f_r t) ^ 2) + bpow radix2 (-1072).
Proof.
  intros FS FT MS MT D. destruct (same_k s t side FS FT MS MT D) as [_ K]. set (a := val (f_r s)) in *. set (b := val (f_r t)) in *.
  destruct (computed_bound s) as [S1 S2]. assert (SF : Fm (computed s)) by apply rnd_Fm. set (S := computed s) in *. set (C := away s) in *.
  assert (CP : 0 <= C) by (unfold C, away; nra).
  destruct (rnd_square a) as [A1 A2], (rnd_square b) as [B1 B2].
  assert (E1 := rnd_sum_error S (- rnd (a * a)) SF (opp_Fm _ (rnd_Fm _))). assert (E2 := rnd_sum_error S (- rnd (b * b)) SF (opp_Fm _ (rnd_Fm _))).
  change (S + - rnd (a * a)) with (S - rnd (a * a)) in E1. change (S + - rnd (b * b)) with (S - rnd (b * b)) in E2. rewrite <- K in E2.
  set (q1 := rnd (a * a)) in *. set (q2 := rnd (b * b)) in *. set (k := rnd (S - q1)) in *.
  assert (T1 : Rabs (S - q1) <= S + q1) by (apply Rabs_le; lra). assert (T2 : Rabs (S - q2) <= S + q2) by (apply Rabs_le; lra).
  assert (U := u_small). assert (H := bpow_gt_0 radix2 (-1075)).
  assert (G1 : Rabs (k - (S - q1)) <= u * (S + q1)) by (apply Rle_trans with (1 := E1); apply Rmult_le_compat_l; lra).
  assert (G2 : Rabs (k - (S - q2)) <= u * (S + q2)) by (apply Rle_trans with (1 := E2); apply Rmult_le_compat_l; lra).
  apply Rabs_le_inv in G1, G2, A2, B2.
  replace (bpow radix2 (-51)) with (4 * u) by (change (-51)%Z with (2 + -53)%Z; rewrite bpow_plus; reflexivity).
  replace (bpow radix2 (-1072)) with (8 * h) by (change (-1072)%Z with (3 + -1075)%Z; rewrite bpow_plus; reflexivity).
  replace (a ^ 2) with (a * a) by ring. replace (b ^ 2) with (b * b) by ring. set (aa := a * a) in *. set (bb := b * b) in *.
  assert (AP : 0 <= aa) by (unfold aa; nra). assert (BP : 0 <= bb) by (unfold bb; nra).
  clearbody aa bb k q1 q2 C S. clear - U H CP S1 S2 A1 B1 A2 B2 G1 G2 AP BP. revert U H S2 A1 B1 A2 B2 G1 G2.
  generalize (bpow radix2 (-53)) (bpow radix2 (-1075)). intros v e U H S2 A1 B1 A2 B2 G1 G2.
  assert (V2 : (1 + v) ^ 2 <= 1003 / 1000) by nra. assert (V3 : (1 + v) ^ 2 * (1 + v) <= 1005 / 1000) by nra.
  assert (S3 : S <= 1005 / 1000 * C + 4 * e).
  { apply Rle_trans with (1 := S2). replace ((1 + v) ^ 2 * ((1 + v) * C + 3 * e)) with ((1 + v) ^ 2 * (1 + v) * C + (1 + v) ^ 2 * (3 * e)) by ring.
    apply Rplus_le_compat; [now apply Rmult_le_compat_r|]. nra. }
  assert (W1 : 2 * S + q1 + q2 <= 203 / 100 * C + 101 / 100 * aa + 101 / 100 * bb + 10 * e) by nra.
  assert (W : v * (2 * S + q1 + q2) <= v * (203 / 100 * C + 101 / 100 * aa + 101 / 100 * bb) + e).
  { apply Rle_trans with (v * (203 / 100 * C + 101 / 100 * aa + 101 / 100 * bb + 10 * e)); [apply Rmult_le_compat_l; lra|]. nra. }
  assert (N1 := Rmult_le_pos v C ltac:(lra) CP). assert (N2 := Rmult_le_pos v aa ltac:(lra) AP). assert (N3 := Rmult_le_pos v bb ltac:(lra) BP). apply Rabs_le. lra.
Qed.
Print Assumptions C60_close_partial.

(** ** Spheres about the origin *)

Lemma ulp_normal x : bpow radix2 (-1022) <= x -> ulp radix2 fx x = bpow radix2 (mag radix2 x - 53).
Proof.
  intro L. assert (P := bpow_gt_0 radix2 (-1022)). rewrite ulp_neq_0 by lra. unfold cexp, FLT_exp. f_equal. apply Z.max_l.
  assert (M := mag_gt_bpow radix2 x (-1022) ltac:(rewrite Rabs_pos_eq; lra)). lia.
Qed.

(** Squares of different numbers round to different numbers unless they underflow. *)
Lemma square_grows a b : Fm a -> Fm b -> bpow radix2 (-511) <= a -> a < b -> rnd (a * a) < rnd (b * b).
Proof.
  intros FA FB LA LT. assert (PA : 0 < a) by (assert (P := bpow_gt_0 radix2 (-511)); lra).
  set (c := succ radix2 fx a). assert (CB : c <= b) by (apply succ_le_lt; auto with typeclass_instances).
  apply Rlt_le_trans with (rnd (c * c)).
  2: { apply rnd_le. assert (0 < c) by (unfold c; rewrite succ_eq_pos by lra; assert (U := ulp_ge_0 radix2 fx a); lra). nra. }
  assert (NA : bpow radix2 (-1022) <= a) by (apply Rle_trans with (2 := LA); apply bpow_le; lia).
  assert (CE : c = a + bpow radix2 (mag radix2 a - 53)) by (unfold c; rewrite succ_eq_pos, ulp_normal by lra; reflexivity).
  assert (ML := bpow_mag_le radix2 a ltac:(lra)). assert (MG := bpow_mag_gt radix2 a). rewrite Rabs_pos_eq in ML, MG by lra.
  set (e := (mag radix2 a : Z)) in *.
  assert (CL : c <= bpow radix2 e).
  { apply succ_le_lt; auto with typeclass_instances. apply bpow_Fm. assert (M := mag_gt_bpow radix2 a (-511) ltac:(rewrite Rabs_pos_eq; lra)). unfold e. lia. }
  assert (SQ : bpow radix2 (-1022) <= a * a).
  { change (-1022)%Z with (-511 + -511)%Z. rewrite bpow_plus. assert (P := bpow_gt_0 radix2 (-511)). nra. }
  assert (UA : ulp radix2 fx (a * a) <= bpow radix2 (e + e - 53)).
  { rewrite ulp_normal by exact SQ. apply bpow_le. assert (M : (mag radix2 (a * a) <= e + e)%Z); [|lia].
    apply mag_le_bpow; [nra|]. rewrite Rabs_pos_eq by nra. rewrite bpow_plus. nra. }
  assert (PU := bpow_gt_0 radix2 (e - 53)). assert (SQC : bpow radix2 (-1022) <= c * c) by nra.
  assert (DE : bpow radix2 (e + e - 53) = bpow radix2 e * bpow radix2 (e - 53)) by (rewrite <- bpow_plus; f_equal; lia).
  assert (HE : bpow radix2 e = 2 * bpow radix2 (e - 1)) by (replace e with (1 + (e - 1))%Z at 1 by lia; rewrite bpow_plus; reflexivity).
  assert (BE : 8 * bpow radix2 (e - 53) <= bpow radix2 e).
  { apply Rle_trans with (bpow radix2 (3 + (e - 53))); [rewrite bpow_plus; apply Req_le; reflexivity|apply bpow_le; lia]. }
  assert (EA := error_le_half_ulp radix2 fx (fun x => negb (Z.even x)) (a * a)). assert (EC := error_le_half_ulp radix2 fx (fun x => negb (Z.even x)) (c * c)).
  fold (rnd (a * a)) in EA. fold (rnd (c * c)) in EC. apply Rabs_le_inv in EA, EC.
  destruct (Rle_lt_or_eq_dec _ _ CL) as [CS|CS].
  - assert (UC : ulp radix2 fx (c * c) <= bpow radix2 (e + e - 53)).
    { rewrite ulp_normal by exact SQC. apply bpow_le. assert (M : (mag radix2 (c * c) <= e + e)%Z); [|lia].
      apply mag_le_bpow; [nra|]. rewrite Rabs_pos_eq by nra. rewrite bpow_plus. nra. }
    rewrite DE in UA, UC. clear - EA EC UA UC CE ML PU HE PA. revert UA UC CE PU ML HE. generalize (bpow radix2 (e - 53)) (bpow radix2 e) (bpow radix2 (e - 1)).
    intros v w x UA UC CE PU ML HE. assert (G : w * v < c * c - a * a) by (rewrite CE; nra). lra.
  - assert (UC : ulp radix2 fx (c * c) <= 2 * bpow radix2 (e + e - 53)).
    { rewrite ulp_normal by exact SQC. replace (2 * bpow radix2 (e + e - 53)) with (bpow radix2 (1 + (e + e - 53))) by (rewrite bpow_plus; reflexivity).
      apply bpow_le. assert (M : (mag radix2 (c * c) <= e + e + 1)%Z); [|lia].
      apply mag_le_bpow; [nra|]. rewrite Rabs_pos_eq by nra. rewrite CS, <- bpow_plus. apply bpow_lt. lia. }
    rewrite DE in UA, UC. clear - EA EC UA UC CE PU BE PA CS. revert UA UC CE PU BE CS. generalize (bpow radix2 (e - 53)) (bpow radix2 e).
    intros v w UA UC CE PU BE CS. assert (G : 3 / 2 * (w * v) < c * c - a * a) by (rewrite CS in *; clear CS; assert (a = w - v) by lra; subst a; nra). lra.
Qed.

(** Two spheres about the origin are taken for one only if they have the same radius, unless the squares underflow or
    overflow. *)
Theorem C60_origin_partial s t side : finite_sphere s -> finite_sphere t -> moderate s -> moderate t -> away s = 0 ->
  bpow radix2 (-511) <= Rabs (val (f_r s)) -> bpow radix2 (-511) <= Rabs (val (f_r t)) -> fdiff s t = Some (true, side) ->
  same_centre s t /\ Rabs (val (f_r s)) = Rabs (val (f_r t)).
Proof.
  intros FS FT MS MT A LS LT D. destruct (same_k s t side FS FT MS MT D) as [C K]. split; [exact C|].
  assert (Z : computed s = 0).
  { unfold away in A. assert (X0 : val (f_x s) = 0) by nra. assert (Y0 : val (f_y s) = 0) by nra. assert (Z0 : val (f_z s) = 0) by nra.
    unfold computed. rewrite X0, Y0, Z0. assert (R0 : rnd 0 = 0) by (apply rnd_format, generic_format_0).
    replace (0 * 0) with 0 by ring. repeat (rewrite ?R0, ?Rplus_0_r). reflexivity. }
  rewrite Z in K. unfold Rminus in K. rewrite !Rplus_0_l, !rnd_opp, !(rnd_format (rnd _)) in K by apply rnd_Fm.
  assert (SA : forall x, x * x = Rabs x * Rabs x) by (intro x; rewrite <- Rabs_mult; symmetry; apply Rabs_pos_eq; nra).
  rewrite (SA (val (f_r s))), (SA (val (f_r t))) in K.
  assert (FA : forall x, Fm (Rabs (val x))) by (intro x; apply generic_format_abs, val_format).
  destruct (Rtotal_order (Rabs (val (f_r s))) (Rabs (val (f_r t)))) as [L|[E|L]]; [|exact E|].
  - assert (G := square_grows _ _ (FA _) (FA _) LS L). lra.
  - assert (G := square_grows _ _ (FA _) (FA _) LT L). lra.
Qed.
Print Assumptions C60_origin_partial.

(** ** Examples and a witness *)

Lemma fnum_val m e : (Z.abs m < 2 ^ 53)%Z -> (-1074 <= e <= 500)%Z -> finite (fnum m e) = true /\ val (fnum m e) = IZR m * bpow radix2 e.
Proof.
  intros M E. assert (H := binary_normalize_correct 53 1024 prec_positive prec_small mode_NE m e false).
  assert (FF : Fm (F2R (Float radix2 m e))) by (apply generic_format_FLT; exists (Float radix2 m e); [reflexivity|exact M|cbn [Fexp]; lia]).
  assert (RE := rnd_format _ FF).
  cbv zeta in H. rewrite Rlt_bool_true in H; [destruct H as (H1 & H2 & _); split; [exact H2|exact (eq_trans H1 RE)]|].
  change (Rabs (rnd (F2R (Float radix2 m e))) < bpow radix2 1024). rewrite RE. apply Rlt_le_trans with (bpow radix2 (53 + 500)); [|apply bpow_le; lia].
  unfold F2R. cbn [Fnum Fexp]. rewrite Rabs_mult, (Rabs_pos_eq (bpow radix2 e)) by apply bpow_ge_0. rewrite <- abs_IZR, bpow_plus.
  apply Rlt_le_trans with (bpow radix2 53 * bpow radix2 e).
  - apply Rmult_lt_compat_r; [apply bpow_gt_0|]. change (bpow radix2 53) with (IZR (2 ^ 53)). now apply IZR_lt.
  - apply Rmult_le_compat_l; [apply bpow_ge_0|apply bpow_le; lia].
Qed.

Definition far (m e : Z) : fsphere := mkFS (fnum 100000 0) (fnum 0 0) (fnum 0 0) (fnum m e).
Definition near (m e : Z) : fsphere := mkFS (fnum 0 0) (fnum 0 0) (fnum 0 0) (fnum m e).

Lemma fnum_moderate m e : (Z.abs m < 2 ^ 53)%Z -> (-1074 <= e <= 400)%Z -> Rabs (val (fnum m e)) <= bpow radix2 500.
Proof.
  intros M E. destruct (fnum_val m e M ltac:(lia)) as [_ ->]. rewrite Rabs_mult, (Rabs_pos_eq (bpow radix2 e)) by apply bpow_ge_0. rewrite <- abs_IZR.
  apply Rle_trans with (bpow radix2 53 * bpow radix2 400).
  - apply Rmult_le_compat; [apply IZR_le; lia|apply bpow_ge_0| |apply bpow_le; lia]. change (bpow radix2 53) with (IZR (2 ^ 53)). apply IZR_le. lia.
  - rewrite <- bpow_plus. apply bpow_le. lia.
Qed.
Lemma far_ok m e : (Z.abs m < 2 ^ 53)%Z -> (-1074 <= e <= 400)%Z -> finite_sphere (far m e) /\ moderate (far m e).
Proof.
  intros M E. split.
  - unfold finite_sphere, far. cbn [f_x f_y f_z f_r]. repeat split; apply fnum_val; lia.
  - unfold moderate, far. cbn [f_x f_y f_z f_r]. repeat (apply Forall_cons; [apply fnum_moderate; lia|]); apply Forall_nil.
Qed.
Lemma near_ok m e : (Z.abs m < 2 ^ 53)%Z -> (-1074 <= e <= 400)%Z -> finite_sphere (near m e) /\ moderate (near m e).
Proof.
  intros M E. split.
  - unfold finite_sphere, near. cbn [f_x f_y f_z f_r]. repeat split; apply fnum_val; lia.
  - unfold moderate, near. cbn [f_x f_y f_z f_r]. repeat (apply Forall_cons; [apply fnum_moderate; lia|]); apply Forall_nil.
Qed.

(** A sphere of radius 2^-11 and one of half that radius, both about (100000, 0, 0), are taken for one. *)
Theorem C60_refuted : exists s t, finite_sphere s /\ finite_sphere t /\ moderate s /\ moderate t /\ fdiff s t = Some (true, false) /\
  0 < val (f_r t) /\ val (f_r s) = 2 * val (f_r t).
Proof.
  exists (far 1 (-11)), (far 1 (-12)). destruct (far_ok 1 (-11)) as [A1 A2]; [lia..|]. destruct (far_ok 1 (-12)) as [B1 B2]; [lia..|].
  do 4 (split; [assumption|]). split; [vm_compute; reflexivity|]. unfold far. cbn [f_r].
  destruct (fnum_val 1 (-11)) as [_ ->]; [lia..|]. destruct (fnum_val 1 (-12)) as [_ ->]; [lia..|]. change (-11)%Z with (1 + -12)%Z. rewrite bpow_plus.
  change (bpow radix2 1) with 2. assert (P := bpow_gt_0 radix2 (-12)). lra.
Qed.
Print Assumptions C60_refuted.

(** Two spheres about the origin that meet the hypotheses of C60_origin_partial and are taken for one; and two of neighbouring radii
    that are not. *)
Example C60_example : finite_sphere (near 5 0) /\ moderate (near 5 0) /\ away (near 5 0) = 0 /\ bpow radix2 (-511) <= Rabs (val (f_r (near 5 0))) /\
  fdiff (near 5 0) (near 10 (-1)) = Some (true, false) /\ fdiff (near 5 0) (near 5000000000000001 (-50)) = Some (false, false) /\
  fdiff (far 5 0) (far 6 0) = Some (false, false).
Proof.
  destruct (near_ok 5 0) as [A1 A2]; [lia..|]. split; [exact A1|]. split; [exact A2|]. unfold near at 1 2. cbn [f_r].
  split; [unfold away; cbn [f_x f_y f_z]; destruct (fnum_val 0 0) as [_ ->]; [lia..|]; ring|].
  split; [destruct (fnum_val 5 0) as [_ ->]; [lia..|]; apply Rle_trans with (bpow radix2 0); [apply bpow_le; lia|cbn; rewrite Rabs_pos_eq; lra]|].
  repeat split; vm_compute; reflexivity.
Qed.
