(** C96: the comparison of surfaces in binary64 arithmetic (csg2csg/SurfaceCard.py 77-114, 171-320). *)
From Coq Require Import ZArith Reals Bool List Lia Lra Psatz.
From Flocq Require Import Core BinarySingleNaN Relative Plus_error.
From Verif Require Import FloatModel PropFloat SurfModel FloatDiffModel.
Import ListNotations.
Open Scope R_scope.
Local Existing Instance prec_positive.
Local Existing Instance prec_small.

(** ** Specification *)

(** The surface with the real numbers that the floats stand for. *)
Definition real (s : fsurf) : surface := mkS 0 None (f_type s) (map val (f_coef s)) TRANSMISSION.
Definition finite_surf (s : fsurf) : Prop := Forall (fun x => finite x = true) (f_coef s).
Definition moderate_surf (s : fsurf) : Prop := Forall (fun x => Rabs (val x) <= bpow radix2 500) (f_coef s).
(** Nothing is rounded when the surface is turned into a quadric. *)
Definition exact (s : fsurf) : Prop :=
  exists g, fgeneral s = Some g /\ finite_surf g /\ exists r, SurfModel.generalise (real s) = Some r /\ s_type r = f_type g /\ s_coef r = map val (f_coef g).

(** ** Numbers *)

Lemma num n : (Z.abs n <= 2)%Z -> finite (fnum n 0) = true /\ val (fnum n 0) = IZR n.
Proof. intro H. destruct (fnum_val n 0) as [A B]; [lia..|]. split; [exact A|]. rewrite B. cbn. lra. Qed.
Lemma v0 : finite n0 = true /\ val n0 = 0. Proof. now apply num. Qed.
Lemma v1 : finite n1 = true /\ val n1 = 1. Proof. now apply num. Qed.
Lemma vm1 : finite nm1 = true /\ val nm1 = -1. Proof. now apply num. Qed.
Lemma v2 : finite n2 = true /\ val n2 = 2. Proof. now apply num. Qed.

Lemma val_small x : finite x = true -> Rabs (val x) < bpow radix2 1024.
Proof. intro F. exact (abs_B2R_lt_emax 53 1024 x). Qed.

(** The sign of a float is changed exactly. *)
Lemma minus_val x : finite x = true -> finite (fmul nm1 x) = true /\ val (fmul nm1 x) = -1 * val x.
Proof.
  intro F. destruct vm1 as [FN VN]. assert (E : rnd (val nm1 * val x) = -1 * val x).
  { rewrite VN. apply rnd_format. replace (-1 * val x) with (- val x) by ring. apply opp_Fm, val_format. }
  rewrite <- E. apply fmul_small; [exact FN|exact F|]. rewrite E, Rabs_mult, Rabs_left by lra. replace (- (-1)) with 1 by ring. rewrite Rmult_1_l. now apply val_small.
Qed.
Lemma minus_val' x : finite x = true -> finite (fmul x nm1) = true /\ val (fmul x nm1) = val x * -1.
Proof.
  intro F. destruct vm1 as [FN VN]. assert (E : rnd (val x * val nm1) = val x * -1).
  { rewrite VN. apply rnd_format. replace (val x * -1) with (- val x) by ring. apply opp_Fm, val_format. }
  rewrite <- E. apply fmul_small; [exact F|exact FN|]. rewrite E. replace (val x * -1) with (- val x) by ring. rewrite Rabs_Ropp. now apply val_small.
Qed.

Lemma beq_val x y : finite x = true -> finite y = true -> Beqb x y = Reqb (val x) (val y).
Proof.
  intros A B. rewrite Beqb_correct by assumption. unfold Reqb, val. destruct (Req_bool_spec (B2R x) (B2R y)), (Req_EM_T (B2R x) (B2R y)); congruence.
Qed.
Lemma same_val a : forall b, Forall (fun x => finite x = true) a -> Forall (fun x => finite x = true) b -> same_list a b = list_Reqb (map val a) (map val b).
Proof.
  induction a as [|x a IH]; intros [|y b] A B; try reflexivity. inversion A; inversion B; subst. cbn [same_list map list_Reqb]. rewrite beq_val by assumption. now rewrite IH.
Qed.
Lemma reverse_val a : Forall (fun x => finite x = true) a -> Forall (fun x => finite x = true) (freverse a) /\ map val (freverse a) = map (fun i => i * -1) (map val a).
Proof.
  induction 1 as [|x a F A [IH1 IH2]]; [split; [constructor|reflexivity]|]. destruct (minus_val' x F) as [M1 M2]. unfold freverse in *. cbn [map]. split; [constructor; assumption|].
  unfold nm1 in M2. now rewrite M2, IH2.
Qed.

(** ** Where nothing is rounded *)

(** Surfaces whose quadrics are computed without rounding are compared as the real surfaces. *)
Theorem C96_exact s t : exact s -> exact t -> fcompare s t = option_map (fun x => fst (fst x)) (SurfModel.diff (real s) (real t) true false).
Proof.
  intros (g & G & FG & r & R & T1 & C1) (g' & G' & FG' & r' & R' & T2 & C2). unfold fcompare, SurfModel.diff. rewrite G, G', R, R'.
  unfold SurfModel.diff_gen. rewrite T1, T2, C1, C2. destruct (reverse_val _ FG') as [F' V']. rewrite !same_val by assumption.
  destruct (stype_beq (f_type g') (f_type g)); cbn [negb]; [|reflexivity]. destruct (list_Reqb (map val (f_coef g')) (map val (f_coef g))); [reflexivity|].
  unfold SurfModel.reverse. cbn [set_tc s_coef]. rewrite C2, <- V'. destruct (list_Reqb (map val (freverse (f_coef g'))) _); reflexivity.
Qed.
Print Assumptions C96_exact.

(** Planes, quadrics and tori are never rounded. *)
Definition unrounded (s : fsurf) : Prop :=
  match f_type s with
  | PLANE_X | PLANE_Y | PLANE_Z | PLANE_GENERAL => 4 <= length (f_coef s)
  | GENERAL_QUADRATIC => 10 <= length (f_coef s)
  | TORUS_X | TORUS_Y | TORUS_Z => True
  | _ => False
  end%nat.

Lemma unrounded_exact s : finite_surf s -> unrounded s -> exact s.
Proof.
  destruct s as [ty l]. unfold finite_surf, unrounded, exact, fgeneral, real, SurfModel.generalise. cbn [f_type f_coef s_type s_coef]. intros F U.
  destruct v0 as [F0 V0], v1 as [F1 V1].
  destruct ty; try contradiction; try (eexists; split; [reflexivity|]; cbn [f_type f_coef]; split; [exact F|]; eexists; (split; [reflexivity|]); now split);
    do 4 (destruct l as [|? l]; [cbn [length] in U; lia|]); try (do 6 (destruct l as [|? l]; [cbn [length] in U; lia|]));
    repeat match goal with H : Forall _ (_ :: _) |- _ => inversion_clear H end;
    eexists; (split; [reflexivity|]); unfold finite_surf; cbn [f_type f_coef map]; 
    (split; [repeat (constructor; [first [assumption|now apply minus_val]|]); constructor|]); eexists; (split; [reflexivity|]); cbn [set_tc s_type s_coef]; (split; [reflexivity|]);
    rewrite ?V0, ?V1; repeat match goal with H : finite ?x = true |- context [val (fmul nm1 ?x)] => rewrite (proj2 (minus_val x H)) end; reflexivity.
Qed.

(** C96: planes, quadrics and tori with finite coefficients are compared in binary64 exactly as over the reals. *)
Theorem C96_planes s t : finite_surf s -> finite_surf t -> unrounded s -> unrounded t ->
  fcompare s t = option_map (fun x => fst (fst x)) (SurfModel.diff (real s) (real t) true false).
Proof. intros F1 F2 U1 U2. apply C96_exact; now apply unrounded_exact. Qed.
Print Assumptions C96_planes.

(** ** Whole numbers *)

(** A float that is the whole number [z]. *)
Definition whole (x : float) (z : Z) : Prop := finite x = true /\ val x = IZR z.
(** Coefficients that are whole numbers below [2 ^ 16], as many as the type needs. *)
Definition whole_surf (s : fsurf) : Prop := Forall (fun x => exists z, whole x z /\ (Z.abs z <= 2 ^ 16)%Z) (f_coef s) /\
  match f_type s with CYLINDER_X | CYLINDER_Y | CYLINDER_Z => 3 <= length (f_coef s) | SPHERE_GENERAL | CONE_X | CONE_Y | CONE_Z => 4 <= length (f_coef s) | _ => unrounded s end%nat.

Lemma whole_rnd z : (Z.abs z < 2 ^ 53)%Z -> rnd (IZR z) = IZR z /\ Rabs (IZR z) < bpow radix2 1024.
Proof.
  intro B. split.
  - apply rnd_format. replace (IZR z) with (F2R (Float radix2 z 0)) by (unfold F2R; cbn; ring). apply generic_format_FLT. exists (Float radix2 z 0); [reflexivity|exact B|cbn [Fexp]; lia].
  - rewrite <- abs_IZR. apply Rlt_le_trans with (bpow radix2 53); [change (bpow radix2 53) with (IZR (2 ^ 53)); now apply IZR_lt|apply bpow_le; lia].
Qed.
Lemma whole_mul x y a b : whole x a -> whole y b -> (Z.abs (a * b) < 2 ^ 53)%Z -> whole (fmul x y) (a * b).
Proof.
  intros [F1 V1] [F2 V2] B. destruct (whole_rnd _ B) as [E L]. assert (Q : rnd (val x * val y) = IZR (a * b)) by (rewrite V1, V2, <- mult_IZR; exact E).
  unfold whole. rewrite <- Q in *. now apply fmul_small.
Qed.
Lemma whole_add x y a b : whole x a -> whole y b -> (Z.abs (a + b) < 2 ^ 53)%Z -> whole (fadd x y) (a + b).
Proof.
  intros [F1 V1] [F2 V2] B. destruct (whole_rnd _ B) as [E L]. assert (Q : rnd (val x + val y) = IZR (a + b)) by (rewrite V1, V2, <- plus_IZR; exact E).
  unfold whole. rewrite <- Q in *. now apply fadd_small.
Qed.
Lemma whole_sub x y a b : whole x a -> whole y b -> (Z.abs (a - b) < 2 ^ 53)%Z -> whole (fsub x y) (a - b).
Proof.
  intros [F1 V1] [F2 V2] B. destruct (whole_rnd _ B) as [E L]. assert (Q : rnd (val x - val y) = IZR (a - b)) by (rewrite V1, V2, <- minus_IZR; exact E).
  unfold whole. rewrite <- Q in *. now apply fsub_small.
Qed.
Lemma whole_opp x a : whole x a -> whole (fopp x) (- a).
Proof. intros [F V]. split; [unfold finite, fopp; now rewrite is_finite_Bopp|]. unfold val, fopp in *. now rewrite B2R_Bopp, V, opp_IZR. Qed.
(** The same with a bound on the whole number. *)
Definition upto (x : float) (z m : Z) : Prop := whole x z /\ (Z.abs z <= m)%Z.
Lemma upto_mul x y a b m n : upto x a m -> upto y b n -> (m * n <? 2 ^ 53)%Z = true -> upto (fmul x y) (a * b) (m * n).
Proof. intros [W1 B1] [W2 B2] L. apply Z.ltb_lt in L. assert (K : (Z.abs (a * b) <= m * n)%Z) by (rewrite Z.abs_mul; nia). split; [|exact K]. apply whole_mul; [exact W1|exact W2|lia]. Qed.
Lemma upto_add x y a b m n : upto x a m -> upto y b n -> (m + n <? 2 ^ 53)%Z = true -> upto (fadd x y) (a + b) (m + n).
Proof. intros [W1 B1] [W2 B2] L. apply Z.ltb_lt in L. split; [|lia]. apply whole_add; [exact W1|exact W2|lia]. Qed.
Lemma upto_sub x y a b m n : upto x a m -> upto y b n -> (m + n <? 2 ^ 53)%Z = true -> upto (fsub x y) (a - b) (m + n).
Proof. intros [W1 B1] [W2 B2] L. apply Z.ltb_lt in L. split; [|lia]. apply whole_sub; [exact W1|exact W2|lia]. Qed.
Lemma upto_opp x a m : upto x a m -> upto (fopp x) (- a) m.
Proof. intros [W B]. split; [now apply whole_opp|lia]. Qed.
Lemma upto_square x a : upto x a (2 ^ 16) -> exists q, fsquare x = Some q /\ upto q (a * a) (2 ^ 32).
Proof.
  intro W. assert (M : upto (fmul x x) (a * a) (2 ^ 32)) by exact (upto_mul x x a a (2 ^ 16) (2 ^ 16) W W eq_refl). exists (fmul x x). split; [|exact M].
  unfold fsquare. now rewrite (proj1 (proj1 W)), (proj1 (proj1 M)).
Qed.
Lemma upto_num n : (Z.abs n <= 2)%Z -> upto (fnum n 0) n 2.
Proof. intro B. split; [exact (num n B)|exact B]. Qed.

Lemma exact_of s ty gl r : fgeneral s = Some (mkF ty gl) -> SurfModel.generalise (real s) = Some r -> s_type r = ty ->
  Forall2 (fun x v => exists z m, upto x z m /\ v = IZR z) gl (s_coef r) -> exact s.
Proof.
  intros G R E F. exists (mkF ty gl). split; [exact G|]. assert (H : Forall (fun x => finite x = true) gl /\ s_coef r = map val gl).
  { clear - F. induction F as [|x v g l (z & m & [[FX V] _] & EV) _ [IH1 IH2]]; [split; [constructor|reflexivity]|]. split; [now constructor|]. cbn [map]. now rewrite V, EV, IH2. }
  split; [exact (proj1 H)|]. exists r. split; [exact R|]. split; [exact E|exact (proj2 H)].
Qed.

Ltac upto_tac := first [eassumption | eapply upto_mul; [upto_tac|upto_tac|reflexivity] | eapply upto_add; [upto_tac|upto_tac|reflexivity]
  | eapply upto_sub; [upto_tac|upto_tac|reflexivity] | eapply upto_opp; upto_tac].

Lemma whole_exact s : whole_surf s -> exact s.
Proof.
  intros [W L]. assert (FS : finite_surf s) by (eapply Forall_impl; [|exact W]; intros x (z & H & _); exact (proj1 H)).
  assert (U : unrounded s \/ match f_type s with CYLINDER_X | CYLINDER_Y | CYLINDER_Z | SPHERE_GENERAL | CONE_X | CONE_Y | CONE_Z => True | _ => False end).
  { destruct (f_type s); tauto. }
  destruct U as [U|U]; [now apply unrounded_exact|]. clear FS. destruct s as [ty l]. cbn [f_type f_coef] in *.
  assert (N0 := upto_num 0 ltac:(lia)). assert (N1 := upto_num 1 ltac:(lia)). assert (NM1 := upto_num (-1) ltac:(lia)). assert (N2 := upto_num 2 ltac:(lia)).
  assert (NM2 := upto_num (-2) ltac:(lia)). fold n0 in N0. fold n1 in N1. fold nm1 in NM1. fold n2 in N2. fold nm2 in NM2.
  assert (S : forall x, (exists z, whole x z /\ (Z.abs z <= 2 ^ 16)%Z) -> exists z q, upto x z (2 ^ 16) /\ val x = IZR z /\ fsquare x = Some q /\ upto q (z * z) (2 ^ 32)).
  { intros x (z & X & B). destruct (upto_square x z (conj X B)) as (q & Q & WQ). exists z, q. split; [now split|]. split; [exact (proj2 X)|]. now split. }
  destruct ty; try contradiction; do 3 (destruct l as [|? l]; [cbn [length] in L; lia|]); try (destruct l as [|? l]; [cbn [length] in L; lia|]);
    repeat match goal with W : Forall _ (_ :: _) |- _ => let z := fresh "z" in let q := fresh "q" in let X := fresh "X" in let V := fresh "V" in let Q := fresh "Q" in let WQ := fresh "WQ" in
      apply Forall_inv in W as X; apply Forall_inv_tail in W; apply S in X as (z & q & X & V & Q & WQ) end;
    (eapply exact_of; [unfold fgeneral; cbn [f_type f_coef]; repeat match goal with Q : fsquare ?x = Some _ |- context [fsquare ?x] => rewrite Q end; reflexivity|reflexivity|reflexivity|]);
    cbn [real f_coef f_type set_tc s_coef map];
    repeat match goal with V : val ?x = _ |- _ => rewrite V end;
    repeat (apply Forall2_cons; [eexists _, _; split; [upto_tac|rewrite ?plus_IZR, ?minus_IZR, ?plus_IZR, ?mult_IZR, ?opp_IZR, ?mult_IZR; ring]|]); apply Forall2_nil.
Qed.

(** C96: cylinders, spheres and cones whose coefficients are whole numbers below 2 ^ 16 are compared in binary64 exactly as over the reals. *)
Theorem C96_whole s t : whole_surf s -> whole_surf t -> fcompare s t = option_map (fun x => fst (fst x)) (SurfModel.diff (real s) (real t) true false).
Proof. intros A B. apply C96_exact; now apply whole_exact. Qed.
Print Assumptions C96_whole.
Example C96_whole_example : whole_surf (mkF CYLINDER_X [n1; n2; fnum 5 0]) /\ whole_surf (mkF CONE_X [n1; n2; n0; fnum 3 0]) /\ whole_surf (mkF SPHERE_GENERAL [n1; n2; n0; fnum 3 0]) /\
  fcompare (mkF CYLINDER_X [n1; n2; fnum 5 0]) (mkF GENERAL_QUADRATIC [n0; n1; n1; n0; n0; n0; n0; nm2; fnum (-4) 0; fnum (-20) 0]) = Some (true, false) /\
  fcompare (mkF CONE_X [n1; n2; n0; fnum 3 0]) (mkF GENERAL_QUADRATIC [fnum (-3) 0; n1; n1; n0; n0; n0; fnum 6 0; fnum (-4) 0; n0; n1]) = Some (true, false).
Proof.
  assert (N : forall m, (Z.abs m <= 2 ^ 16)%Z -> exists z, whole (fnum m 0) z /\ (Z.abs z <= 2 ^ 16)%Z).
  { intros m B. exists m. split; [|exact B]. destruct (fnum_val m 0) as [F V]; [lia..|]. split; [exact F|]. rewrite V. cbn. ring. }
  do 3 (split; [split; [repeat (apply Forall_cons; [apply N; lia|]); apply Forall_nil|cbn; lia]|]). split; vm_compute; reflexivity.
Qed.

(** ** Which types are taken for one *)

(** The coefficients of the squares. *)
Definition squares (s : fsurf) : R * R * R :=
  match f_type s, f_coef s with
  | SPHERE_GENERAL, _ => (1, 1, 1)
  | CYLINDER_X, _ => (0, 1, 1)
  | CYLINDER_Y, _ => (1, 0, 1)
  | CYLINDER_Z, _ => (1, 1, 0)
  | CONE_X, _ :: _ :: _ :: q :: _ => (- val q, 1, 1)
  | CONE_Y, _ :: _ :: _ :: q :: _ => (1, - val q, 1)
  | CONE_Z, _ :: _ :: _ :: q :: _ => (1, 1, - val q)
  | _, _ => (0, 0, 0)
  end.

(** A plane, a sphere, a cylinder or a cone with a positive tangent. *)
Definition simple (s : fsurf) : Prop :=
  match f_type s, f_coef s with
  | (PLANE_X | PLANE_Y | PLANE_Z | PLANE_GENERAL | SPHERE_GENERAL | CYLINDER_X | CYLINDER_Y | CYLINDER_Z), _ => True
  | (CONE_X | CONE_Y | CONE_Z), _ :: _ :: _ :: q :: _ => 0 < val q
  | _, _ => False
  end.
Definition plane (s : fsurf) : bool := match f_type s with PLANE_X | PLANE_Y | PLANE_Z | PLANE_GENERAL => true | _ => false end.

Lemma squares_of s g : finite_surf s -> simple s -> fgeneral s = Some g ->
  exists a b c l, f_coef g = a :: b :: c :: l /\ finite a = true /\ finite b = true /\ finite c = true /\ squares s = (val a, val b, val c).
Proof.
  destruct s as [ty l]. unfold finite_surf, simple, fgeneral, squares. cbn [f_type f_coef]. intros F S E.
  destruct v0 as [F0 V0], v1 as [F1 V1].
  destruct ty; try contradiction;
    repeat (match type of E with match ?l with [] => _ | _ :: _ => _ end = _ => destruct l as [|? ?]; try discriminate E end);
    repeat (match type of E with match ?o with Some _ => _ | None => _ end = _ => destruct o; [|discriminate E] end);
    (match type of E with Some ?d = _ => assert (g = d) by congruence end); subst g; clear E; cbn [f_coef]; repeat match goal with H : Forall _ (_ :: _) |- _ => inversion_clear H end;
    do 4 eexists; (split; [reflexivity|]); rewrite ?V0, ?V1;
    repeat match goal with H : finite ?x = true |- context [fmul nm1 ?x] => destruct (minus_val x H) as [? E1]; replace (-1 * val x) with (- val x) in E1 by ring; rewrite E1; clear H end;
    repeat (split; [assumption|]); reflexivity.
Qed.

(** What it means that two surfaces are taken for one. *)
Lemma compare_parts s t side : fcompare s t = Some (true, side) -> exists g g', fgeneral s = Some g /\ fgeneral t = Some g' /\ f_type g = f_type g' /\
  if side then same_list (freverse (f_coef g')) (f_coef g) = true else same_list (f_coef g') (f_coef g) = true.
Proof.
  unfold fcompare. destruct (fgeneral s) as [g|]; [|discriminate]. destruct (fgeneral t) as [g'|]; [|discriminate]. intro E. exists g, g'. split; [reflexivity|]. split; [reflexivity|].
  destruct (stype_beq (f_type g') (f_type g)) eqn:T; cbn [negb] in E; [|discriminate]. apply internal_stype_dec_bl in T. split; [now symmetry|].
  destruct (same_list (f_coef g') (f_coef g)) eqn:S; [injection E as <-; reflexivity|]. destruct (same_list (freverse (f_coef g')) (f_coef g)) eqn:S'; [injection E as <-; reflexivity|discriminate].
Qed.

Lemma equal_val x y : finite x = true -> finite y = true -> Beqb x y = true -> val x = val y.
Proof. intros A B E. rewrite beq_val in E by assumption. unfold Reqb in E. destruct (Req_EM_T (val x) (val y)); [assumption|discriminate]. Qed.

(** C96: two surfaces that are taken for one are both planes or have the same type, and only planes are taken for one with
    their sides exchanged. *)
Theorem C96_kinds s t side : finite_surf s -> finite_surf t -> simple s -> simple t -> fcompare s t = Some (true, side) ->
  squares s = squares t /\ ((plane s = true /\ plane t = true) \/ (f_type s = f_type t /\ side = false)).
Proof.
  intros FS FT SS ST E. destruct (compare_parts s t side E) as (g & g' & G & G' & _ & C).
  destruct (squares_of s g FS SS G) as (a & b & c & l & EL & Fa & Fb & Fc & Q). destruct (squares_of t g' FT ST G') as (a' & b' & c' & l' & EL' & Fa' & Fb' & Fc' & Q').
  rewrite EL, EL' in C.
  assert (X : if side then (- val a', - val b', - val c') = (val a, val b, val c) else (val a', val b', val c') = (val a, val b, val c)).
  { destruct side; cbn [freverse map same_list] in C; repeat (apply andb_true_iff in C as [? C]).
    - destruct (minus_val' a' Fa') as [A1 A2], (minus_val' b' Fb') as [B1 B2], (minus_val' c' Fc') as [C1 C2]. unfold nm1 in *.
      repeat match goal with H : Beqb _ _ = true |- _ => apply equal_val in H; [|assumption|assumption] end. f_equal; [f_equal|]; lra.
    - repeat match goal with H : Beqb _ _ = true |- _ => apply equal_val in H; [|assumption|assumption] end. congruence. }
  clear C E G G' EL EL' FS FT Fa Fb Fc Fa' Fb' Fc' l l'. revert Q Q' X.
  generalize (val a) (val b) (val c) (val a') (val b') (val c'). clear - SS ST. intros u v w u' v' w' Q Q' X.
  destruct s as [ty l], t as [ty' l']. unfold squares, simple, plane in *. cbn [f_type f_coef] in *.
  destruct ty; try contradiction; destruct ty'; try contradiction;
    repeat (match goal with H : match ?l with [] => False | _ :: _ => _ end |- _ => destruct l as [|? ?]; [contradiction|] end);
    apply pair_equal_spec in Q as [Q ?]; apply pair_equal_spec in Q as [? ?]; apply pair_equal_spec in Q' as [Q' ?]; apply pair_equal_spec in Q' as [? ?];
    (destruct side; (apply pair_equal_spec in X as [X ?]; apply pair_equal_spec in X as [? ?]); try (exfalso; lra); (split; [apply pair_equal_spec; split; [apply pair_equal_spec; split; lra|lra]|auto])).
Qed.
Print Assumptions C96_kinds.

(** ** Cylinders *)

(** The two numbers that place the axis of a cylinder, and its radius. *)
Definition cylinder (s : fsurf) (x y r : float) : Prop :=
  (f_type s = CYLINDER_X \/ f_type s = CYLINDER_Y \/ f_type s = CYLINDER_Z) /\ exists l, f_coef s = x :: y :: r :: l.

(** The ball whose coefficients are those of the cylinder. *)
Definition ball (x y r : float) : fsphere := mkFS x y n0 r.

Lemma cylinder_parts s t x y r x' y' r' : cylinder s x y r -> cylinder t x' y' r' -> f_type s = f_type t -> fcompare s t = Some (true, false) ->
  exists qx qy qr qx' qy' qr', fsquare x = Some qx /\ fsquare y = Some qy /\ fsquare r = Some qr /\ fsquare x' = Some qx' /\ fsquare y' = Some qy' /\ fsquare r' = Some qr' /\
    Beqb (fmul nm2 x') (fmul nm2 x) = true /\ Beqb (fmul nm2 y') (fmul nm2 y) = true /\ Beqb (fsub (fadd qx' qy') qr') (fsub (fadd qx qy) qr) = true.
Proof.
  intros (T & l & E) (T' & l' & E') TT C. destruct (compare_parts s t false C) as (g & g' & G & G' & _ & S). unfold fgeneral in G, G'. rewrite E in G. rewrite E', <- TT in G'. clear T' C E E'.
  destruct T as [T|[T|T]]; rewrite T in G, G';
    (destruct (fsquare x) as [qx|]; [|discriminate]; destruct (fsquare y) as [qy|]; [|discriminate]; destruct (fsquare r) as [qr|]; [|discriminate]);
    (destruct (fsquare x') as [qx'|]; [|discriminate]; destruct (fsquare y') as [qy'|]; [|discriminate]; destruct (fsquare r') as [qr'|]; [|discriminate]);
    (match type of G with Some ?d = _ => assert (g = d) by congruence end); (match type of G' with Some ?d = _ => assert (g' = d) by congruence end); subst g g'; clear G G';
    cbn [f_coef same_list] in S; repeat (apply andb_true_iff in S as [? S]); exists qx, qy, qr, qx', qy', qr'; do 6 (split; [reflexivity|]); (split; [assumption|split; assumption]).
Qed.

(** The last coefficient of a cylinder and of its ball. *)
Lemma last_value x y r qx qy qr : finite_sphere (ball x y r) -> moderate (ball x y r) -> fsquare x = Some qx -> fsquare y = Some qy -> fsquare r = Some qr ->
  finite (fsub (fadd qx qy) qr) = true /\ finite (fsub (fadd (fadd qx qy) n0) qr) = true /\ val (fsub (fadd qx qy) qr) = val (fsub (fadd (fadd qx qy) n0) qr).
Proof.
  intros F M Q1 Q2 Q3. assert (Q0 : fsquare n0 = Some n0) by (vm_compute; reflexivity). destruct (general_parts (ball x y r) qx qy n0 qr F M Q1 Q2 Q0 Q3) as [G1 G2].
  destruct F as (F1 & F2 & _ & F3). unfold moderate, ball in M. cbn [f_x f_y f_z f_r ball] in *. repeat match goal with H : Forall _ (_ :: _) |- _ => inversion_clear H end.
  destruct (square_moderate _ _ F1 Q1) as (A1 & A2 & A3); [assumption|]. destruct (square_moderate _ _ F2 Q2) as (B1 & B2 & B3); [assumption|]. destruct (square_moderate _ _ F3 Q3) as (C1 & C2 & C3); [assumption|].
  destruct (sum_moderate qx qy 1000 ltac:(lia) A1 B1 A3 B3) as (E1 & E2 & E3). change (1000 + 1)%Z with 1001%Z in E3. assert (L : bpow radix2 1001 <= bpow radix2 1002) by (apply bpow_le; lia).
  destruct (difference_moderate (fadd qx qy) qr E1 C1 ltac:(lra) C3) as [D1 D2]. split; [exact D1|]. split; [exact G1|]. rewrite G2, D2, E2, A2, B2, C2. unfold computed, ball. cbn [f_x f_y f_z f_r].
  rewrite (proj2 v0). replace (0 * 0) with 0 by ring. rewrite (rnd_format 0) by apply generic_format_0. rewrite Rplus_0_r, (rnd_format (rnd (rnd _ + _))) by apply rnd_Fm. reflexivity.
Qed.

Lemma beq_of x y : finite x = true -> finite y = true -> val x = val y -> Beqb x y = true.
Proof. intros A B E. rewrite beq_val by assumption. rewrite E. unfold Reqb. now destruct (Req_EM_T (val y) (val y)). Qed.

(** Two cylinders taken for one: so are the two balls. *)
Lemma as_balls s t x y r x' y' r' : finite_surf s -> finite_surf t -> moderate_surf s -> moderate_surf t -> cylinder s x y r -> cylinder t x' y' r' -> f_type s = f_type t ->
  fcompare s t = Some (true, false) -> finite_sphere (ball x y r) /\ moderate (ball x y r) /\ finite_sphere (ball x' y' r') /\ moderate (ball x' y' r') /\
  fdiff (ball x y r) (ball x' y' r') = Some (true, false).
Proof.
  intros FS FT MS MT CS CT TT C. destruct (cylinder_parts s t x y r x' y' r' CS CT TT C) as (qx & qy & qr & qx' & qy' & qr' & Q1 & Q2 & Q3 & P1 & P2 & P3 & E1 & E2 & E3).
  destruct CS as (_ & l & EL), CT as (_ & l' & EL'). unfold finite_surf, moderate_surf in *. rewrite EL in FS, MS. rewrite EL' in FT, MT.
  repeat match goal with H : Forall _ (_ :: _) |- _ => inversion_clear H end. destruct v0 as [F0 V0].
  assert (M0 : Rabs (val n0) <= bpow radix2 500) by (rewrite V0, Rabs_R0; apply bpow_ge_0).
  assert (A1 : finite_sphere (ball x y r)) by (unfold finite_sphere, ball; cbn [f_x f_y f_z f_r]; auto).
  assert (A2 : finite_sphere (ball x' y' r')) by (unfold finite_sphere, ball; cbn [f_x f_y f_z f_r]; auto).
  assert (B1 : moderate (ball x y r)) by (unfold moderate, ball; cbn [f_x f_y f_z f_r]; auto).
  assert (B2 : moderate (ball x' y' r')) by (unfold moderate, ball; cbn [f_x f_y f_z f_r]; auto).
  do 4 (split; [assumption|]). assert (Q0 : fsquare n0 = Some n0) by (vm_compute; reflexivity).
  destruct (last_value x y r qx qy qr A1 B1 Q1 Q2 Q3) as (L1 & L2 & L3). destruct (last_value x' y' r' qx' qy' qr' A2 B2 P1 P2 P3) as (L1' & L2' & L3').
  apply equal_val in E3; [|assumption..]. assert (E4 := beq_of _ _ L2' L2 (eq_trans (eq_sym L3') (eq_trans E3 L3))).
  unfold fdiff, sphere_general, ball. cbn [f_x f_y f_z f_r]. rewrite Q1, Q2, Q3, P1, P2, P3, Q0. cbn [same_list]. fold nm2. rewrite E1, E2, E4.
  replace (Beqb (fnum 1 0) (fnum 1 0)) with true by (vm_compute; reflexivity). replace (Beqb (fnum 0 0) (fnum 0 0)) with true by (vm_compute; reflexivity).
  replace (Beqb (fmul nm2 n0) (fmul nm2 n0)) with true by (vm_compute; reflexivity). reflexivity.
Qed.

(** C96: two cylinders that are taken for one have the same axis, and the squares of their radii differ by little compared with
    those squares and that of the distance of the axis from the origin. *)
Theorem C96_cylinder s t x y r x' y' r' side : finite_surf s -> finite_surf t -> moderate_surf s -> moderate_surf t -> cylinder s x y r -> cylinder t x' y' r' ->
  fcompare s t = Some (true, side) ->
  f_type s = f_type t /\ side = false /\ val x = val x' /\ val y = val y' /\
  Rabs (val r ^ 2 - val r' ^ 2) <= bpow radix2 (-51) * (val x ^ 2 + val y ^ 2 + val r ^ 2 + val r' ^ 2) + bpow radix2 (-1072) /\
  (val x = 0 -> val y = 0 -> bpow radix2 (-511) <= Rabs (val r) -> bpow radix2 (-511) <= Rabs (val r') -> Rabs (val r) = Rabs (val r')).
Proof.
  intros FS FT MS MT CS CT C. assert (P : forall u a b c, cylinder u a b c -> simple u /\ plane u = false).
  { intros u a b c (T & _). unfold simple, plane. destruct T as [T|[T|T]]; rewrite T; split; (exact I || reflexivity). }
  destruct (P _ _ _ _ CS) as [S1 N1], (P _ _ _ _ CT) as [S2 N2]. destruct (C96_kinds s t side FS FT S1 S2 C) as [_ [[W _]|[TT ->]]]; [congruence|].
  destruct (as_balls s t x y r x' y' r' FS FT MS MT CS CT TT C) as (A1 & B1 & A2 & B2 & D). split; [exact TT|]. split; [reflexivity|].
  destruct (C60_centre_partial _ _ _ A1 A2 D) as [(E1 & E2 & _) _]. assert (K := C60_close_partial _ _ _ A1 A2 B1 B2 D). unfold ball, away in *. cbn [f_x f_y f_z f_r] in *.
  split; [exact E1|]. split; [exact E2|]. rewrite (proj2 v0) in K. split.
  - replace (val x ^ 2 + val y ^ 2 + val r ^ 2 + val r' ^ 2) with (val x ^ 2 + val y ^ 2 + 0 ^ 2 + val r ^ 2 + val r' ^ 2) by ring. exact K.
  - intros X Y L L'. apply (C60_origin_partial (mkFS x y n0 r) (mkFS x' y' n0 r') false A1 A2 B1 B2); [|exact L|exact L'|exact D].
    unfold away. cbn [f_x f_y f_z]. rewrite X, Y, (proj2 v0). ring.
Qed.
Print Assumptions C96_cylinder.

(** ** Spheres *)

Definition sphere (s : fsurf) (b : fsphere) : Prop := f_type s = SPHERE_GENERAL /\ exists l, f_coef s = f_x b :: f_y b :: f_z b :: f_r b :: l.

(** C96: two spheres are compared as C60 says. *)
Theorem C96_sphere s t b b' : sphere s b -> sphere t b' -> fcompare s t = fdiff b b'.
Proof.
  intros (T & l & E) (T' & l' & E'). unfold fcompare, fdiff, fgeneral, sphere_general. rewrite T, T', E, E'.
  destruct (fsquare (f_x b)); [|reflexivity]. destruct (fsquare (f_y b)); [|reflexivity]. destruct (fsquare (f_z b)); [|reflexivity]. destruct (fsquare (f_r b)); [|reflexivity].
  destruct (fsquare (f_x b')); [|reflexivity]. destruct (fsquare (f_y b')); [|reflexivity]. destruct (fsquare (f_z b')); [|reflexivity]. destruct (fsquare (f_r b')); [|reflexivity].
  cbn [f_type f_coef]. change (stype_beq GENERAL_QUADRATIC GENERAL_QUADRATIC) with true. reflexivity.
Qed.
Print Assumptions C96_sphere.

(** ** Cones *)

(** The number that places the apex of a cone along its axis, the two that place the axis, and the square of the tangent. *)
Definition cone (s : fsurf) (a b c q : float) : Prop :=
  exists l, (f_type s = CONE_X /\ f_coef s = a :: b :: c :: q :: l) \/ (f_type s = CONE_Y /\ f_coef s = b :: a :: c :: q :: l) \/ (f_type s = CONE_Z /\ f_coef s = b :: c :: a :: q :: l).

Lemma cone_parts s t a b c q a' b' c' q' : cone s a b c q -> cone t a' b' c' q' -> f_type s = f_type t -> fcompare s t = Some (true, false) ->
  (exists qa qb qc qa' qb' qc', fsquare a = Some qa /\ fsquare b = Some qb /\ fsquare c = Some qc /\ fsquare a' = Some qa' /\ fsquare b' = Some qb' /\ fsquare c' = Some qc') /\
  Beqb (fmul (fmul n2 a') q') (fmul (fmul n2 a) q) = true /\ Beqb (fmul nm2 b') (fmul nm2 b) = true /\ Beqb (fmul nm2 c') (fmul nm2 c) = true.
Proof.
  intros (l & T) (l' & T') TT C. destruct (compare_parts s t false C) as (g & g' & G & G' & _ & S). unfold fgeneral in G, G'. clear C.
  destruct T as [[T E]|[[T E]|[T E]]], T' as [[T' E']|[[T' E']|[T' E']]]; try congruence; rewrite T, E in G; rewrite T', E' in G';
    (destruct (fsquare a) as [qx|]; [|try discriminate; now destruct (fsquare b), (fsquare c)]; destruct (fsquare b) as [qy|]; [|try discriminate; now destruct (fsquare c)]; destruct (fsquare c) as [qr|]; [|discriminate]);
    (destruct (fsquare a') as [qx'|]; [|try discriminate; now destruct (fsquare b'), (fsquare c')]; destruct (fsquare b') as [qy'|]; [|try discriminate; now destruct (fsquare c')]; destruct (fsquare c') as [qr'|]; [|discriminate]);
    (match type of G with Some ?d = _ => assert (g = d) by congruence end); (match type of G' with Some ?d = _ => assert (g' = d) by congruence end); subst g g'; clear G G';
    cbn [f_coef same_list] in S; repeat (apply andb_true_iff in S as [? S]); (split; [do 6 eexists; do 5 (split; [reflexivity|]); reflexivity|]); (split; [assumption|split; assumption]).
Qed.

Lemma n2_val x : finite x = true -> Rabs (val x) < bpow radix2 512 -> finite (fmul n2 x) = true /\ val (fmul n2 x) = 2 * val x.
Proof.
  intros F L. destruct v2 as [FN VN]. assert (D : Fm (2 * val x)).
  { replace (2 * val x) with (- (-2 * val x)) by ring. apply opp_Fm, double_format, val_format. }
  rewrite <- (rnd_format (2 * val x)) by exact D. rewrite <- VN. apply fmul_small; [exact FN|exact F|]. rewrite VN, rnd_format by exact D.
  rewrite Rabs_mult, (Rabs_pos_eq 2) by lra. apply Rlt_le_trans with (bpow radix2 (1 + 512)); [rewrite bpow_plus; change (bpow radix2 1) with 2; lra|apply bpow_le; lia].
Qed.

(** The first coefficient of a cone. *)
Lemma axis_val a q : finite a = true -> finite q = true -> Rabs (val a) < bpow radix2 512 -> Rabs (val q) <= bpow radix2 500 ->
  finite (fmul (fmul n2 a) q) = true /\ val (fmul (fmul n2 a) q) = rnd (2 * val a * val q).
Proof.
  intros F1 F2 L1 L2. destruct (n2_val a F1 L1) as [A B]. rewrite <- B. apply fmul_small; [exact A|exact F2|]. apply Rle_lt_trans with (bpow radix2 (513 + 500)); [|apply bpow_lt; lia].
  apply rnd_bound; [lia|]. rewrite B, Rabs_mult, bpow_plus. apply Rmult_le_compat; [apply Rabs_pos..| |exact L2].
  rewrite Rabs_mult, (Rabs_pos_eq 2) by lra. change 513%Z with (1 + 512)%Z. rewrite bpow_plus. change (bpow radix2 1) with 2. lra.
Qed.

(** C96: two cones that are taken for one have the same axis and the same tangent, and their apexes lie within a rounding error
    of each other. *)
Theorem C96_cone s t a b c q a' b' c' q' side : finite_surf s -> finite_surf t -> moderate_surf s -> moderate_surf t -> cone s a b c q -> cone t a' b' c' q' -> 0 < val q -> 0 < val q' ->
  fcompare s t = Some (true, side) ->
  f_type s = f_type t /\ side = false /\ val q = val q' /\ val b = val b' /\ val c = val c' /\
  val q * Rabs (val a - val a') <= bpow radix2 (-53) * (val q * (Rabs (val a) + Rabs (val a'))) + bpow radix2 (-1075).
Proof.
  intros FS FT MS MT CS CT PQ PQ' C. assert (P : forall u i j k w, cone u i j k w -> 0 < val w -> simple u /\ plane u = false).
  { intros u i j k w (l & T) W. unfold simple, plane. destruct T as [[T E]|[[T E]|[T E]]]; rewrite T, E; split; (exact W || reflexivity). }
  destruct (P _ _ _ _ _ CS PQ) as [S1 N1], (P _ _ _ _ _ CT PQ') as [S2 N2]. destruct (C96_kinds s t side FS FT S1 S2 C) as [SQ [[W _]|[TT ->]]]; [congruence|].
  split; [exact TT|]. split; [reflexivity|].
  assert (QQ : val q = val q').
  { unfold squares in SQ. destruct CS as (l & CS), CT as (l' & CT). destruct CS as [[T E]|[[T E]|[T E]]], CT as [[T' E']|[[T' E']|[T' E']]]; try congruence; rewrite T, E, T', E' in SQ;
      apply pair_equal_spec in SQ as [SQ ?]; apply pair_equal_spec in SQ as [? ?]; lra. }
  split; [exact QQ|]. destruct (cone_parts s t a b c q a' b' c' q' CS CT TT C) as ((qa & qb & qc & qa' & qb' & qc' & K1 & K2 & K3 & K4 & K5 & K6) & E1 & E2 & E3).
  assert (FM : forall u i j k w, cone u i j k w -> finite_surf u -> moderate_surf u -> finite i = true /\ finite j = true /\ finite k = true /\ finite w = true /\ Rabs (val w) <= bpow radix2 500).
  { intros u i j k w (l & T) F M. unfold finite_surf, moderate_surf in *. destruct T as [[T E]|[[T E]|[T E]]]; rewrite E in F, M;
      repeat match goal with H : Forall _ (_ :: _) |- _ => inversion_clear H end; repeat split; assumption. }
  destruct (FM _ _ _ _ _ CS FS MS) as (Fa & Fb & Fc & Fq & Mq), (FM _ _ _ _ _ CT FT MT) as (Fa' & Fb' & Fc' & Fq' & Mq'). clear FM.
  assert (L : forall z w, finite z = true -> fsquare z = Some w -> Rabs (val z) < bpow radix2 512) by (intros z w F Q; exact (proj2 (proj2 (square_some z w F Q)))).
  split; [apply equal_doubles; eauto|]. split; [apply equal_doubles; eauto|].
  destruct (axis_val a q Fa Fq (L _ _ Fa K1) Mq) as [X1 X2], (axis_val a' q' Fa' Fq' (L _ _ Fa' K4) Mq') as [Y1 Y2]. apply equal_val in E1; [|assumption..]. rewrite X2, Y2, <- QQ in E1.
  assert (R1 := rnd_error (2 * val a * val q)). assert (R2 := rnd_error (2 * val a' * val q)). rewrite E1 in R2. set (k := rnd (2 * val a * val q)) in *.
  rewrite !Rabs_mult, (Rabs_pos_eq 2), (Rabs_pos_eq (val q)) in R1, R2 by lra.
  replace (val q * Rabs (val a - val a')) with (Rabs ((k - 2 * val a' * val q) - (k - 2 * val a * val q)) / 2).
  - assert (TR := Rabs_triang (k - 2 * val a' * val q) (- (k - 2 * val a * val q))). rewrite Rabs_Ropp in TR. unfold Rminus at 1. lra.
  - replace (k - 2 * val a' * val q - (k - 2 * val a * val q)) with (2 * val q * (val a - val a')) by ring. rewrite !Rabs_mult, (Rabs_pos_eq 2), (Rabs_pos_eq (val q)) by lra. field.
Qed.
Print Assumptions C96_cone.

(** ** Examples and witnesses *)

Definition cyl (x y r : float) : fsurf := mkF CYLINDER_Z [x; y; r].
Definition con (a q : float) : fsurf := mkF CONE_X [a; n0; n0; q].

Lemma fnums_ok l : Forall (fun '(m, e) => (Z.abs m < 2 ^ 53)%Z /\ (-1074 <= e <= 400)%Z) l ->
  Forall (fun x => finite x = true) (map (fun '(m, e) => fnum m e) l) /\ Forall (fun x => Rabs (val x) <= bpow radix2 500) (map (fun '(m, e) => fnum m e) l).
Proof.
  induction 1 as [|[m e] l [A B] F [IH1 IH2]]; [split; constructor|]. cbn [map]. split; constructor; try assumption; [apply fnum_val; lia|apply fnum_moderate; lia].
Qed.
Lemma cyl_ok m e r f : (Z.abs m < 2 ^ 53)%Z -> (-1074 <= e <= 400)%Z -> (Z.abs r < 2 ^ 53)%Z -> (-1074 <= f <= 400)%Z ->
  finite_surf (cyl (fnum m e) n0 (fnum r f)) /\ moderate_surf (cyl (fnum m e) n0 (fnum r f)) /\ cylinder (cyl (fnum m e) n0 (fnum r f)) (fnum m e) n0 (fnum r f).
Proof.
  intros A B C D. destruct (fnums_ok [(m, e); (0, 0); (r, f)]%Z) as [F M]; [repeat (constructor; [split; lia|]); constructor|].
  split; [exact F|]. split; [exact M|]. split; [right; right; reflexivity|exists []; reflexivity].
Qed.
Lemma con_ok m e r f : (Z.abs m < 2 ^ 53)%Z -> (-1074 <= e <= 400)%Z -> (Z.abs r < 2 ^ 53)%Z -> (-1074 <= f <= 400)%Z ->
  finite_surf (con (fnum m e) (fnum r f)) /\ moderate_surf (con (fnum m e) (fnum r f)) /\ cone (con (fnum m e) (fnum r f)) (fnum m e) n0 n0 (fnum r f).
Proof.
  intros A B C D. destruct (fnums_ok [(m, e); (0, 0); (0, 0); (r, f)]%Z) as [F M]; [repeat (constructor; [split; lia|]); constructor|].
  split; [exact F|]. split; [exact M|]. exists []. left. split; reflexivity.
Qed.

(** Two cylinders about the same axis, one with twice the radius of the other, are taken for one. *)
Theorem C96_cylinder_refuted : exists s t x y r r', finite_surf s /\ finite_surf t /\ moderate_surf s /\ moderate_surf t /\ cylinder s x y r /\ cylinder t x y r' /\
  fcompare s t = Some (true, false) /\ 0 < val r' /\ val r = 2 * val r'.
Proof.
  exists (cyl (fnum 100000 0) n0 (fnum 1 (-11))), (cyl (fnum 100000 0) n0 (fnum 1 (-12))), (fnum 100000 0), n0, (fnum 1 (-11)), (fnum 1 (-12)).
  destruct (cyl_ok 100000 0 1 (-11)) as (A1 & A2 & A3); [lia..|]. destruct (cyl_ok 100000 0 1 (-12)) as (B1 & B2 & B3); [lia..|].
  do 6 (split; [assumption|]). split; [vm_compute; reflexivity|].
  destruct (fnum_val 1 (-11)) as [_ ->]; [lia..|]. destruct (fnum_val 1 (-12)) as [_ ->]; [lia..|]. change (-11)%Z with (1 + -12)%Z. rewrite bpow_plus.
  change (bpow radix2 1) with 2. assert (P := bpow_gt_0 radix2 (-12)). lra.
Qed.
Print Assumptions C96_cylinder_refuted.

(** Two cones with different apexes on the same axis are taken for one. *)
Theorem C96_cone_refuted : exists s t a a' b c q, finite_surf s /\ finite_surf t /\ moderate_surf s /\ moderate_surf t /\ cone s a b c q /\ cone t a' b c q /\ 0 < val q /\
  fcompare s t = Some (true, false) /\ val a <> val a'.
Proof.
  exists (con (fnum 0x1cbf5a31c1521e (-52)) (fnum 5 (-2))), (con (fnum 0x1cbf5a31c1521f (-52)) (fnum 5 (-2))), (fnum 0x1cbf5a31c1521e (-52)), (fnum 0x1cbf5a31c1521f (-52)), n0, n0, (fnum 5 (-2)).
  destruct (con_ok 0x1cbf5a31c1521e (-52) 5 (-2)) as (A1 & A2 & A3); [lia..|]. destruct (con_ok 0x1cbf5a31c1521f (-52) 5 (-2)) as (B1 & B2 & B3); [lia..|].
  do 6 (split; [assumption|]). split; [destruct (fnum_val 5 (-2)) as [_ ->]; [lia..|]; assert (P := bpow_gt_0 radix2 (-2)); lra|]. split; [vm_compute; reflexivity|].
  destruct (fnum_val 0x1cbf5a31c1521e (-52)) as [_ ->]; [lia..|]. destruct (fnum_val 0x1cbf5a31c1521f (-52)) as [_ ->]; [lia..|]. assert (P := bpow_gt_0 radix2 (-52)). lra.
Qed.
Print Assumptions C96_cone_refuted.

(** Surfaces that meet the hypotheses: two planes that differ in the sign, cylinders about the axis, cones, a plane and a cylinder. *)
Example C96_example :
  let p := mkF PLANE_GENERAL [n1; n2; n0; fnum 5 0] in let p' := mkF PLANE_GENERAL [nm1; nm2; n0; fnum (-5) 0] in
  finite_surf p /\ finite_surf p' /\ unrounded p /\ unrounded p' /\ simple p /\ simple p' /\ fcompare p p' = Some (true, true) /\
  fcompare (mkF PLANE_X [n1; n0; n0; fnum 3 0]) (mkF PLANE_GENERAL [n1; n0; n0; fnum 3 0]) = Some (true, false) /\
  fcompare (cyl n0 n0 (fnum 5 0)) (cyl n0 n0 (fnum 10 (-1))) = Some (true, false) /\ fcompare (cyl n0 n0 (fnum 5 0)) (cyl n0 n0 (fnum 5000000000000001 (-50))) = Some (false, false) /\
  fcompare (cyl n1 n0 (fnum 5 0)) (cyl n2 n0 (fnum 5 0)) = Some (false, false) /\ simple (con n1 n2) /\ fcompare (con n1 n2) (con n1 n2) = Some (true, false) /\
  fcompare (con n1 n2) (con n2 n2) = Some (false, false) /\ fcompare (con n1 n2) (con n1 n1) = Some (false, false) /\ fcompare p (cyl n0 n0 n1) = Some (false, false).
Proof.
  assert (N : forall m, (Z.abs m < 2 ^ 53)%Z -> finite (fnum m 0) = true) by (intros m M; apply fnum_val; lia).
  cbv zeta. split; [repeat (constructor; [apply N; lia|]); constructor|]. split; [repeat (constructor; [apply N; lia|]); constructor|].
  split; [cbn; lia|]. split; [cbn; lia|]. split; [exact I|]. split; [exact I|]. do 5 (split; [vm_compute; reflexivity|]).
  split; [unfold simple, con; cbn [f_type f_coef]; rewrite (proj2 v2); lra|]. repeat split; vm_compute; reflexivity.
Qed.
