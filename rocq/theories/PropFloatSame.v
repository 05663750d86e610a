(** C96: surfaces with the same numbers are found to be the same, in binary64 arithmetic (csg2csg/SurfaceCard.py 77-114, 171-320). *)
From Coq Require Import ZArith Reals Bool List Lia Lra Psatz.
From Flocq Require Import Core BinarySingleNaN.
From Verif Require Import FloatModel PropFloat SurfModel FloatDiffModel PropFloatDiff.
Import ListNotations.
Open Scope R_scope.
Local Existing Instance prec_positive.
Local Existing Instance prec_small.

(** ** Specification *)

(** How many coefficients a surface of each type has at least. *)
Definition arity (t : stype) : nat :=
  match t with
  | PLANE_X | PLANE_Y | PLANE_Z | PLANE_GENERAL | SPHERE_GENERAL | CONE_X | CONE_Y | CONE_Z => 4
  | CYLINDER_X | CYLINDER_Y | CYLINDER_Z => 3
  | GENERAL_QUADRATIC => 10
  | _ => 0
  end.
(** Two floats that stand for the same number, which is at most 2 to the power [e]; they may be zeros of different signs. *)
Definition agree (e : Z) (x y : float) : Prop := finite x = true /\ finite y = true /\ val x = val y /\ Rabs (val x) <= bpow radix2 e.

(** ** Proof *)

Lemma agree_mul e f x y x' y' : (-1074 <= e + f <= 1023)%Z -> agree e x y -> agree f x' y' -> agree (e + f) (fmul x x') (fmul y y').
Proof.
  intros E (A & B & V & L) (A' & B' & V' & L').
  assert (H : Rabs (rnd (val x * val x')) <= bpow radix2 (e + f)).
  { apply rnd_bound; [lia|]. rewrite Rabs_mult, bpow_plus. apply Rmult_le_compat; auto using Rabs_pos. }
  assert (S : Rabs (rnd (val x * val x')) < bpow radix2 1024) by (apply Rle_lt_trans with (1 := H), bpow_lt; lia).
  destruct (fmul_small x x' A A' S) as [F1 V1]. rewrite V, V' in S. destruct (fmul_small y y' B B' S) as [F2 V2].
  split; [exact F1|]. split; [exact F2|]. split; [rewrite V1, V2; congruence|now rewrite V1].
Qed.
Lemma twice e : bpow radix2 (e + 1) = bpow radix2 e + bpow radix2 e.
Proof. rewrite bpow_plus. change (bpow radix2 1) with 2. lra. Qed.
Lemma agree_add e x y x' y' : (-1074 <= e <= 1022)%Z -> agree e x y -> agree e x' y' -> agree (e + 1) (fadd x x') (fadd y y').
Proof.
  intros E (A & B & V & L) (A' & B' & V' & L').
  assert (H : Rabs (rnd (val x + val x')) <= bpow radix2 (e + 1)).
  { apply rnd_bound; [lia|]. rewrite twice. apply Rle_trans with (1 := Rabs_triang _ _). lra. }
  assert (S : Rabs (rnd (val x + val x')) < bpow radix2 1024) by (apply Rle_lt_trans with (1 := H), bpow_lt; lia).
  destruct (fadd_small x x' A A' S) as [F1 V1]. rewrite V, V' in S. destruct (fadd_small y y' B B' S) as [F2 V2].
  split; [exact F1|]. split; [exact F2|]. split; [rewrite V1, V2; congruence|now rewrite V1].
Qed.
Lemma agree_sub e x y x' y' : (-1074 <= e <= 1022)%Z -> agree e x y -> agree e x' y' -> agree (e + 1) (fsub x x') (fsub y y').
Proof.
  intros E (A & B & V & L) (A' & B' & V' & L').
  assert (H : Rabs (rnd (val x - val x')) <= bpow radix2 (e + 1)).
  { apply rnd_bound; [lia|]. rewrite twice. unfold Rminus. apply Rle_trans with (1 := Rabs_triang _ _). rewrite Rabs_Ropp. lra. }
  assert (S : Rabs (rnd (val x - val x')) < bpow radix2 1024) by (apply Rle_lt_trans with (1 := H), bpow_lt; lia).
  destruct (fsub_small x x' A A' S) as [F1 V1]. rewrite V, V' in S. destruct (fsub_small y y' B B' S) as [F2 V2].
  split; [exact F1|]. split; [exact F2|]. split; [rewrite V1, V2; congruence|now rewrite V1].
Qed.
Lemma agree_opp e x y : agree e x y -> agree e (fopp x) (fopp y).
Proof.
  intros (A & B & V & L). unfold agree, finite, fopp, val in *. rewrite !is_finite_Bopp, !B2R_Bopp, Rabs_Ropp. repeat split; try assumption. now rewrite V.
Qed.
Lemma agree_le e f x y : (e <= f)%Z -> agree e x y -> agree f x y.
Proof. intros H (A & B & V & L). repeat split; try assumption. apply Rle_trans with (1 := L). now apply bpow_le. Qed.
Lemma agree_num n : (Z.abs n <= 2)%Z -> agree 1 (fnum n 0) (fnum n 0).
Proof.
  intro H. destruct (num n H) as [A B]. split; [exact A|]. split; [exact A|]. split; [reflexivity|]. rewrite B, <- abs_IZR. change (bpow radix2 1) with 2. now apply IZR_le.
Qed.
Lemma agree_square x y : agree 300 x y -> exists q r, fsquare x = Some q /\ fsquare y = Some r /\ agree 600 q r.
Proof.
  intro G. assert (M : agree 600 (fmul x x) (fmul y y)) by (apply (agree_mul 300 300); [lia|assumption..]). exists (fmul x x), (fmul y y). unfold fsquare.
  destruct M as (A & B & M). rewrite A, B, !andb_false_r. repeat split; assumption || apply M.
Qed.
Lemma same_agree e a b : Forall2 (agree e) a b -> same_list b a = true.
Proof.
  induction 1 as [|x y a b (A & B & V & _) F IH]; [reflexivity|]. cbn [same_list]. rewrite IH, andb_true_r. apply beq_of; congruence.
Qed.

Ltac bounded :=
  match goal with
  | H : agree ?e ?x ?y |- agree _ ?x ?y => exact H
  | |- agree _ n0 n0 => exact (agree_num 0 ltac:(lia))
  | |- agree _ n1 n1 => exact (agree_num 1 ltac:(lia))
  | |- agree _ n2 n2 => exact (agree_num 2 ltac:(lia))
  | |- agree _ nm1 nm1 => exact (agree_num (-1) ltac:(lia))
  | |- agree _ nm2 nm2 => exact (agree_num (-2) ltac:(lia))
  | |- agree _ (fopp _) (fopp _) => eapply agree_opp; bounded
  | |- agree _ (fmul _ _) (fmul _ _) => eapply agree_mul; [|bounded|bounded]; cbn; lia
  | |- agree _ (fadd _ _) (fadd _ _) => first [eapply (agree_add 900); [lia|solve [eapply agree_le; [|bounded]; cbn; lia]..]|eapply (agree_add 901); [lia|solve [eapply agree_le; [|bounded]; cbn; lia]..]|eapply (agree_add 902); [lia|solve [eapply agree_le; [|bounded]; cbn; lia]..]]
  | |- agree _ (fsub _ _) (fsub _ _) => first [eapply (agree_sub 900); [lia|solve [eapply agree_le; [|bounded]; cbn; lia]..]|eapply (agree_sub 901); [lia|solve [eapply agree_le; [|bounded]; cbn; lia]..]|eapply (agree_sub 902); [lia|solve [eapply agree_le; [|bounded]; cbn; lia]..]]
  end.
Ltac entry := eapply agree_le; [|bounded]; cbn; lia.
Ltac squares :=
  repeat match goal with
  | H : agree 300 ?x ?y |- context [fsquare ?x] => destruct (agree_square x y H) as (? & ? & -> & -> & ?)
  end.

Lemma fgeneral_agree s t : f_type s = f_type t -> Forall2 (agree 300) (f_coef s) (f_coef t) -> (arity (f_type s) <= length (f_coef s))%nat ->
  exists g h, fgeneral s = Some g /\ fgeneral t = Some h /\ f_type g = f_type h /\ Forall2 (agree 1000) (f_coef g) (f_coef h).
Proof.
  destruct s as [ty l], t as [ty' l']. cbn [f_type f_coef]. intros <- F A.
  assert (W : Forall2 (agree 1000) l l') by (clear A; induction F; constructor; [eapply agree_le; [|eassumption]; lia|assumption]).
  unfold fgeneral; cbn [f_type f_coef].
  destruct ty; cbn [arity] in A; try (do 2 eexists; do 2 (split; [reflexivity|]); split; [reflexivity|exact W]);
    repeat (match goal with H : (S _ <= length ?k)%nat |- _ => destruct k as [|? k]; [exfalso; cbn [length] in H; lia|]; cbn [length] in H; apply le_S_n in H end);
    repeat match goal with H : Forall2 (agree 300) (_ :: _) _ |- _ => inversion H; clear H; subst end; clear W;
    squares; do 2 eexists; do 2 (split; [reflexivity|]); (split; [reflexivity|]); cbn [f_coef]; repeat (constructor; [entry|]); constructor.
Qed.

(** C96: two surfaces of one type whose coefficients are the same numbers, up to 2 to the power 300, are found to be the same surface. *)
Theorem C96_same s t : f_type s = f_type t -> Forall2 (agree 300) (f_coef s) (f_coef t) -> (arity (f_type s) <= length (f_coef s))%nat ->
  fcompare s t = Some (true, false).
Proof.
  intros T F A. destruct (fgeneral_agree s t T F A) as (g & h & G & H & TY & C). unfold fcompare. rewrite G, H, TY, (same_agree _ _ _ C).
  replace (stype_beq (f_type h) (f_type h)) with true by (now destruct (f_type h)). reflexivity.
Qed.
Print Assumptions C96_same.

(** It is false of greater numbers: the comparison of a sphere of radius 2 to the power 600 with itself is an OverflowError. *)
Theorem C96_same_refuted : exists s, f_type s = SPHERE_GENERAL /\ finite_surf s /\ length (f_coef s) = 4%nat /\ fcompare s s = None.
Proof.
  exists (mkF SPHERE_GENERAL [n0; n0; n0; fnum 1 600]). split; [reflexivity|]. split.
  - unfold finite_surf. cbn [f_coef]. repeat (constructor; [vm_compute; reflexivity|]). constructor.
  - split; [reflexivity|vm_compute; reflexivity].
Qed.
Print Assumptions C96_same_refuted.

(** Cones about the x axis with an apex at 3, one with a negative zero. *)
Example C96_same_example :
  let s := mkF CONE_X [fnum 3 0; n0; n0; fnum 5 (-2)] in let t := mkF CONE_X [fnum 3 0; fopp n0; n0; fnum 5 (-2)] in
  f_type s = f_type t /\ Forall2 (agree 300) (f_coef s) (f_coef t) /\ (arity (f_type s) <= length (f_coef s))%nat /\ fcompare s t = Some (true, false).
Proof.
  assert (N : forall m e, (Z.abs m < 8)%Z -> (-2 <= e <= 0)%Z -> agree 300 (fnum m e) (fnum m e)).
  { intros m e M E. destruct (fnum_val m e) as [A B]; [lia..|]. split; [exact A|]. split; [exact A|]. split; [reflexivity|]. rewrite B, Rabs_mult, <- abs_IZR.
    rewrite (Rabs_pos_eq (bpow radix2 e)) by apply bpow_ge_0. apply Rle_trans with (bpow radix2 (3 + e)); [|apply bpow_le; lia]. rewrite bpow_plus.
    apply Rmult_le_compat_r; [apply bpow_ge_0|]. change (bpow radix2 3) with 8. apply IZR_le. lia. }
  cbv zeta. split; [reflexivity|]. split.
  - cbn [f_coef]. constructor; [apply N; lia|]. constructor.
    + destruct v0 as [A B]. unfold agree, finite, fopp, val in *. rewrite is_finite_Bopp, B2R_Bopp, B, Rabs_R0. repeat split; try assumption; [ring|apply bpow_ge_0].
    + repeat (constructor; [apply N; lia|]). constructor.
  - split; [cbn; lia|vm_compute; reflexivity].
Qed.
