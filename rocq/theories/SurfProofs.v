(** Lemmas about surfaces. *)
From Coq Require Import Reals List Lra Psatz.
From Verif Require Import PyStr PyStrFacts FortranNumber PyInt GeomSpec SurfModel SurfSpec.
Import ListNotations.
Open Scope R_scope.

Lemma Reqb_true x y : Reqb x y = true <-> x = y.
Proof. unfold Reqb. destruct (Req_EM_T x y); split; congruence. Qed.
Lemma Reqb_false x y : Reqb x y = false <-> x <> y.
Proof. unfold Reqb. destruct (Req_EM_T x y); split; congruence. Qed.
Lemma Reqb_refl x : Reqb x x = true.
Proof. now apply Reqb_true. Qed.

Lemma list_Reqb_true a b : list_Reqb a b = true <-> a = b.
Proof.
  revert b. induction a as [|x a IH]; destruct b as [|y b]; cbn [list_Reqb]; try (split; congruence).
  rewrite Bool.andb_true_iff, Reqb_true, IH. split; [intros [-> ->]; auto | injection 1; auto].
Qed.

Lemma same_refl a : same_sense a a.
Proof. intros p; tauto. Qed.
Lemma same_sym a b : same_sense a b -> same_sense b a.
Proof. intros H p; specialize (H p); tauto. Qed.
Lemma same_trans a b c : same_sense a b -> same_sense b c -> same_sense a c.
Proof. intros H K p; specialize (H p); specialize (K p); tauto. Qed.

Lemma same_of_fun f g : (forall p, f p = g p) -> same_sense (of_fun f) (of_fun g).
Proof. intros H p. cbn. rewrite (H p). tauto. Qed.

Lemma opposite_of_fun f g : (forall p, f p = - g p) -> opposite_sense (of_fun f) (of_fun g).
Proof. intros H p. cbn. rewrite (H p). split; split; lra. Qed.

Lemma one_sheet_0 f a : same_sense (one_sheet f a 0) (of_fun f).
Proof. intros p. cbn. split; split; intros H; tauto || (destruct H as [H|[H _]]; [exact H|congruence]). Qed.

(** Scaling the defining function by a positive number keeps the sides. *)
Lemma same_scale f g k : 0 < k -> (forall p, f p = k * g p) -> same_sense (of_fun f) (of_fun g).
Proof.
  intros Hk H p. cbn. rewrite (H p). split; split; intros; nra.
Qed.

Definition gqf (l : list R) : pt -> R :=
  quadric (c_ l 0) (c_ l 1) (c_ l 2) (c_ l 3) (c_ l 4) (c_ l 5) (c_ l 6) (c_ l 7) (c_ l 8) (c_ l 9).

Ltac dl l := repeat (let x := fresh "c" in destruct l as [|x l]; try discriminate).

(** Generalising: sheets aside, the sides are kept and a quadric (or the same torus)
    results. *)
Lemma generalise_sense s sn :
  surf_sense s = Some sn -> ~ sheeted s ->
  exists s', generalise s = Some s' /\ s_id s' = s_id s /\ s_tr s' = s_tr s /\ s_bc s' = s_bc s /\ denotes s' sn
    /\ (is_torus (s_type s) = true -> s' = s)
    /\ (is_torus (s_type s) = false -> s_type s' = GENERAL_QUADRATIC).
Proof.
  destruct s as [id tr ty l bc]. unfold surf_sense, sheeted, generalise. cbn [s_type s_coef].
  destruct ty; cbn [sem]; intros E NS; dl l; injection E as <-;
  (eexists; split; [reflexivity|]); cbn [s_id s_tr s_bc s_type s_coef set_tc is_torus];
  (split; [reflexivity|split; [reflexivity|split; [reflexivity|split; [|split; [congruence|congruence]]]]]);
  unfold denotes, surf_sense; cbn [sem s_type s_coef set_tc];
  (eexists; split; [reflexivity|]);
  try (apply same_of_fun; intros [x y z]; cbn; unfold plane, sphere, cyl_x, cyl_y, cyl_z, quadric; cbn; ring);
  try apply same_refl;
  (match goal with |- same_sense _ (one_sheet _ _ ?c) => destruct (Req_EM_T c 0) as [->|]; [|contradiction] end;
   eapply same_trans; [|apply same_sym, one_sheet_0];
   apply same_of_fun; intros [x y z]; cbn; unfold cone_x, cone_y, cone_z, quadric; cbn; ring).
Qed.

Lemma generalise_some s sn : surf_sense s = Some sn -> exists s', generalise s = Some s'.
Proof.
  destruct s as [id tr ty l bc]. unfold surf_sense, generalise. cbn [s_type s_coef].
  destruct ty; cbn [sem]; intros E; dl l; eexists; reflexivity.
Qed.

(** Simplifying. *)
Lemma simplify_sense s sn :
  surf_sense s = Some sn -> ~ only_zx s ->
  exists s', simplify s = Some s' /\ s_id s' = s_id s /\ s_tr s' = s_tr s /\ s_bc s' = s_bc s /\ denotes s' sn.
Proof.
  destruct s as [id tr ty l bc]. unfold surf_sense, only_zx, simplify. cbn [s_type s_coef].
  destruct ty; cbn [sem]; intros E NS;
  try (eexists; split; [reflexivity|]; cbn [s_id s_tr s_bc]; repeat (split; [reflexivity|]);
       eexists; split; [exact E|apply same_refl]).
  dl l. injection E as <-. cbn [firstn].
  destruct (forallb (fun v => Reqb v 0) [c; c0; c1; c2; c3]) eqn:F.
  - cbn [forallb] in F. rewrite !Bool.andb_true_iff, !Reqb_true in F.
    destruct F as (-> & -> & -> & -> & -> & _).
    eexists; split; [reflexivity|]; cbn [s_id s_tr s_bc set_tc]; repeat (split; [reflexivity|]).
    eexists; split; [reflexivity|].
    apply same_of_fun. intros [x y z]. unfold plane, quadric. cbn.
    destruct (Req_EM_T c4 0) as [->|]; [ring|exfalso; apply NS; tauto].
  - destruct (forallb _ [c; c0; c1; c2; c3; c4; c5]) eqn:F2.
    + exfalso. cbn [forallb] in F, F2. rewrite !Bool.andb_true_iff in F2.
      destruct F2 as (A1 & A2 & A3 & A4 & A5 & _). rewrite A1, A2, A3, A4, A5 in F. discriminate.
    + eexists; split; [reflexivity|]; cbn [s_id s_tr s_bc]; repeat (split; [reflexivity|]).
      eexists; split; [reflexivity|apply same_refl].
Qed.

(** Reversing. *)
Lemma map_neg2 l : map (fun i => i * -1) (map (fun i => i * -1) l) = l.
Proof. induction l as [|x l IH]; cbn; [reflexivity|]. rewrite IH. f_equal; ring. Qed.

Lemma reverse_reverse s : reverse (reverse s) = s.
Proof. destruct s. unfold reverse, set_tc. cbn. now rewrite map_neg2. Qed.

(** The transform. *)
Lemma same_moved f g t : (forall p, f p = g (to_aux t p)) -> same_sense (of_fun f) (moved t (of_fun g)).
Proof. intros H p. unfold of_fun, moved. cbn [neg pos]. rewrite (H p). tauto. Qed.

Lemma transform_gq s t l sn :
  s_type s = GENERAL_QUADRATIC -> s_tr s <> None -> s_coef s = l -> surf_sense s = Some sn ->
  exists s', transform s t = Some s' /\ s_id s' = s_id s /\ s_tr s' = s_tr s /\ s_bc s' = s_bc s /\
    s_type s' = GENERAL_QUADRATIC /\ denotes s' (moved (motion_of t) sn).
Proof.
  destruct s as [id tr ty cl bc]. unfold surf_sense, transform. cbn [s_type s_coef s_tr].
  intros -> NT -> E. destruct tr as [tr|]; [|congruence]. cbn [sem] in E. dl l. injection E as <-.
  destruct t as [[[sx sy] sz] [[b1 b2] b3] [[b4 b5] b6] [[b7 b8] b9]]. cbn [t_shift t_v1 t_v2 t_v3].
  eexists; split; [reflexivity|]. cbn [s_id s_tr s_bc s_type set_tc]. repeat (split; [reflexivity|]).
  unfold denotes, surf_sense. cbn [s_type s_coef set_tc app]. cbn [sem].
  eexists; split; [reflexivity|].
  apply same_moved. intros [x y z].
  unfold quadric, to_aux, motion_of, dot, sub_pt, pt_of, matmul, transpose, mk_mat.
  cbn [nth px py pz mo r1 r2 r3 t_shift t_v1 t_v2 t_v3]. field.
Qed.
