(** Property theorems: surfaces written for Serpent, OpenMC and SCONE (C58, C59). *)
From Coq Require Import Reals Ratan R_Ifp Lra Lia QArith Qreals ZifyBool.
From Verif Require Import PyStr PyStrFacts FortranNumber FortranNumberProofs PyInt PyIntFacts Formatter FormatterProofs
  SurfModel GeomSpec SurfSpec SurfProofs CellText FlattenModel CellWritersProofs CellWritersOut PropSurf SurfWriters TargetSpec SurfWritersProofs
  PropSurfOut SurfTargets SurfScone.
Open Scope nat_scope.
Open Scope list_scope.

(** A printing for the examples. *)
Definition strx (x : R) : text :=
  if Req_EM_T x 0 then T "0.0" else if Req_EM_T x 1 then T "1.0" else if Req_EM_T x 45 then T "45.0"
  else if Req_EM_T x 10000000000 then T "10000000000.0" else if Req_EM_T x (-10000000000) then T "-10000000000.0" else T "nan".

Lemma strx_word x : word (strx x) /\ nosep (strx x).
Proof.
  unfold strx. repeat match goal with |- context [Req_EM_T x ?y] => destruct (Req_EM_T x y) end;
  (split; [split; [discriminate|reflexivity]|reflexivity]).
Qed.
Lemma to_float_lit (t : text) (q : Q) x : py_float t = Some q -> Q2R q = x -> to_float t = Some x.
Proof. intros H <-. unfold to_float. now rewrite H. Qed.

Lemma strx_shows t v : shows strx t v -> t <> T "nan" -> to_float t = Some v.
Proof.
  intros [->|H] N; [|exact H]. unfold strx in *.
  repeat match goal with |- context [Req_EM_T v ?y] => destruct (Req_EM_T v y) as [E|?]; [subst v|] end; try contradiction;
  (eapply to_float_lit; [vm_compute; reflexivity|unfold Q2R; cbn [Qnum Qden]; lra]).
Qed.
Lemma strx_reads toks vals : Forall2 (shows strx) toks vals -> ~ In (T "nan") toks -> reads toks vals.
Proof.
  induction 1 as [|w v l l' H K IH]; intro N; constructor; [|apply IH; intro I; apply N; now right].
  apply strx_shows; [exact H|]. intros ->. apply N. now left.
Qed.
Lemma text_string a b : T a = T b -> a = b.
Proof. intro H. rewrite <- (string_of_list_ascii_of_string a), <- (string_of_list_ascii_of_string b). unfold T in H. now rewrite H. Qed.
Lemma to_float_six0 : to_float (T "0.000000") = Some 0%R.
Proof. eapply to_float_lit; [vm_compute; reflexivity|unfold Q2R; cbn [Qnum Qden]; lra]. Qed.
Ltac read_as E :=
  match goal with H : to_float ?t = Some ?v |- _ =>
    is_var v; let K := fresh "K" in assert (K := eq_trans (eq_sym H) E); apply some_eq in K; clear H; subst v end.
Lemma strx_0 : strx 0 = T "0.0".
Proof. unfold strx. destruct (Req_EM_T 0 0); [reflexivity|lra]. Qed.
Lemma strx_1 : strx 1 = T "1.0".
Proof. unfold strx. repeat match goal with |- context [Req_EM_T ?x ?y] => destruct (Req_EM_T x y); try lra end. reflexivity. Qed.
Lemma strx_45 : strx 45 = T "45.0".
Proof. unfold strx. repeat match goal with |- context [Req_EM_T ?x ?y] => destruct (Req_EM_T x y); try lra end. reflexivity. Qed.
Lemma strx_far : strx 10000000000 = T "10000000000.0" /\ strx (-10000000000) = T "-10000000000.0".
Proof. split; unfold strx; repeat match goal with |- context [Req_EM_T ?x ?y] => destruct (Req_EM_T x y); try lra end; reflexivity. Qed.

(** * C58 *)

(** C58, Serpent: the line written defines the surface.  Missing from the full property: cones and tori with
    coefficients that need more than six decimals ([C58_serpent_refuted]). *)
Theorem C58_serpent_partial str s sn :
  (forall x, word (str x)) -> surf_sense s = Some sn -> (fixed_point (s_type s) = true -> Forall fine6 (s_coef s)) ->
  exists t ty toks vals sn', write_serpent_surface str s = Some t /\
    words t = T "surf" :: str_Z (s_id s) :: T ty :: toks /\ Forall2 (shows str) toks vals /\
    serpent_means ty vals sn' /\ same_sense sn' sn.
Proof.
  intros WS E F. destruct (serpent_form str s sn WS E) as (t & ty & vals & sn' & W & Wt & M & SS & IN & _).
  exists t, ty, (map (if fixed_point (s_type s) then fmt_f else str) vals), vals, sn'. repeat (split; [assumption|]). split; [|split; assumption].
  destruct (fixed_point (s_type s)).
  - specialize (F eq_refl). rewrite Forall_forall in F. clear - F IN.
    assert (G : forall x, In x vals -> fine6 x) by (intros x I; apply F, IN, I). clear IN F.
    induction vals as [|x l IH]; constructor.
    + right. rewrite to_float_fmt_f, round6_fine; [reflexivity|]. apply G. now left.
    + apply IH. intros y I. apply G. now right.
  - clear. induction vals as [|x l IH]; constructor; [now left|exact IH].
Qed.
Print Assumptions C58_serpent_partial.

Definition half_cone : surface := mkS 7 None CONE_Z [0; 0; 0; 1; 1]%R TRANSMISSION.
Lemma fine6_0 : fine6 0. Proof. exists 0%Z. lra. Qed.
Lemma fine6_1 : fine6 1. Proof. exists 1000000%Z. lra. Qed.
Example serpent_ex : exists sn, (forall x, word (strx x)) /\ surf_sense half_cone = Some sn /\ Forall fine6 (s_coef half_cone).
Proof.
  eexists. split; [apply strx_word|]. split; [reflexivity|].
  repeat (apply Forall_cons; [apply fine6_0 || apply fine6_1|]); apply Forall_nil.
Qed.

Lemma nearest_small y : (0 <= y < 1 / 2)%R -> nearest y = 0%Z.
Proof. intros [A B]. unfold nearest. rewrite (int_part_eq 0) by (cbn; lra). destruct (Rlt_dec (y - 0) (1 / 2)); [reflexivity|lra]. Qed.
Lemma fmt_small x : (0 <= x < / 2000000)%R -> fmt_f x = T "0.000000".
Proof.
  intros [A B]. unfold fmt_f. rewrite Rabs_right by lra. rewrite nearest_small by lra.
  destruct (Rlt_dec x 0); [lra|]. reflexivity.
Qed.
Lemma fmt_1 : fmt_f 1 = T "1.000000".
Proof.
  unfold fmt_f. rewrite Rabs_right by lra. replace (1 * 1000000)%R with (IZR 1000000) by lra. rewrite nearest_int.
  destruct (Rlt_dec 1 0); [lra|]. reflexivity.
Qed.

(** C58 is false for Serpent: a narrow cone is written with the squared tangent 0. *)
Theorem C58_serpent_refuted : exists str s sn t,
  (forall x, word (str x)) /\ surf_sense s = Some sn /\ write_serpent_surface str s = Some t /\
  forall ty toks vals sn', words t = T "surf" :: str_Z (s_id s) :: T ty :: toks -> Forall2 (shows str) toks vals ->
    serpent_means ty vals sn' -> ~ same_sense sn' sn.
Proof.
  exists strx, (mkS 7 None CONE_Z [0; 0; 0; / 10000000; 0]%R TRANSMISSION). eexists. exists (T "surf 7 ckz 0.000000 0.000000 0.000000 0.000000 0.000000" ++ nl).
  split; [apply strx_word|]. split; [reflexivity|]. split.
  { unfold write_serpent_surface, serpent_body, serpent_cone. cbn [s_type s_coef s_id option_map map]. rewrite !fmt_small by lra. reflexivity. }
  intros ty toks vals sn' W F M S.
  change (words (T "surf 7 ckz 0.000000 0.000000 0.000000 0.000000 0.000000" ++ nl)) with
    (T "surf" :: T "7" :: T "ckz" :: repeat (T "0.000000") 5) in W. injection W as Ety Etoks.
  apply (text_string "ckz") in Ety. subst ty. rewrite <- Etoks in F. apply strx_reads in F; [|vm_compute; intuition discriminate].
  cbn [repeat] in F. unfold reads in F. inversion M; subst. repeat match goal with H : Forall2 _ (_ :: _) (_ :: _) |- _ => inversion H; clear H; subst end.
  repeat read_as to_float_six0.
  specialize (S (Pt 0 0 1)). cbn [neg pos one_sheet] in S. unfold cone_z in S. cbn [px py pz] in S.
  assert (N : ((0 - 0) ^ 2 + (0 - 0) ^ 2 - 0 * (1 - 0) ^ 2 < 0)%R) by (apply S; split; [lra|intros; lra]). lra.
Qed.
Print Assumptions C58_serpent_refuted.

(** C58, OpenMC: the attributes type and coeffs define the surface.  Missing from the full property: cones cut to
    one sheet, which OpenMC does not have ([C58_openmc_refuted]). *)
Theorem C58_openmc_partial str s sn :
  (forall x, word (str x)) -> surf_sense s = Some sn -> ~ sheeted s ->
  exists ty t vals sn', openmc_surface_info str s = Some (T ty, t) /\ words t = map str vals /\
    openmc_means ty vals sn' /\ same_sense sn' sn.
Proof.
  intros WS E NS. destruct (openmc_form str s sn WS E NS) as (ty & t & vals & sn' & A & B & C & D & _).
  exists ty, t, vals, sn'. auto.
Qed.
Print Assumptions C58_openmc_partial.

Example openmc_ex : exists s sn, (forall x, word (strx x)) /\ surf_sense s = Some sn /\ ~ sheeted s /\ s_type s = CONE_Y.
Proof. exists (mkS 3 None CONE_Y [0; 1; 45; 1; 0]%R VACUUM). eexists. split; [apply strx_word|]. split; [reflexivity|]. split; [cbn; intuition|reflexivity]. Qed.

(** C58 is false for OpenMC: half a cone is written as the whole cone. *)
Theorem C58_openmc_refuted : exists str s sn ty0 t,
  (forall x, word (str x)) /\ surf_sense s = Some sn /\ openmc_surface_info str s = Some (ty0, t) /\
  forall ty vals sn', ty0 = T ty -> Forall2 (shows str) (words t) vals -> openmc_means ty vals sn' -> ~ same_sense sn' sn.
Proof.
  exists strx, half_cone. eexists. exists (T "z-cone"), (T "0.0 0.0 0.0 1.0").
  split; [apply strx_word|]. split; [reflexivity|]. split.
  { unfold openmc_surface_info, half_cone, numbers. cbn [s_type s_coef firstn map]. rewrite strx_0, strx_1. reflexivity. }
  intros ty vals sn' Ety F M S. apply text_string in Ety. subst ty. apply strx_reads in F; [|vm_compute; intuition discriminate].
  change (words (T "0.0 0.0 0.0 1.0")) with [T "0.0"; T "0.0"; T "0.0"; T "1.0"] in F. unfold reads in F.
  inversion M; subst. repeat match goal with H : Forall2 _ (_ :: _) (_ :: _) |- _ => inversion H; clear H; subst end.
  repeat read_as to_float_00. repeat read_as to_float_10.
  specialize (S (Pt 0 0 (-1))). cbn [neg pos one_sheet of_fun] in S. unfold cone_z in S. cbn [px py pz] in S.
  destruct S as [[S _] _]. destruct S as [_ S]; [lra|]. assert (H0 : (1 <> 0)%R) by lra. specialize (S H0). lra.
Qed.
Print Assumptions C58_openmc_refuted.

(** C58, SCONE: the dictionary written defines the surface, as far as 10^10 along the axis of a cone.  Missing
    from the full property: tori ([C58_scone_torus_refuted]), points far along a cone ([C58_scone_far_refuted]),
    cones whose apex needs more than six decimals ([C59_scone_refuted]). *)
Theorem C58_scone_partial str s sn :
  (forall x, word (str x) /\ nosep (str x)) -> surf_sense s = Some sn -> is_torus (s_type s) = false ->
  (is_cone (s_type s) = true ->
     match s_coef s with x :: y :: z :: t2 :: _ => (0 <= t2)%R /\ fine6 x /\ fine6 y /\ fine6 z | _ => False end) ->
  exists t ty toks ents sn', write_scone_surface str s = Some t /\
    scone_words t = str_Z (s_id s) :: T "id" :: str_Z (s_id s) :: T "type" :: T ty :: toks /\
    Forall2 (entry_shown str) toks ents /\ scone_means ty ents sn' /\
    forall p, (Rabs (cone_height s p) < 10000000000)%R -> (neg sn' p <-> neg sn p) /\ (pos sn' p <-> pos sn p).
Proof. intro H. apply scone_form; intro x; apply H. Qed.
Print Assumptions C58_scone_partial.

Example scone_ex : exists sn, (forall x, word (strx x) /\ nosep (strx x)) /\ surf_sense half_cone = Some sn /\ is_torus (s_type half_cone) = false /\
  (0 <= 1)%R /\ fine6 0.
Proof. eexists. split; [apply strx_word|]. split; [reflexivity|]. split; [reflexivity|]. split; [lra|apply fine6_0]. Qed.

(** C58 is false for SCONE: no surface is written for a torus, but the line [surface not supported]. *)
Theorem C58_scone_torus_refuted : exists str s sn t,
  (forall x, word (str x) /\ nosep (str x)) /\ surf_sense s = Some sn /\ write_scone_surface str s = Some t /\
  forall ty toks, scone_words t <> str_Z (s_id s) :: T "id" :: str_Z (s_id s) :: T "type" :: T ty :: toks.
Proof.
  exists strx, (mkS 3 None TORUS_X [0; 0; 0; 45; 1; 1]%R TRANSMISSION). eexists. exists (T "surface not supported" ++ nl).
  split; [apply strx_word|]. split; [reflexivity|]. split; [reflexivity|]. intros ty toks H. vm_compute in H. discriminate H.
Qed.
Print Assumptions C58_scone_torus_refuted.

Lemma to_float_far : to_float (T "10000000000.0") = Some 10000000000%R.
Proof. eapply to_float_lit; [vm_compute; reflexivity|unfold Q2R; cbn [Qnum Qden]; lra]. Qed.

(** C58 is false for SCONE: a whole cone is cut off. *)
Theorem C58_scone_far_refuted : exists str s sn t,
  (forall x, word (str x) /\ nosep (str x)) /\ surf_sense s = Some sn /\ write_scone_surface str s = Some t /\
  forall ty toks ents sn', scone_words t = str_Z (s_id s) :: T "id" :: str_Z (s_id s) :: T "type" :: T ty :: toks ->
    Forall2 (entry_shown str) toks ents -> scone_means ty ents sn' -> ~ same_sense sn' sn.
Proof.
  exists strx, half_cone. eexists.
  exists (T "7 { id 7; type   zCone; vertex ( 0.000000 0.000000 0.000000  ); " ++ nl ++ T "angle 45.0; hMin 0; hMax 10000000000.0; } " ++ nl).
  split; [apply strx_word|]. split; [reflexivity|]. split.
  { unfold write_scone_surface, scone_body, half_cone, scone_cone. cbn [s_type s_coef s_id option_map map].
    destruct (Rlt_dec 1 0); [lra|]. destruct (Rlt_dec 0 1); [|lra]. rewrite !fmt_small by lra.
    replace (atan (sqrt 1) * (180 / PI))%R with 45%R by (rewrite sqrt_1, atan_1; field; apply PI_neq0).
    rewrite strx_45, (proj1 strx_far). reflexivity. }
  intros ty toks ents sn' W F M S.
  match type of W with scone_words ?t = _ => change (scone_words t) with
    [T "7"; T "id"; T "7"; T "type"; T "zCone"; T "vertex"; T "0.000000"; T "0.000000"; T "0.000000"; T "angle"; T "45.0"; T "hMin"; T "0"; T "hMax"; T "10000000000.0"] in W end.
  injection W as Ety Etoks. apply (text_string "zCone") in Ety. subst ty. rewrite <- Etoks in F.
  inversion M; subst. unfold scone_nums in F. cbn [map app] in F.
  repeat match goal with H : Forall2 _ (_ :: _) (_ :: _) |- _ => inversion H; clear H; subst end.
  cbn [entry_shown] in *. repeat match goal with H : shows strx _ _ |- _ => apply strx_shows in H; [|discriminate] end.
  repeat read_as to_float_six0. repeat read_as to_float_far.
  specialize (S (Pt 0 0 20000000000)). cbn [neg pos one_sheet scone_cut] in S. unfold cone_z in S. cbn [px py pz] in S.
  destruct S as [[_ S] _]. destruct S as [_ [_ S]]; [split; [lra|intros; lra]|]. lra.
Qed.
Print Assumptions C58_scone_far_refuted.

(** * C59 *)

(** The printing tells the coefficients of the two surfaces apart. *)
Definition apart (str : R -> text) (l1 l2 : list R) : Prop := forall x y, In x l1 -> In y l2 -> str x = str y -> x = y.

Lemma map_apart (f : R -> text) l1 : forall l2, apart f l1 l2 -> map f l1 = map f l2 -> l1 = l2.
Proof.
  induction l1 as [|x l1 IH]; intros [|y l2] A E; try discriminate; [reflexivity|]. cbn [map] in E. injection E as E1 E2.
  rewrite (A x y (or_introl eq_refl) (or_introl eq_refl) E1). f_equal. apply IH; [|exact E2].
  intros u v Iu Iv. apply A; now right.
Qed.

Lemma serpent_fun ty vals a b : serpent_means ty vals a -> serpent_means ty vals b -> a = b.
Proof. destruct 1; inversion 1; reflexivity. Qed.
Lemma openmc_fun ty vals a b : openmc_means ty vals a -> openmc_means ty vals b -> a = b.
Proof. destruct 1; inversion 1; reflexivity. Qed.
Lemma scone_fun ty vals a b : scone_means ty vals a -> scone_means ty vals b -> a = b.
Proof. destruct 1; inversion 1; reflexivity. Qed.
Lemma mcnp_fun m vals a b : mcnp_means m vals a -> mcnp_means m vals b -> a = b.
Proof. destruct 1; inversion 1; reflexivity. Qed.

Lemma fmt_apart l1 l2 : Forall fine6 l1 -> Forall fine6 l2 -> apart fmt_f l1 l2.
Proof.
  rewrite !Forall_forall. intros F G x y I J E. pose proof (to_float_fmt_f x) as A. pose proof (to_float_fmt_f y) as B.
  rewrite E, B in A. rewrite !round6_fine in A by auto. congruence.
Qed.

Lemma same_sense_sym a b : same_sense a b -> same_sense b a.
Proof. intros H p. destruct (H p). tauto. Qed.

(** C59, Serpent: surfaces written as the same line are the same surface.  Missing from the full property: cones
    and tori needing more than six decimals ([C59_serpent_refuted]). *)
Theorem C59_serpent_partial str s1 s2 sn1 sn2 t :
  (forall x, word (str x)) -> surf_sense s1 = Some sn1 -> surf_sense s2 = Some sn2 ->
  (fixed_point (s_type s1) = true -> Forall fine6 (s_coef s1)) -> (fixed_point (s_type s2) = true -> Forall fine6 (s_coef s2)) ->
  apart str (s_coef s1) (s_coef s2) ->
  write_serpent_surface str s1 = Some t -> write_serpent_surface str s2 = Some t ->
  s_id s1 = s_id s2 /\ same_sense sn1 sn2.
Proof.
  intros WS E1 E2 F1 F2 A W1 W2.
  destruct (serpent_form str s1 sn1 WS E1) as (t1 & ty1 & v1 & sm1 & W1' & Wt1 & M1 & S1 & I1 & N1).
  destruct (serpent_form str s2 sn2 WS E2) as (t2 & ty2 & v2 & sm2 & W2' & Wt2 & M2 & S2 & I2 & N2).
  assert (t1 = t) by congruence. assert (t2 = t) by congruence. subst t1 t2. rewrite Wt1 in Wt2.
  assert (Eid : str_Z (s_id s1) = str_Z (s_id s2)) by congruence. assert (Ety : T ty1 = T ty2) by congruence.
  assert (Em : map (if fixed_point (s_type s1) then fmt_f else str) v1 = map (if fixed_point (s_type s2) then fmt_f else str) v2) by congruence.
  apply text_string in Ety. subst ty2. rewrite <- N2, N1 in Em. split.
  { pose proof (py_int_str_Z (s_id s1)). pose proof (py_int_str_Z (s_id s2)). congruence. }
  assert (v1 = v2).
  { destruct (fixed_point (s_type s1)).
    - assert (fixed_point (s_type s2) = true) by congruence. apply map_apart in Em; [exact Em|]. apply fmt_apart.
      + apply Forall_forall. intros x I. specialize (F1 eq_refl). rewrite Forall_forall in F1. apply F1, I1, I.
      + apply Forall_forall. intros x I. specialize (F2 H). rewrite Forall_forall in F2. apply F2, I2, I.
    - apply map_apart in Em; [exact Em|]. intros x y I J. apply A; auto. }
  subst v2. assert (sm1 = sm2) by (eapply serpent_fun; eassumption). subst sm2.
  eapply same_sense_trans; [apply same_sense_sym; exact S1|exact S2].
Qed.
Print Assumptions C59_serpent_partial.

(** C59, OpenMC, cones cut to one sheet excepted ([C59_openmc_refuted]). *)
Theorem C59_openmc_partial str s1 s2 sn1 sn2 w :
  (forall x, word (str x)) -> surf_sense s1 = Some sn1 -> surf_sense s2 = Some sn2 -> ~ sheeted s1 -> ~ sheeted s2 ->
  apart str (s_coef s1) (s_coef s2) ->
  openmc_surface_info str s1 = Some w -> openmc_surface_info str s2 = Some w -> same_sense sn1 sn2.
Proof.
  intros WS E1 E2 F1 F2 A W1 W2.
  destruct (openmc_form str s1 sn1 WS E1 F1) as (ty1 & t1 & v1 & sm1 & W1' & Wt1 & M1 & S1 & I1).
  destruct (openmc_form str s2 sn2 WS E2 F2) as (ty2 & t2 & v2 & sm2 & W2' & Wt2 & M2 & S2 & I2).
  assert (Ety : T ty1 = T ty2) by congruence. assert (t1 = t2) by congruence. subst t2. rewrite Wt1 in Wt2.
  apply text_string in Ety. subst ty2. apply map_apart in Wt2; [|intros x y I J; apply A; auto].
  subst v2. assert (sm1 = sm2) by (eapply openmc_fun; eassumption). subst sm2.
  eapply same_sense_trans; [apply same_sense_sym; exact S1|exact S2].
Qed.
Print Assumptions C59_openmc_partial.

(** C59, MCNP, cones cut to one sheet excepted ([C59_mcnp_refuted]). *)
Theorem C59_mcnp_partial str s1 s2 sn1 sn2 t :
  (forall x, word (str x)) -> surf_sense s1 = Some sn1 -> surf_sense s2 = Some sn2 -> ~ sheeted s1 -> ~ sheeted s2 ->
  apart str (s_coef s1) (s_coef s2) ->
  mcnp_surface_text str s1 = Some t -> mcnp_surface_text str s2 = Some t -> same_sense sn1 sn2.
Proof.
  intros WS E1 E2 F1 F2 A W1 W2.
  destruct (mcnp_form str s1 sn1 E1 F1) as (m1 & v1 & sm1 & B1 & M1 & S1 & I1 & _ & _ & WM1 & _).
  destruct (mcnp_form str s2 sn2 E2 F2) as (m2 & v2 & sm2 & B2 & M2 & S2 & I2 & _ & _ & WM2 & _).
  unfold mcnp_surface_text in W1, W2. rewrite B1 in W1. rewrite B2 in W2.
  assert (H : forall b id m v, word (T m) -> mcnp_boundary b <> None -> exists w, forall bt, mcnp_boundary b = Some bt ->
      words (bt ++ str_Z id ++ T " " ++ T m ++ T " " ++ numbers str v ++ nl) = w :: T m :: map str v).
  { intros b id m v WM NB. destruct (mcnp_boundary b) as [bt|] eqn:EB; [|contradiction]. exists (bt ++ str_Z id). intros bt' K. injection K as <-.
    assert (WI : word (bt ++ str_Z id)).
    { destruct (word_str_Z id) as [Na Sa]. split; [intro F; apply app_eq_nil in F as [_ F]; contradiction|]. unfold nonspace in *. rewrite forallb_app, Sa.
      destruct b; try discriminate EB; injection EB as <-; reflexivity. }
    rewrite app_assoc, words_head by apply WI. rewrite words_head by apply WM. do 2 f_equal.
    rewrite words_sep by (rewrite orb_true_iff; right; reflexivity). rewrite words_numbers by assumption. cbn. apply app_nil_r. }
  destruct (mcnp_boundary (s_bc s1)) as [b1|] eqn:EB1; [|discriminate]. destruct (mcnp_boundary (s_bc s2)) as [b2|] eqn:EB2; [|discriminate].
  destruct (H (s_bc s1) (s_id s1) m1 v1 WM1) as (w1 & K1); [congruence|]. specialize (K1 b1 EB1).
  destruct (H (s_bc s2) (s_id s2) m2 v2 WM2) as (w2 & K2); [congruence|]. specialize (K2 b2 EB2).
  apply some_eq in W1. apply some_eq in W2. rewrite W1 in K1. rewrite W2 in K2. rewrite K1 in K2.
  assert (Em : T m1 = T m2) by congruence. assert (Ev : map str v1 = map str v2) by congruence.
  apply text_string in Em. subst m2. apply map_apart in Ev; [|intros x y I J; apply A; auto]. subst v2.
  assert (sm1 = sm2) by (eapply mcnp_fun; eassumption). subst sm2.
  eapply same_sense_trans; [apply same_sense_sym; exact S1|exact S2].
Qed.
Print Assumptions C59_mcnp_partial.

(** C59, SCONE, cones ([C59_scone_refuted]) and tori ([C59_scone_torus_refuted]) excepted. *)
Theorem C59_scone_partial str s1 s2 sn1 sn2 t :
  (forall x, word (str x) /\ nosep (str x)) -> surf_sense s1 = Some sn1 -> surf_sense s2 = Some sn2 ->
  is_torus (s_type s1) || is_cone (s_type s1) = false -> is_torus (s_type s2) || is_cone (s_type s2) = false ->
  Forall (fun x => to_float (str x) = Some x) (s_coef s1 ++ s_coef s2) ->
  write_scone_surface str s1 = Some t -> write_scone_surface str s2 = Some t ->
  s_id s1 = s_id s2 /\ same_sense sn1 sn2.
Proof.
  intros WS E1 E2 F1 F2 A W1 W2. apply orb_false_elim in F1 as [F1 G1]. apply orb_false_elim in F2 as [F2 G2].
  destruct (scone_form_plain str (fun x => proj1 (WS x)) (fun x => proj2 (WS x)) s1 sn1 E1 F1 G1) as (t1 & ty1 & toks1 & e1 & sm1 & W1' & Wt1 & D1 & M1 & S1).
  destruct (scone_form_plain str (fun x => proj1 (WS x)) (fun x => proj2 (WS x)) s2 sn2 E2 F2 G2) as (t2 & ty2 & toks2 & e2 & sm2 & W2' & Wt2 & D2 & M2 & S2).
  assert (t1 = t) by congruence. assert (t2 = t) by congruence. subst t1 t2. rewrite Wt1 in Wt2.
  assert (Eid : str_Z (s_id s1) = str_Z (s_id s2)) by congruence. assert (Ety : T ty1 = T ty2) by congruence.
  assert (toks1 = toks2) by congruence. subst toks2. apply text_string in Ety. subst ty2. split.
  { pose proof (py_int_str_Z (s_id s1)). pose proof (py_int_str_Z (s_id s2)). congruence. }
  apply Forall_app in A as [A1 A2]. rewrite Forall_forall in A1, A2.
  assert (M : forall w e, entry_shown_in str (s_coef s1) w e -> match e with Key k => w = T k | Num x => to_float w = Some x end)
    by (intros w [k|x] H; cbn in H; [exact H|]; destruct H as [[-> I]|H]; [now apply A1|exact H]).
  assert (M' : forall w e, entry_shown_in str (s_coef s2) w e -> match e with Key k => w = T k | Num x => to_float w = Some x end)
    by (intros w [k|x] H; cbn in H; [exact H|]; destruct H as [[-> I]|H]; [now apply A2|exact H]).
  assert (Ee : Forall2 (fun a b => match a, b with Num x, Num y => x = y | Key k, Key l => k = l | _, _ => True end) e1 e2).
  { clear - D1 D2 M M'. revert e2 D2. induction D1 as [|w e l l' H K IH]; intros e2 D2; inversion D2; subst; [constructor|]. constructor; [|apply IH; assumption].
    apply M in H. apply M' in H2. destruct e, y; auto; [apply text_string|]; congruence. }
  assert (sm1 = sm2) by (destruct M1; inversion M2; subst; unfold scone_nums in Ee; cbn [map app] in Ee;
    repeat match goal with H : Forall2 _ (_ :: _) (_ :: _) |- _ => inversion H; clear H; subst end; reflexivity). subst sm2.
  eapply same_sense_trans; [apply same_sense_sym; exact S1|exact S2].
Qed.
Print Assumptions C59_scone_partial.

Definition coin_a : surface := mkS 5 None SPHERE_GENERAL [0; 1; 0; 1]%R TRANSMISSION.
Lemma strx_faithful x : x = 0%R \/ x = 1%R -> to_float (strx x) = Some x.
Proof. intros [->| ->]; [rewrite strx_0; apply to_float_00|rewrite strx_1; apply to_float_10]. Qed.

(** The hypotheses of the four theorems, on surfaces that differ in their coefficients. *)
Example apart_ex : exists s1 s2 sn1 sn2, s_coef s1 <> s_coef s2 /\ surf_sense s1 = Some sn1 /\ surf_sense s2 = Some sn2 /\
  ~ sheeted s1 /\ ~ sheeted s2 /\ (forall x, word (strx x) /\ nosep (strx x)) /\ is_torus (s_type s1) || is_cone (s_type s1) = false /\
  is_torus (s_type s2) || is_cone (s_type s2) = false /\ fixed_point (s_type s1) = false /\ fixed_point (s_type s2) = false /\
  Forall (fun x => to_float (strx x) = Some x) (s_coef s1 ++ s_coef s2) /\ apart strx (s_coef s1) (s_coef s2).
Proof.
  exists coin_a, (mkS 5 None PLANE_X [1; 0; 0; 1]%R TRANSMISSION). eexists _, _. split; [intro H; cbn in H; injection H; intros; lra|].
  split; [reflexivity|]. split; [reflexivity|]. split; [intros []|]. split; [intros []|]. split; [apply strx_word|].
  do 4 (split; [reflexivity|]). split.
  - cbn [s_coef app coin_a]. repeat (apply Forall_cons; [apply strx_faithful; auto|]). apply Forall_nil.
  - intros x y I J E. assert (X : x = 0%R \/ x = 1%R) by (cbn in I; intuition). assert (Y : y = 0%R \/ y = 1%R) by (cbn in J; intuition).
    pose proof (strx_faithful x X) as A. pose proof (strx_faithful y Y) as B. rewrite E in A. congruence.
Qed.

(** C59 is false for Serpent: two cones of different openings are written alike, whatever [str] prints. *)
Theorem C59_serpent_refuted : exists s1 s2 sn1 sn2, surf_sense s1 = Some sn1 /\ surf_sense s2 = Some sn2 /\ s_id s1 = s_id s2 /\
  ~ same_sense sn1 sn2 /\ forall str, exists t, write_serpent_surface str s1 = Some t /\ write_serpent_surface str s2 = Some t.
Proof.
  exists (mkS 7 None CONE_Z [0; 0; 0; / 10000000; 0]%R TRANSMISSION), (mkS 7 None CONE_Z [0; 0; 0; / 5000000; 0]%R TRANSMISSION).
  eexists _, _. split; [reflexivity|]. split; [reflexivity|]. split; [reflexivity|]. split.
  - intro S. specialize (S (Pt (/ 10000) 0 (/ 4))). cbn [neg pos one_sheet] in S. unfold cone_z in S. cbn [px py pz] in S.
    destruct S as [[_ S] _]. destruct S as [S _]; [split; [lra|intros; lra]|]. lra.
  - intro str. eexists. unfold write_serpent_surface, serpent_body, serpent_cone. cbn [s_type s_coef s_id option_map map].
    rewrite !fmt_small by lra. split; reflexivity.
Qed.
Print Assumptions C59_serpent_refuted.

(** C59 is false for SCONE: two cones with different apexes are written alike, whatever [str] prints. *)
Theorem C59_scone_refuted : exists s1 s2 sn1 sn2, surf_sense s1 = Some sn1 /\ surf_sense s2 = Some sn2 /\ s_id s1 = s_id s2 /\
  ~ same_sense sn1 sn2 /\ forall str, exists t, write_scone_surface str s1 = Some t /\ write_scone_surface str s2 = Some t.
Proof.
  exists (mkS 7 None CONE_Z [0; 0; 0; 1; 0]%R TRANSMISSION), (mkS 7 None CONE_Z [0; 0; / 10000000; 1; 0]%R TRANSMISSION).
  eexists _, _. split; [reflexivity|]. split; [reflexivity|]. split; [reflexivity|]. split.
  - intro S. specialize (S (Pt 0 0 (/ 10000000))). cbn [neg pos one_sheet] in S. unfold cone_z in S. cbn [px py pz] in S.
    destruct S as [[S _] _]. destruct S as [S _]; [split; [lra|intros; lra]|]. lra.
  - intro str. eexists. unfold write_scone_surface, scone_body, scone_cone. cbn [s_type s_coef s_id option_map map].
    destruct (Rlt_dec 0 0); [lra|]. destruct (Rlt_dec 1 0); [lra|]. rewrite !fmt_small by lra. split; reflexivity.
Qed.
Print Assumptions C59_scone_refuted.

(** C59 is false for SCONE: all tori are written alike. *)
Theorem C59_scone_torus_refuted : exists s1 s2 sn1 sn2, surf_sense s1 = Some sn1 /\ surf_sense s2 = Some sn2 /\
  ~ same_sense sn1 sn2 /\ forall str, exists t, write_scone_surface str s1 = Some t /\ write_scone_surface str s2 = Some t.
Proof.
  exists (mkS 7 None TORUS_Z [0; 0; 0; 5; 1; 1]%R TRANSMISSION), (mkS 8 None TORUS_Z [0; 0; 9; 5; 1; 1]%R TRANSMISSION).
  eexists _, _. split; [reflexivity|]. split; [reflexivity|]. split.
  - intro S. specialize (S (Pt 5 0 0)). cbn [neg pos of_fun] in S. unfold torus_z, torus in S. cbn [px py pz] in S.
    replace ((5 - 0) ^ 2 + (0 - 0) ^ 2)%R with (5 * 5)%R in S by ring. rewrite sqrt_square in S by lra.
    destruct S as [[S _] _]. assert (X : ((0 - 9) ^ 2 / 1 ^ 2 + (5 - 5) ^ 2 / 1 ^ 2 - 1 < 0)%R) by (apply S; lra). lra.
  - intro str. eexists. split; reflexivity.
Qed.
Print Assumptions C59_scone_torus_refuted.

(** C59 is false for OpenMC and MCNP: the two halves of a cone are written alike. *)
Definition other_half : surface := mkS 7 None CONE_Z [0; 0; 0; 1; -1]%R TRANSMISSION.
Lemma halves_differ : exists sn1 sn2, surf_sense half_cone = Some sn1 /\ surf_sense other_half = Some sn2 /\ ~ same_sense sn1 sn2.
Proof.
  eexists _, _. split; [reflexivity|]. split; [reflexivity|]. intro S. specialize (S (Pt 0 0 1)). cbn [neg pos one_sheet] in S. unfold cone_z in S. cbn [px py pz] in S.
  destruct S as [[S _] _]. destruct S as [_ S]; [split; [lra|intros; lra]|]. assert (H0 : (-1 <> 0)%R) by lra. specialize (S H0). lra.
Qed.
Theorem C59_openmc_refuted : exists s1 s2 sn1 sn2, surf_sense s1 = Some sn1 /\ surf_sense s2 = Some sn2 /\
  ~ same_sense sn1 sn2 /\ forall str, exists w, openmc_surface_info str s1 = Some w /\ openmc_surface_info str s2 = Some w.
Proof.
  destruct halves_differ as (sn1 & sn2 & A & B & C). exists half_cone, other_half, sn1, sn2. split; [exact A|]. split; [exact B|]. split; [exact C|].
  intro str. eexists. split; reflexivity.
Qed.
Print Assumptions C59_openmc_refuted.
Theorem C59_mcnp_refuted : exists s1 s2 sn1 sn2, surf_sense s1 = Some sn1 /\ surf_sense s2 = Some sn2 /\
  ~ same_sense sn1 sn2 /\ forall str, exists t, mcnp_surface_text str s1 = Some t /\ mcnp_surface_text str s2 = Some t.
Proof.
  destruct halves_differ as (sn1 & sn2 & A & B & C). exists half_cone, other_half, sn1, sn2. split; [exact A|]. split; [exact B|]. split; [exact C|].
  intro str. eexists. split; reflexivity.
Qed.
Print Assumptions C59_mcnp_refuted.

(** What is lost by fixed point: the number written is within half a millionth of the coefficient. *)
Theorem C59_fixed_point_error x : exists v, to_float (fmt_f x) = Some v /\ (Rabs (v - x) <= / 2000000)%R.
Proof. exists (round6 x). split; [apply to_float_fmt_f|apply round6_bound]. Qed.
Print Assumptions C59_fixed_point_error.

(** A coefficient half way between two numbers with six digits after the point is written as the one with the even
    last digit, as Python does. *)
Theorem C59_fixed_point_half x v : to_float (fmt_f x) = Some v ->
  exists k, v = (IZR k / 1000000)%R /\ (Rabs (v - x) = / 2000000 -> Z.even k = true)%R.
Proof.
  intro E. rewrite to_float_fmt_f in E. assert (E2 : round6 x = v) by congruence. clear E. subst v. unfold round6.
  set (y := (Rabs x * 1000000)%R). assert (G : Rabs (IZR (nearest y) - y) = (1 / 2)%R -> Z.even (nearest y) = true).
  { unfold nearest. destruct (base_Int_part y) as [A B]. set (n := Int_part y) in *. destruct (Rlt_dec (y - IZR n) (1 / 2)) as [L|L].
    { intro H. exfalso. unfold Rabs in H. destruct (Rcase_abs (IZR n - y)); lra. }
    destruct (Rlt_dec (1 / 2) (y - IZR n)) as [M|M].
    { intro H. exfalso. rewrite plus_IZR in H. unfold Rabs in H. destruct (Rcase_abs (IZR n + 1 - y)); lra. }
    intros _. destruct (Z.even n) eqn:Ev; [exact Ev|]. rewrite Z.even_add, Ev. reflexivity. }
  assert (AB : forall u c, (0 <= c)%R -> (Rabs u = c <-> u = c \/ u = - c)%R).
  { intros u c P. split; [intro H; unfold Rabs in H; destruct (Rcase_abs u); lra|]. intros [-> | ->]; [apply Rabs_right; lra|rewrite Rabs_Ropp; apply Rabs_right; lra]. }
  destruct (Rlt_dec x 0) as [L|L].
  - exists (- nearest y)%Z. rewrite opp_IZR. split; [lra|]. intro H. rewrite Z.even_opp. apply G.
    assert (Y : y = (- x * 1000000)%R) by (unfold y; now rewrite Rabs_left by assumption).
    revert H. generalize (IZR (nearest y)). intros n H. rewrite Y. apply AB in H; [|lra]. apply AB; lra.
  - exists (nearest y). split; [lra|]. intro H. apply G.
    assert (Y : y = (x * 1000000)%R) by (unfold y; now rewrite Rabs_right by lra).
    revert H. generalize (IZR (nearest y)). intros n H. rewrite Y. apply AB in H; [|lra]. apply AB; lra.
Qed.
Print Assumptions C59_fixed_point_half.

Example fixed_point_half_ex : to_float (fmt_f (3 / 2000000)) = Some (2 / 1000000)%R.
Proof.
  rewrite to_float_fmt_f. unfold round6. destruct (Rlt_dec (3 / 2000000) 0); [lra|]. rewrite Rabs_right by lra.
  unfold nearest. rewrite (int_part_eq 1) by lra. destruct (Rlt_dec _ _); [lra|]. destruct (Rlt_dec _ _); [lra|]. cbn [Z.even]. f_equal. cbn. lra.
Qed.
