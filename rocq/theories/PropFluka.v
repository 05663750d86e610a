(** Property theorems: the surfaces written for FLUKA (C43). *)
From Coq Require Import Reals Lra Lia QArith Qreals ZifyBool.
From Verif Require Import PyStr PyStrFacts FortranNumber FortranNumberProofs PyInt PyIntFacts
  SurfModel GeomSpec SurfSpec CellText CellWritersOut BoundaryModel PropBoundary SurfWriters TargetSpec SurfWritersProofs PropSurfOut SurfTargets SurfScone
  PropSurfTargets FlukaModel FlukaSpec.
Open Scope nat_scope.
Open Scope list_scope.

(** Whole cones, written as quadrics. *)
Definition whole_cone (s : surface) : Prop := is_cone (s_type s) = true /\ ~ sheeted s.

Lemma words_each (str : R -> text) l : (forall x, word (str x)) -> words (each str l ++ nl) = map str l.
Proof.
  intro H. unfold each. induction l as [|x l IH]; [reflexivity|]. cbn [flat_map map]. rewrite <- !app_assoc.
  rewrite words_head by apply H. now rewrite IH.
Qed.
Lemma words_each_app (str : R -> text) l t : (forall x, word (str x)) -> words (each str l ++ t) = map str l ++ words t.
Proof.
  intro H. unfold each. induction l as [|x l IH]; [reflexivity|]. cbn [flat_map map]. rewrite <- !app_assoc.
  rewrite words_head by apply H. now rewrite IH.
Qed.

(** The name of a body. *)
Definition body_name (s : surface) : text := T "S" ++ str_Z (s_id s).
Lemma body_name_word id : word (T "S" ++ str_Z id).
Proof. destruct (word_str_Z id) as [N S]. split; [discriminate|]. unfold nonspace in *. cbn [app T list_ascii_of_string forallb]. exact S. Qed.

Lemma words_number (str : R -> text) x : word (str x) -> words (str x ++ nl) = [str x].
Proof. intro H. rewrite words_sep by (rewrite orb_true_iff; right; reflexivity). now rewrite (words_word _ H). Qed.

(** The first two words of a line. *)
Lemma fluka_head a b c id t : is_space a = false -> is_space b = false -> is_space c = false ->
  words ([a; b; c; " "%char; "S"%char] ++ str_Z id ++ " "%char :: t) = [a; b; c] :: (T "S" ++ str_Z id) :: words t.
Proof.
  intros A B C. change ([a; b; c; " "%char; "S"%char] ++ str_Z id ++ " "%char :: t) with ([a; b; c] ++ T " " ++ (T "S" ++ str_Z id) ++ T " " ++ t).
  rewrite words_head; [|discriminate|unfold nonspace; cbn [forallb]; now rewrite A, B, C].
  rewrite words_head by apply body_name_word. reflexivity.
Qed.

Lemma head_words (str : R -> text) a b c id t l : is_space a = false -> is_space b = false -> is_space c = false -> words t = l ->
  words ([a; b; c; " "%char; "S"%char] ++ str_Z id ++ " "%char :: t) = [a; b; c] :: (T "S" ++ str_Z id) :: l.
Proof. intros A B C <-. now apply fluka_head. Qed.

Lemma shows_map (str : R -> text) l : Forall2 (shows str) (map str l) l.
Proof. induction l; constructor; [now left|assumption]. Qed.

(** C43 for everything but cones and tori: the body is the negative side.  Missing from the full property: whole
    cones ([C43_whole_cone_refuted]), tori ([C43_torus_refuted]), half cones outside the bounding box
    ([C43_half_cone_partial]). *)
Theorem C43_bodies_partial str box s sn :
  (forall x, word (str x)) -> surf_sense s = Some sn -> is_torus (s_type s) = false -> is_cone (s_type s) = false ->
  (s_type s = PLANE_GENERAL -> match s_coef s with a :: b :: c :: _ => (a, b, c) <> (0, 0, 0)%R | _ => True end) ->
  exists t ty toks vals body, write_fluka_surface str box s = Some (t, s) /\
    words t = T ty :: body_name s :: toks /\ Forall2 (shows str) toks vals /\ fluka_means ty vals body /\
    forall p, body p <-> neg sn p.
Proof.
  intros WS E NT NC NP. unfold write_fluka_surface.
  coefs s E; try discriminate NT; try discriminate NC; unfold fluka_plane, fluka_gq; cbn [option_map]; clear NT NC; unfold body_name; cbn [s_id].
  - specialize (NP eq_refl). destruct (Req_EM_T (r ^ 2 + r0 ^ 2 + r1 ^ 2) 0) as [Z|Z].
    { exfalso. apply NP. assert (r = 0 /\ r0 = 0 /\ r1 = 0)%R by (repeat split; nra). destruct H as (-> & -> & ->). reflexivity. }
    eexists _, "PLA"%string, _, _, _. split; [reflexivity|]. split; [eapply (head_words str _ _ _ _ (each str _ ++ nl)); [reflexivity..|now apply words_each]|].
    split; [apply shows_map|]. split; [apply f_pla|]. intro p. cbn [neg of_fun]. unfold dot, sub_pt, plane. cbn [px py pz].
    assert (K : (r * (px p - r * (r * 0 + r0 * 0 + r1 * 0 + r2) / (r ^ 2 + r0 ^ 2 + r1 ^ 2)) +
       r0 * (py p - r0 * (r * 0 + r0 * 0 + r1 * 0 + r2) / (r ^ 2 + r0 ^ 2 + r1 ^ 2)) +
       r1 * (pz p - r1 * (r * 0 + r0 * 0 + r1 * 0 + r2) / (r ^ 2 + r0 ^ 2 + r1 ^ 2)) = r * px p + r0 * py p + r1 * pz p - r2)%R).
    { field. exact Z. }
    rewrite K. tauto.
  - eexists _, "YZP"%string, _, _, _. split; [reflexivity|]. split; [eapply (head_words str _ _ _ _ (str r2 ++ nl)); [reflexivity..|apply words_number, WS]|].
    split; [apply (shows_map str [r2])|]. split; [apply f_yzp|]. intro p. cbn [neg of_fun]. unfold plane. split; intro; lra.
  - eexists _, "XZP"%string, _, _, _. split; [reflexivity|]. split; [eapply (head_words str _ _ _ _ (str r2 ++ nl)); [reflexivity..|apply words_number, WS]|].
    split; [apply (shows_map str [r2])|]. split; [apply f_xzp|]. intro p. cbn [neg of_fun]. unfold plane. split; intro; lra.
  - eexists _, "XYP"%string, _, _, _. split; [reflexivity|]. split; [eapply (head_words str _ _ _ _ (str r2 ++ nl)); [reflexivity..|apply words_number, WS]|].
    split; [apply (shows_map str [r2])|]. split; [apply f_xyp|]. intro p. cbn [neg of_fun]. unfold plane. split; intro; lra.
  - eexists _, "XCC"%string, _, _, _. split; [reflexivity|]. split; [eapply (head_words str _ _ _ _ (each str _ ++ nl)); [reflexivity..|now apply words_each]|].
    split; [apply shows_map|]. split; [apply f_xcc|]. intro p. cbn [neg of_fun]. unfold cyl_x. split; intro; lra.
  - eexists _, "YCC"%string, _, _, _. split; [reflexivity|]. split; [eapply (head_words str _ _ _ _ (each str _ ++ nl)); [reflexivity..|now apply words_each]|].
    split; [apply shows_map|]. split; [apply f_ycc|]. intro p. cbn [neg of_fun]. unfold cyl_y. split; intro; lra.
  - eexists _, "ZCC"%string, _, _, _. split; [reflexivity|]. split; [eapply (head_words str _ _ _ _ (each str _ ++ nl)); [reflexivity..|now apply words_each]|].
    split; [apply shows_map|]. split; [apply f_zcc|]. intro p. cbn [neg of_fun]. unfold cyl_z. split; intro; lra.
  - eexists _, "SPH"%string, _, _, _. split; [reflexivity|]. split; [eapply (head_words str _ _ _ _ (each str _ ++ str r2 ++ nl)); [reflexivity..|rewrite words_each_app, words_number by (exact WS || apply WS); reflexivity]|].
    split; [apply (shows_map str [r; r0; r1; r2])|]. split; [apply f_sph|]. intro p. cbn [neg of_fun]. unfold sphere. split; intro; lra.
  - eexists _, "QUA"%string, _, _, _. split; [reflexivity|]. split.
    { refine (eq_trans (fluka_head "Q" "U" "A" id (((str r ++ T " ") ++ flat_map (fun x : R => T " " ++ str x ++ T " ") [r0; r1; r2; r4; r3; r5; r6; r7; r8]) ++ nl)
        eq_refl eq_refl eq_refl) _). rewrite <- !app_assoc. rewrite words_head by apply WS.
      rewrite words_sep by (rewrite orb_true_iff; right; reflexivity). rewrite words_padded by exact WS. reflexivity. }
    split; [apply (shows_map str [r; r0; r1; r2; r4; r3; r5; r6; r7; r8])|]. split; [apply f_qua|].
    intro p. cbn [neg of_fun]. unfold quadric. split; intro; lra.
Qed.
Print Assumptions C43_bodies_partial.

Example bodies_ex : exists sn, (forall x, word (strx x)) /\ surf_sense (mkS 4 None PLANE_GENERAL [1; 0; 1; 45]%R TRANSMISSION) = Some sn /\ (1, 0, 1)%R <> (0, 0, 0)%R.
Proof. eexists. split; [apply strx_word|]. split; [reflexivity|]. intro H. injection H. intros. lra. Qed.

(** * Half cones *)
Open Scope R_scope.

Lemma ratio_neg u h : h < 0 -> (0 < u / h < 1 <-> h < u < 0).
Proof.
  intro H. assert (E : u = u / h * h) by (field; lra). set (v := u / h) in *. clearbody v. subst u. split; intros [A B]; split; nra.
Qed.
Lemma ratio_pos u h : 0 < h -> (0 < u / h < 1 <-> 0 < u < h).
Proof.
  intro H. assert (E : u = u / h * h) by (field; lra). set (v := u / h) in *. clearbody v. subst u. split; intros [A B]; split; nra.
Qed.

(** A cone on an axis: [u] along the axis, [rho] the squared distance from it. *)
Lemma trc_side u rho base h t : h <> 0 -> 0 <= t ->
  (rho < (Rabs h * sqrt t + (0 - Rabs h * sqrt t) * (u / h)) ^ 2 <-> rho < t * (h - u) ^ 2) /\ base + h - (base + u) = h - u.
Proof.
  intros N P. split; [|ring].
  assert (E : (Rabs h * sqrt t + (0 - Rabs h * sqrt t) * (u / h)) ^ 2 = t * (h - u) ^ 2).
  { replace ((Rabs h * sqrt t + (0 - Rabs h * sqrt t) * (u / h)) ^ 2) with ((Rabs h * Rabs h) * (sqrt t * sqrt t) * (1 - u / h) ^ 2) by ring.
    rewrite sqrt_sqrt by exact P. replace (Rabs h * Rabs h) with (h * h) by (rewrite <- Rabs_mult; symmetry; apply Rabs_right; nra).
    field. exact N. }
  rewrite E. tauto.
Qed.

Lemma trc_x base y z h t p : h <> 0 -> 0 <= t ->
  (trc (Pt base y z) (Pt h 0 0) (Rabs h * sqrt t) 0 p <->
   0 < (px p - base) / h < 1 /\ (py p - y) ^ 2 + (pz p - z) ^ 2 < t * (px p - (base + h)) ^ 2).
Proof.
  intros N P. unfold trc, dot, sub_pt, scale_pt. cbn [px py pz].
  replace (((px p - base) * h + (py p - y) * 0 + (pz p - z) * 0) / (h * h + 0 * 0 + 0 * 0)) with ((px p - base) / h) by (field; exact N).
  replace ((px p - base - (px p - base) / h * h) * (px p - base - (px p - base) / h * h) +
    (py p - y - (px p - base) / h * 0) * (py p - y - (px p - base) / h * 0) +
    (pz p - z - (px p - base) / h * 0) * (pz p - z - (px p - base) / h * 0)) with ((py p - y) ^ 2 + (pz p - z) ^ 2) by (field; exact N).
  destruct (trc_side (px p - base) ((py p - y) ^ 2 + (pz p - z) ^ 2) base h t N P) as [S _].
  replace ((px p - (base + h)) ^ 2) with ((h - (px p - base)) ^ 2) by ring. tauto.
Qed.
Lemma trc_y x base z h t p : h <> 0 -> 0 <= t ->
  (trc (Pt x base z) (Pt 0 h 0) (Rabs h * sqrt t) 0 p <->
   0 < (py p - base) / h < 1 /\ (px p - x) ^ 2 + (pz p - z) ^ 2 < t * (py p - (base + h)) ^ 2).
Proof.
  intros N P. unfold trc, dot, sub_pt, scale_pt. cbn [px py pz].
  replace (((px p - x) * 0 + (py p - base) * h + (pz p - z) * 0) / (0 * 0 + h * h + 0 * 0)) with ((py p - base) / h) by (field; exact N).
  replace ((px p - x - (py p - base) / h * 0) * (px p - x - (py p - base) / h * 0) +
    (py p - base - (py p - base) / h * h) * (py p - base - (py p - base) / h * h) +
    (pz p - z - (py p - base) / h * 0) * (pz p - z - (py p - base) / h * 0)) with ((px p - x) ^ 2 + (pz p - z) ^ 2) by (field; exact N).
  destruct (trc_side (py p - base) ((px p - x) ^ 2 + (pz p - z) ^ 2) base h t N P) as [S _].
  replace ((py p - (base + h)) ^ 2) with ((h - (py p - base)) ^ 2) by ring. tauto.
Qed.
Lemma trc_z x y base h t p : h <> 0 -> 0 <= t ->
  (trc (Pt x y base) (Pt 0 0 h) (Rabs h * sqrt t) 0 p <->
   0 < (pz p - base) / h < 1 /\ (px p - x) ^ 2 + (py p - y) ^ 2 < t * (pz p - (base + h)) ^ 2).
Proof.
  intros N P. unfold trc, dot, sub_pt, scale_pt. cbn [px py pz].
  replace (((px p - x) * 0 + (py p - y) * 0 + (pz p - base) * h) / (0 * 0 + 0 * 0 + h * h)) with ((pz p - base) / h) by (field; exact N).
  replace ((px p - x - (pz p - base) / h * 0) * (px p - x - (pz p - base) / h * 0) +
    (py p - y - (pz p - base) / h * 0) * (py p - y - (pz p - base) / h * 0) +
    (pz p - base - (pz p - base) / h * h) * (pz p - base - (pz p - base) / h * h)) with ((px p - x) ^ 2 + (py p - y) ^ 2) by (field; exact N).
  destruct (trc_side (pz p - base) ((px p - x) ^ 2 + (py p - y) ^ 2) base h t N P) as [S _].
  replace ((pz p - (base + h)) ^ 2) with ((h - (pz p - base)) ^ 2) by ring. tauto.
Qed.
Lemma trc_flat v r1 r2 p : ~ trc v (Pt 0 0 0) r1 r2 p.
Proof. unfold trc, dot, sub_pt, scale_pt. cbn [px py pz]. intros [[A _] _]. rewrite !Rmult_0_r, !Rplus_0_r in A. unfold Rdiv in A. rewrite Rmult_0_l in A. lra. Qed.

(** Between the base and the apex, inside the box. *)
Lemma half_inside first sheet lo hi apex base h u : lo <= 0 -> half_cone_base first sheet lo hi apex = Some (base, h) -> sheet = 1 \/ sheet = -1 ->
  lo < u < hi -> base + h = apex /\ (h <> 0 -> (0 < (u - base) / h < 1 <-> sheet * (u - apex) > 0)) /\ (h = 0 -> ~ sheet * (u - apex) > 0).
Proof.
  intros L E S B. unfold half_cone_base in E. destruct S as [-> | ->].
  - destruct (Req_EM_T 1 (-1)); [lra|]. destruct (Req_EM_T 1 1); [|lra]. injection E as <- <-. split; [lra|]. split.
    + intro N. destruct (Rlt_dec (-1 * (hi - apex)) 0) as [G|G]; [rewrite ratio_neg by exact G|rewrite ratio_pos by lra]; split; intros; lra.
    + intros Z K. lra.
  - destruct (Req_EM_T (-1) (-1)); [|lra]. injection E as <- <-. rewrite Rabs_left1 by exact L. split; [lra|]. split.
    + intro N. destruct (Rlt_dec (- lo + apex) 0) as [G|G]; [rewrite ratio_neg by exact G|rewrite ratio_pos by lra]; split; intros; lra.
    + intros Z K. lra.
Qed.

(** The coordinates kept start at zero, so the box contains the origin. *)
Definition has_origin (l : list R) : Prop :=
  exists x0 x1 y0 y1 z0 z1, l = [x0; x1; y0; y1; z0; z1] /\ x0 <= 0 <= x1 /\ y0 <= 0 <= y1 /\ z0 <= 0 <= z1.
Lemma keep_low_le b x : x <= 0 -> keep_low b x <= 0.
Proof. unfold keep_low. destruct (Rlt_dec b x); lra. Qed.
Lemma keep_high_ge b x : 0 <= x -> 0 <= keep_high b x.
Proof. unfold keep_high. destruct (Rgt_dec b x); lra. Qed.
Lemma coordinates_origin l : forall bc bc', has_origin bc -> bounding_coordinates l bc = Some bc' -> has_origin bc'.
Proof.
  induction l as [|s l IH]; intros bc bc' H E; cbn [bounding_coordinates] in E.
  - injection E as <-. exact H.
  - destruct (bounding_box s) as [box|]; [|discriminate E]. destruct (grow box bc) as [b|] eqn:G; [|discriminate E].
    apply (IH b); [|exact E]. destruct H as (x0 & x1 & y0 & y1 & z0 & z1 & -> & X & Y & Z). unfold grow in G.
    destruct box as [|b0 [|b1 [|b2 [|b3 [|b4 [|b5 [|]]]]]]]; try discriminate G. injection G as <-.
    do 6 eexists. split; [reflexivity|]. repeat split; (apply keep_low_le || apply keep_high_ge); tauto.
Qed.

Lemma to_float_0dot : to_float (T "0.") = Some 0%R.
Proof. cbv -[IZR Rmult Rinv Q2R]. f_equal. unfold Q2R. cbn [Qnum Qden]. lra. Qed.

(** Where a point lies along the axis of a cone, and the part of the box along it. *)
Definition along (s : surface) (p : pt) : R := match s_type s with CONE_X => px p | CONE_Y => py p | _ => pz p end.
Definition low_of (s : surface) (bc : list R) : R := nth (match s_type s with CONE_X => 0 | CONE_Y => 2 | _ => 4 end) bc 0.
Definition high_of (s : surface) (bc : list R) : R := nth (match s_type s with CONE_X => 1 | CONE_Y => 3 | _ => 5 end) bc 0.

Lemma half_base_some first sh lo hi apex : sh = 1 \/ sh = -1 -> exists base h, half_cone_base first sh lo hi apex = Some (base, h).
Proof. intro SH. unfold half_cone_base. destruct (Req_EM_T sh (-1)); [eauto|]. destruct (Req_EM_T sh 1); [eauto|]. destruct SH; lra. Qed.

(** C43 for cones with one sheet: within the bounding coordinates of the problem the body is the negative side. *)
Theorem C43_half_cone_partial str deck bc s sn x y z t2 sh :
  (forall x, word (str x)) -> bounding_coordinates deck [0; 0; 0; 0; 0; 0] = Some bc ->
  is_cone (s_type s) = true -> s_coef s = [x; y; z; t2; sh] -> sh = 1 \/ sh = -1 -> 0 <= t2 -> surf_sense s = Some sn ->
  exists t toks vals body, write_fluka_surface str (cone_box s bc) s = Some (t, s) /\
    words t = T "TRC" :: body_name s :: toks /\ Forall2 (shows str) toks vals /\ fluka_means "TRC" vals body /\
    forall p, low_of s bc < along s p < high_of s bc -> (body p <-> neg sn p).
Proof.
  intros WS BC IC EC SH T2 E. apply coordinates_origin in BC; [|do 6 eexists; split; [reflexivity|lra]].
  destruct BC as (x0 & x1 & y0 & y1 & z0 & z1 & -> & BX & BY & BZ).
  assert (NS : sh <> 0) by (destruct SH; lra).
  destruct s as [id tr ty l b]; cbn [s_type s_coef] in *; subst l. unfold write_fluka_surface, body_name, along, low_of, high_of, cone_box. cbn [s_type s_coef s_id s_tr s_bc nth].
  destruct ty; try discriminate IC; cbn [nth]; unfold fluka_cone; (destruct (Req_EM_T sh 0) as [Z|Z]; [lra|]); clear IC.
  - destruct (half_base_some true sh x0 x1 x SH) as (base & h & HB). rewrite HB. destruct (Rlt_dec t2 0) as [K|_]; [lra|].
    eexists _, _, _, _. split; [reflexivity|]. split.
    { rewrite <- !app_assoc. eapply (head_words str _ _ _ _ (each str [base; y; z; h] ++ T "0." ++ T " " ++ T "0." ++ T " " ++ str (Rabs h * sqrt t2) ++ T " " ++ T "0.0" ++ nl)); [reflexivity..|].
      rewrite words_each_app by exact WS. 
      rewrite !words_head by (apply WS || (discriminate || reflexivity)). reflexivity. }
    split; [|split; [apply (f_trc base y z h 0 0 (Rabs h * sqrt t2) 0)|]].
    { repeat (apply Forall2_cons; [first [now left | right; (exact to_float_0dot || exact to_float_00)]|]). apply Forall2_nil. }
    cbn [surf_sense s_type s_coef] in E. apply some_eq in E. subst sn. intros p IN. cbn [neg one_sheet].
    destruct (half_inside _ sh x0 x1 x base h (px p) ltac:(tauto) HB SH IN) as (A & B & C).
    destruct (Req_EM_T h 0) as [->|NH].
    + split; [intro Q; now apply trc_flat in Q|]. intros [_ Q]. exfalso. exact (C eq_refl (Q NS)).
    + rewrite trc_x by assumption. rewrite A. unfold cone_x. rewrite (B NH). split; intros [Q1 Q2]; (split; [lra|]); [lra|exact (Q2 NS)] || lra.
  - destruct (half_base_some false sh y0 y1 y SH) as (base & h & HB). rewrite HB. destruct (Rlt_dec t2 0) as [K|_]; [lra|].
    eexists _, _, _, _. split; [reflexivity|]. split.
    { rewrite <- !app_assoc. eapply (head_words str _ _ _ _ (each str [x; base; z] ++ T "0." ++ T " " ++ str h ++ T " " ++ T "0." ++ T " " ++ str (Rabs h * sqrt t2) ++ T " " ++ T "0.0" ++ nl)); [reflexivity..|].
      rewrite words_each_app by exact WS. 
      rewrite !words_head by (apply WS || (discriminate || reflexivity)). reflexivity. }
    split; [|split; [apply (f_trc x base z 0 h 0 (Rabs h * sqrt t2) 0)|]].
    { repeat (apply Forall2_cons; [first [now left | right; (exact to_float_0dot || exact to_float_00)]|]). apply Forall2_nil. }
    cbn [surf_sense s_type s_coef] in E. apply some_eq in E. subst sn. intros p IN. cbn [neg one_sheet].
    destruct (half_inside _ sh y0 y1 y base h (py p) ltac:(tauto) HB SH IN) as (A & B & C).
    destruct (Req_EM_T h 0) as [->|NH].
    + split; [intro Q; now apply trc_flat in Q|]. intros [_ Q]. exfalso. exact (C eq_refl (Q NS)).
    + rewrite trc_y by assumption. rewrite A. unfold cone_y. rewrite (B NH). split; intros [Q1 Q2]; (split; [lra|]); [lra|exact (Q2 NS)] || lra.
  - destruct (half_base_some false sh z0 z1 z SH) as (base & h & HB). rewrite HB. destruct (Rlt_dec t2 0) as [K|_]; [lra|].
    eexists _, _, _, _. split; [reflexivity|]. split.
    { rewrite <- !app_assoc. eapply (head_words str _ _ _ _ (each str [x; y; base] ++ T "0." ++ T " " ++ T "0." ++ T " " ++ str h ++ T " " ++ str (Rabs h * sqrt t2) ++ T " " ++ T "0.0" ++ nl)); [reflexivity..|].
      rewrite words_each_app by exact WS. 
      rewrite !words_head by (apply WS || (discriminate || reflexivity)). reflexivity. }
    split; [|split; [apply (f_trc x y base 0 0 h (Rabs h * sqrt t2) 0)|]].
    { repeat (apply Forall2_cons; [first [now left | right; (exact to_float_0dot || exact to_float_00)]|]). apply Forall2_nil. }
    cbn [surf_sense s_type s_coef] in E. apply some_eq in E. subst sn. intros p IN. cbn [neg one_sheet].
    destruct (half_inside _ sh z0 z1 z base h (pz p) ltac:(tauto) HB SH IN) as (A & B & C).
    destruct (Req_EM_T h 0) as [->|NH].
    + split; [intro Q; now apply trc_flat in Q|]. intros [_ Q]. exfalso. exact (C eq_refl (Q NS)).
    + rewrite trc_z by assumption. rewrite A. unfold cone_z. rewrite (B NH). split; intros [Q1 Q2]; (split; [lra|]); [lra|exact (Q2 NS)] || lra.
Qed.
Print Assumptions C43_half_cone_partial.

Ltac boxes :=
  repeat match goal with
  | |- context [Rlt_dec ?a ?b] => lazymatch a with context [Rlt_dec _ _] => fail | _ => lazymatch b with context [Rlt_dec _ _] => fail | _ => destruct (Rlt_dec a b); try lra end end
  | |- context [Rgt_dec ?a ?b] => lazymatch a with context [Rgt_dec _ _] => fail | _ => lazymatch b with context [Rgt_dec _ _] => fail | _ => destruct (Rgt_dec a b); try lra end end
  end; try lra.
Definition cone_deck : list surface := [mkS 1 None SPHERE_GENERAL [0; 0; 5; 45] TRANSMISSION; mkS 7 None CONE_Z [0; 0; 1; 1; 1] TRANSMISSION].
Example half_cone_ex : exists bc sn, bounding_coordinates cone_deck [0; 0; 0; 0; 0; 0] = Some bc /\
  surf_sense (mkS 7 None CONE_Z [0; 0; 1; 1; 1] TRANSMISSION) = Some sn /\ neg sn (Pt 0 0 3) /\
  low_of (mkS 7 None CONE_Z [0; 0; 1; 1; 1] TRANSMISSION) bc < 3 < high_of (mkS 7 None CONE_Z [0; 0; 1; 1; 1] TRANSMISSION) bc.
Proof.
  eexists _, _. split; [reflexivity|]. split; [reflexivity|]. split.
  - cbn [neg one_sheet]. unfold cone_z. cbn [px py pz]. split; [lra|intros; lra].
  - unfold low_of, high_of. cbn [s_type nth]. unfold keep_low, keep_high.
    boxes.
Qed.

Ltac strx_is v w := let H := fresh in assert (H : v = w) by lra; rewrite H; clear H.

(** C43 is false for whole cones: the quadric written has the wrong sign and, here, is empty. *)
Theorem C43_whole_cone_refuted : exists str box s sn t s',
  (forall x, word (str x)) /\ surf_sense s = Some sn /\ write_fluka_surface str box s = Some (t, s') /\
  forall ty toks vals body, words t = T ty :: body_name s :: toks -> Forall2 (shows str) toks vals -> fluka_means ty vals body ->
    exists p, neg sn p /\ ~ body p.
Proof.
  exists strx, [0; 0; 0; 0; 0; 0], (mkS 7 None CONE_Z [0; 0; 0; 1; 0] TRANSMISSION). eexists.
  exists (T "QUA S7 1.0  1.0  1.0  0.0  0.0  0.0  0.0  0.0  0.0  0.0 " ++ nl). eexists.
  split; [apply strx_word|]. split; [reflexivity|]. split.
  { unfold write_fluka_surface, fluka_cone. cbn [s_type s_coef s_id]. destruct (Req_EM_T 0 0) as [_|]; [|lra]. unfold fluka_gq, cone_coefficients. cbn [flat_map].
    strx_is (-2 * 0) 0. strx_is (-2 * 1 * 0) 0. strx_is (0 ^ 2 + 0 ^ 2 + 1 * 0 ^ 2) 0. rewrite strx_0, strx_1. reflexivity. }
  intros ty toks vals body W F M.
  change (words (T "QUA S7 1.0  1.0  1.0  0.0  0.0  0.0  0.0  0.0  0.0  0.0 " ++ nl)) with
    (T "QUA" :: T "S7" :: repeat (T "1.0") 3 ++ repeat (T "0.0") 7) in W. injection W as Ety Etoks.
  apply (text_string "QUA") in Ety. subst ty. rewrite <- Etoks in F. apply strx_reads in F; [|vm_compute; intuition discriminate].
  cbn [repeat app] in F. unfold PropSurf.reads in F. inversion M; subst. repeat match goal with H : Forall2 _ (_ :: _) (_ :: _) |- _ => inversion H; clear H; subst end.
  repeat read_as to_float_00. repeat read_as to_float_10.
  exists (Pt 0 0 1). cbn [neg one_sheet px py pz]. split; [|lra]. unfold cone_z. cbn [px py pz]. split; [lra|]. intro K. exfalso. now apply K.
Qed.
Print Assumptions C43_whole_cone_refuted.

Lemma gq_words str id a b c d e f g h j k : (forall x, word (str x)) -> exists t, fluka_gq str id [a; b; c; d; e; f; g; h; j; k] = Some t /\
  words t = T "QUA" :: (T "S" ++ str_Z id) :: map str [a; b; c; d; f; e; g; h; j; k].
Proof.
  intro WS. unfold fluka_gq. eexists. split; [reflexivity|].
  refine (eq_trans (fluka_head "Q" "U" "A" id (((str a ++ T " ") ++ flat_map (fun x : R => T " " ++ str x ++ T " ") [b; c; d; f; e; g; h; j; k]) ++ nl) eq_refl eq_refl eq_refl) _).
  rewrite <- !app_assoc. rewrite words_head by apply WS. rewrite words_sep by (rewrite orb_true_iff; right; reflexivity). rewrite words_padded by exact WS. reflexivity.
Qed.

(** What is written for every whole cone: the term along the axis is added instead of subtracted, so no point is inside. *)
Theorem C43_whole_cones str box s x y z t2 : (forall x, word (str x)) -> length box = 6%nat -> is_cone (s_type s) = true -> s_coef s = [x; y; z; t2; 0] ->
  exists t s' toks vals body, write_fluka_surface str box s = Some (t, s') /\
    words t = T "QUA" :: body_name s :: toks /\ Forall2 (shows str) toks vals /\ fluka_means "QUA" vals body /\
    (forall p, body p <-> match s_type s with
       | CONE_X => t2 * (px p - x) ^ 2 + (py p - y) ^ 2 + (pz p - z) ^ 2 < 0
       | CONE_Y => (px p - x) ^ 2 + t2 * (py p - y) ^ 2 + (pz p - z) ^ 2 < 0
       | _ => (px p - x) ^ 2 + (py p - y) ^ 2 + t2 * (pz p - z) ^ 2 < 0
       end) /\ (0 <= t2 -> forall p, ~ body p).
Proof.
  intros WS LB IC EC. destruct box as [|x0 [|x1 [|y0 [|y1 [|z0 [|z1 [|? ?]]]]]]]; try discriminate LB. clear LB.
  destruct s as [id tr ty l bc]. cbn [s_type s_coef] in *. subst l. unfold write_fluka_surface, fluka_cone, body_name. cbn [s_type s_coef s_id s_tr s_bc].
  assert (SQ : forall a : R, 0 <= a ^ 2) by (intro a; replace (a ^ 2) with (Rsqr a) by (unfold Rsqr; ring); apply Rle_0_sqr).
  assert (M : forall a, 0 <= t2 -> 0 <= t2 * a ^ 2) by (intros a H; apply Rmult_le_pos; [exact H|apply SQ]).
  destruct ty; try discriminate IC; (destruct (Req_EM_T 0 0) as [_|]; [|lra]); unfold cone_coefficients;
    (match goal with |- context [fluka_gq str id [?a; ?b; ?c; ?d; ?e; ?f; ?g; ?h; ?j; ?k]] =>
       destruct (gq_words str id a b c d e f g h j k WS) as (t & -> & W); cbn [option_map];
       eexists t, _, _, [a; b; c; d; f; e; g; h; j; k], _; split; [reflexivity|]; split; [exact W|]; split; [apply (shows_map str [a; b; c; d; f; e; g; h; j; k])|]; split; [apply f_qua|] end);
    (split; [intro p; split; intro K; nra|intros T0 p K; assert (A1 := M (px p - x) T0); assert (A2 := M (py p - y) T0); assert (A3 := M (pz p - z) T0);
       assert (B1 := SQ (px p - x)); assert (B2 := SQ (py p - y)); assert (B3 := SQ (pz p - z)); nra]).
Qed.
Print Assumptions C43_whole_cones.

Example whole_cone_ex : (forall x, word (strx x)) /\ is_cone CONE_X = true /\ exists sn, surf_sense (mkS 7 None CONE_X [2; 3; 1; 1; 0] TRANSMISSION) = Some sn /\ neg sn (Pt 4 3 1).
Proof. split; [apply strx_word|]. split; [reflexivity|]. eexists. split; [reflexivity|]. cbn [neg one_sheet]. unfold cone_x. cbn [px py pz]. split; [lra|]. intro K. exfalso. now apply K. Qed.

(** C43 is false for tori: no body is written. *)
Theorem C43_torus_refuted : exists str box s sn t s',
  (forall x, word (str x)) /\ surf_sense s = Some sn /\ write_fluka_surface str box s = Some (t, s') /\
  (exists p, neg sn p) /\ forall ty toks vals body, words t = T ty :: toks -> ~ fluka_means ty vals body.
Proof.
  exists strx, [0; 0; 0; 0; 0; 0], (mkS 7 None TORUS_Z [0; 0; 0; 45; 1; 1] TRANSMISSION). eexists.
  exists (T "* Surface TORUS_Z not supported" ++ nl). eexists.
  split; [apply strx_word|]. split; [reflexivity|]. split; [reflexivity|]. split.
  { exists (Pt 45 0 0). cbn [neg of_fun]. unfold torus_z, torus. cbn [px py pz].
    replace ((45 - 0) ^ 2 + (0 - 0) ^ 2) with (45 * 45) by ring. rewrite sqrt_square by lra. lra. }
  intros ty toks vals body W M. change (words (T "* Surface TORUS_Z not supported" ++ nl)) with [T "*"; T "Surface"; T "TORUS_Z"; T "not"; T "supported"] in W.
  injection W as Ety _. apply (text_string "*") in Ety. subst ty. inversion M.
Qed.
Print Assumptions C43_torus_refuted.

(** C43 is false for half cones outside the bounding coordinates: the cone is cut there. *)
Theorem C43_half_cone_refuted : exists deck bc s str sn t,
  (forall x, word (str x)) /\ In s deck /\ bounding_coordinates deck [0; 0; 0; 0; 0; 0] = Some bc /\ surf_sense s = Some sn /\
  write_fluka_surface str (cone_box s bc) s = Some (t, s) /\
  forall ty toks vals body, words t = T ty :: body_name s :: toks -> Forall2 (shows str) toks vals -> fluka_means ty vals body ->
    exists p, neg sn p /\ ~ body p.
Proof.
  exists [mkS 1 None SPHERE_GENERAL [0; 0; 0; 10000000000] TRANSMISSION; half_cone]. eexists. exists half_cone, strx. eexists.
  exists (T "TRC S7 0.0 0.0 10000000000.0 0. 0. -10000000000.0 10000000000.0 0.0" ++ nl).
  split; [apply strx_word|]. split; [right; now left|]. split; [reflexivity|]. split; [reflexivity|]. split.
  { unfold cone_box. cbn [half_cone s_type]. unfold write_fluka_surface, fluka_cone, half_cone. cbn [s_type s_coef s_id s_tr s_bc].
    match goal with |- context [half_cone_base false 1 ?a ?b 0] => assert (E : b = 10000000000) by (unfold keep_high; boxes) end.
    rewrite E. unfold half_cone_base. destruct (Req_EM_T 1 0); [lra|]. destruct (Req_EM_T 1 (-1)); [lra|]. destruct (Req_EM_T 1 1) as [_|]; [|lra].
    destruct (Rlt_dec 1 0); [lra|]. strx_is (-1 * (10000000000 - 0)) (-10000000000). rewrite sqrt_1, Rabs_left, Rmult_1_r by lra. strx_is (- -10000000000) 10000000000.
    unfold each. cbn [flat_map]. destruct strx_far as [F1 F2]. rewrite F1, F2, strx_0. reflexivity. }
  intros ty toks vals body W F M.
  change (words (T "TRC S7 0.0 0.0 10000000000.0 0. 0. -10000000000.0 10000000000.0 0.0" ++ nl)) with
    [T "TRC"; T "S7"; T "0.0"; T "0.0"; T "10000000000.0"; T "0."; T "0."; T "-10000000000.0"; T "10000000000.0"; T "0.0"] in W. injection W as Ety Etoks.
  apply (text_string "TRC") in Ety. subst ty. rewrite <- Etoks in F. apply strx_reads in F; [|vm_compute; intuition discriminate].
  unfold PropSurf.reads in F. inversion M; subst. repeat match goal with H : Forall2 _ (_ :: _) (_ :: _) |- _ => inversion H; clear H; subst end.
  assert (FP : to_float (T "10000000000.0") = Some 10000000000) by (eapply to_float_lit; [vm_compute; reflexivity|unfold Q2R; cbn [Qnum Qden]; lra]).
  assert (FN : to_float (T "-10000000000.0") = Some (-10000000000)) by (eapply to_float_lit; [vm_compute; reflexivity|unfold Q2R; cbn [Qnum Qden]; lra]).
  repeat read_as to_float_00. repeat read_as to_float_0dot. repeat read_as FP. repeat read_as FN.
  exists (Pt 0 0 20000000000). cbn [neg one_sheet half_cone]. unfold cone_z, trc, dot, sub_pt, scale_pt. cbn [px py pz]. split; [split; [lra|intros; lra]|].
  intros [[A _] _]. lra.
Qed.
Print Assumptions C43_half_cone_refuted.
