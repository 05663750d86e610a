(** Lemmas about macrobodies. *)
From Coq Require Import Reals List Lra Psatz.
From Verif Require Import PyStr PyInt GeomSpec SurfModel SurfSpec SurfProofs MacroModel MacroSpec.
Import ListNotations.
Open Scope R_scope.

(** All the given surfaces have the point on their negative side. *)
Definition all_neg (l : list surface) (p : pt) : Prop :=
  Forall (fun s => exists sn, surf_sense s = Some sn /\ neg sn p) l.

Lemma all_neg_nil p : all_neg [] p <-> True.
Proof. split; [auto|constructor]. Qed.

Lemma all_neg_cons s l p sn : surf_sense s = Some sn -> (all_neg (s :: l) p <-> neg sn p /\ all_neg l p).
Proof.
  intros E. unfold all_neg. split.
  - intros H. inversion H as [|? ? (sn' & E' & N) F]; subst. rewrite E in E'. injection E' as <-. auto.
  - intros [N F]. constructor; [eauto|exact F].
Qed.

(** None of the given surfaces has the point on its positive side. *)
Definition none_pos (l : list surface) (p : pt) : Prop :=
  Forall (fun s => exists sn, surf_sense s = Some sn /\ ~ pos sn p) l.

Lemma none_pos_nil p : none_pos [] p <-> True.
Proof. split; [auto|constructor]. Qed.

Lemma none_pos_cons s l p sn : surf_sense s = Some sn -> (none_pos (s :: l) p <-> ~ pos sn p /\ none_pos l p).
Proof.
  intros E. unfold none_pos. split.
  - intros H. inversion H as [|? ? (sn' & E' & N) F]; subst. rewrite E in E'. injection E' as <-. auto.
  - intros [N F]. constructor; [eauto|exact F].
Qed.

Lemma new_plane_sense n a b c d : surf_sense (new_plane n a b c d) = Some (of_fun (plane a b c d)).
Proof. reflexivity. Qed.

Lemma rpp_inside n x0 x1 y0 y1 z0 z1 p :
  all_neg (x_surfs (explode_rpp n x0 x1 y0 y1 z0 z1)) p <-> in_rpp x0 x1 y0 y1 z0 z1 p.
Proof.
  unfold explode_rpp. cbn [x_surfs].
  repeat (erewrite all_neg_cons by reflexivity). rewrite all_neg_nil.
  unfold in_rpp, of_fun, plane. cbn [neg]. destruct p as [x y z]; cbn [px py pz]. split; intros; lra.
Qed.

Lemma rpp_inside_closed n x0 x1 y0 y1 z0 z1 p :
  none_pos (x_surfs (explode_rpp n x0 x1 y0 y1 z0 z1)) p <-> closed_rpp x0 x1 y0 y1 z0 z1 p.
Proof.
  unfold explode_rpp. cbn [x_surfs].
  repeat (erewrite none_pos_cons by reflexivity). rewrite none_pos_nil.
  unfold closed_rpp, of_fun, plane. cbn [pos]. destruct p as [x y z]; cbn [px py pz]. split; intros; lra.
Qed.

Lemma norm3_sq x y z : norm3 x y z * norm3 x y z = x ^ 2 + y ^ 2 + z ^ 2.
Proof. unfold norm3. apply sqrt_sqrt. nra. Qed.

Lemma norm3_pos x y z : (x, y, z) <> (0, 0, 0) -> 0 < norm3 x y z.
Proof.
  intros N. unfold norm3. apply sqrt_lt_R0.
  destruct (Req_EM_T x 0) as [->|]; [destruct (Req_EM_T y 0) as [->|]; [destruct (Req_EM_T z 0) as [->|]|]|];
    try congruence; nra.
Qed.

Lemma pos_scale k a : 0 < k -> (k * a < 0 <-> a < 0).
Proof. intros; split; nra. Qed.

Lemma pos_scale_closed k a : 0 < k -> (~ k * a > 0 <-> a <= 0).
Proof. intros; split; nra. Qed.

(** The two planes of one edge. *)
Lemma edge_planes o0 o1 o2 x0 x1 x2 p :
  (x0, x1, x2) <> (0, 0, 0) ->
  let m := norm3 x0 x1 x2 in
  let e0 := x0 / m in let e1 := x1 / m in let e2 := x2 / m in
  let q := dot (sub_pt p (Pt o0 o1 o2)) (Pt x0 x1 x2) in
  (plane e0 e1 e2 (e0 * (o0 + x0) + e1 * (o1 + x1) + e2 * (o2 + x2)) p
     = / m * (q - (x0 ^ 2 + x1 ^ 2 + x2 ^ 2))) /\
  (plane (-1 * e0) (-1 * e1) (-1 * e2) (-1 * (e0 * o0 + e1 * o1 + e2 * o2)) p = / m * - q).
Proof.
  intros N m e0 e1 e2 q. pose proof (norm3_pos _ _ _ N) as P. fold m in P.
  unfold q, e0, e1, e2, plane, dot, sub_pt. destruct p as [x y z]. cbn [px py pz].
  split; field; lra.
Qed.

(** An orthogonal frame spans space. *)
Lemma frame_span a b c w :
  dot a b = 0 -> dot a c = 0 -> dot b c = 0 -> 0 < dot a a -> 0 < dot b b -> 0 < dot c c ->
  dot w a = 0 -> dot w b = 0 -> dot w c = 0 -> w = Pt 0 0 0.
Proof.
  destruct a as [a1 a2 a3], b as [b1 b2 b3], c as [c1 c2 c3], w as [w1 w2 w3].
  unfold dot. cbn [px py pz]. intros AB AC BC A B C WA WB WC.
  set (D := a1 * (b2 * c3 - b3 * c2) - a2 * (b1 * c3 - b3 * c1) + a3 * (b1 * c2 - b2 * c1)).
  assert (D2 : D * D = (a1 * a1 + a2 * a2 + a3 * a3) * (b1 * b1 + b2 * b2 + b3 * b3) * (c1 * c1 + c2 * c2 + c3 * c3)).
  { set (aa := a1 * a1 + a2 * a2 + a3 * a3) in *. set (bb := b1 * b1 + b2 * b2 + b3 * b3) in *.
    set (cc := c1 * c1 + c2 * c2 + c3 * c3) in *.
    transitivity (aa * bb * cc + 2 * (a1 * b1 + a2 * b2 + a3 * b3) * (a1 * c1 + a2 * c2 + a3 * c3) * (b1 * c1 + b2 * c2 + b3 * c3)
      - aa * (b1 * c1 + b2 * c2 + b3 * c3) ^ 2 - bb * (a1 * c1 + a2 * c2 + a3 * c3) ^ 2 - cc * (a1 * b1 + a2 * b2 + a3 * b3) ^ 2).
    - unfold D, aa, bb, cc. ring.
    - rewrite AB, AC, BC. ring. }
  assert (DN : D <> 0).
  { intros Z. rewrite Z in D2. assert (0 < (a1 * a1 + a2 * a2 + a3 * a3) * (b1 * b1 + b2 * b2 + b3 * b3)) by nra. nra. }
  assert (W1 : w1 * D = 0).
  { replace (w1 * D) with ((w1 * a1 + w2 * a2 + w3 * a3) * (b2 * c3 - b3 * c2) + (w1 * b1 + w2 * b2 + w3 * b3) * (c2 * a3 - c3 * a2)
      + (w1 * c1 + w2 * c2 + w3 * c3) * (a2 * b3 - a3 * b2)) by (unfold D; ring). rewrite WA, WB, WC. ring. }
  assert (W2 : w2 * D = 0).
  { replace (w2 * D) with ((w1 * a1 + w2 * a2 + w3 * a3) * (b3 * c1 - b1 * c3) + (w1 * b1 + w2 * b2 + w3 * b3) * (c3 * a1 - c1 * a3)
      + (w1 * c1 + w2 * c2 + w3 * c3) * (a3 * b1 - a1 * b3)) by (unfold D; ring). rewrite WA, WB, WC. ring. }
  assert (W3 : w3 * D = 0).
  { replace (w3 * D) with ((w1 * a1 + w2 * a2 + w3 * a3) * (b1 * c2 - b2 * c1) + (w1 * b1 + w2 * b2 + w3 * b3) * (c1 * a2 - c2 * a1)
      + (w1 * c1 + w2 * c2 + w3 * c3) * (a1 * b2 - a2 * b1)) by (unfold D; ring). rewrite WA, WB, WC. ring. }
  apply Rmult_integral in W1, W2, W3. f_equal; tauto.
Qed.

Lemma dot_pos x y z : (x, y, z) <> (0, 0, 0) -> 0 < x ^ 2 + y ^ 2 + z ^ 2.
Proof.
  intros N. destruct (Req_EM_T x 0) as [->|]; [destruct (Req_EM_T y 0) as [->|]; [destruct (Req_EM_T z 0) as [->|]|]|];
    try congruence; nra.
Qed.

Definition orthogonal (a b c : pt) : Prop := dot a b = 0 /\ dot a c = 0 /\ dot b c = 0.
Definition nonzero (a : pt) : Prop := (px a, py a, pz a) <> (0, 0, 0).

Lemma box_slabs v a b c p :
  orthogonal a b c -> nonzero a -> nonzero b -> nonzero c ->
  (in_box v a b c p <->
   0 < dot (sub_pt p v) a < dot a a /\ 0 < dot (sub_pt p v) b < dot b b /\ 0 < dot (sub_pt p v) c < dot c c).
Proof.
  intros (AB & AC & BC) NA NB NC.
  assert (PA : 0 < dot a a) by (pose proof (dot_pos _ _ _ NA); unfold dot; nra).
  assert (PB : 0 < dot b b) by (pose proof (dot_pos _ _ _ NB); unfold dot; nra).
  assert (PC : 0 < dot c c) by (pose proof (dot_pos _ _ _ NC); unfold dot; nra).
  split.
  - intros (s & t & u & S & U & V & ->).
    assert (EA : dot (sub_pt (add_pt v (add_pt (scale_pt s a) (add_pt (scale_pt t b) (scale_pt u c)))) v) a = s * dot a a + t * dot a b + u * dot a c)
      by (unfold dot, sub_pt, add_pt, scale_pt; cbn [px py pz]; ring).
    assert (EB : dot (sub_pt (add_pt v (add_pt (scale_pt s a) (add_pt (scale_pt t b) (scale_pt u c)))) v) b = s * dot a b + t * dot b b + u * dot b c)
      by (unfold dot, sub_pt, add_pt, scale_pt; cbn [px py pz]; ring).
    assert (EC : dot (sub_pt (add_pt v (add_pt (scale_pt s a) (add_pt (scale_pt t b) (scale_pt u c)))) v) c = s * dot a c + t * dot b c + u * dot c c)
      by (unfold dot, sub_pt, add_pt, scale_pt; cbn [px py pz]; ring).
    rewrite EA, EB, EC, AB, AC, BC. nra.
  - intros (S & U & V).
    set (q := sub_pt p v) in *.
    exists (dot q a / dot a a), (dot q b / dot b b), (dot q c / dot c c).
    assert (I : forall x y, 0 < x < y -> 0 < x / y < 1).
    { intros x y [H1 H2]. split; [apply Rdiv_lt_0_compat; lra|]. apply (Rmult_lt_reg_r y); [lra|].
      replace (x / y * y) with x by (field; lra). lra. }
    split; [auto|split; [auto|split; [auto|]]].
    set (w := sub_pt q (add_pt (scale_pt (dot q a / dot a a) a) (add_pt (scale_pt (dot q b / dot b b) b) (scale_pt (dot q c / dot c c) c)))).
    assert (W : w = Pt 0 0 0).
    { apply (frame_span a b c); auto.
      - transitivity (dot q a - (dot q a / dot a a) * dot a a - (dot q b / dot b b) * dot a b - (dot q c / dot c c) * dot a c).
        + unfold w. generalize (dot q a / dot a a), (dot q b / dot b b), (dot q c / dot c c). intros.
          unfold dot, sub_pt, add_pt, scale_pt; cbn [px py pz]. ring.
        + rewrite AB, AC. field. split; [lra|split; lra].
      - transitivity (dot q b - (dot q a / dot a a) * dot a b - (dot q b / dot b b) * dot b b - (dot q c / dot c c) * dot b c).
        + unfold w. generalize (dot q a / dot a a), (dot q b / dot b b), (dot q c / dot c c). intros.
          unfold dot, sub_pt, add_pt, scale_pt; cbn [px py pz]. ring.
        + rewrite AB, BC. field. split; [lra|split; lra].
      - transitivity (dot q c - (dot q a / dot a a) * dot a c - (dot q b / dot b b) * dot b c - (dot q c / dot c c) * dot c c).
        + unfold w. generalize (dot q a / dot a a), (dot q b / dot b b), (dot q c / dot c c). intros.
          unfold dot, sub_pt, add_pt, scale_pt; cbn [px py pz]. ring.
        + rewrite AC, BC. field. split; [lra|split; lra]. }
    revert W. unfold w, q. generalize (dot (sub_pt p v) a / dot a a), (dot (sub_pt p v) b / dot b b), (dot (sub_pt p v) c / dot c c).
    intros k1 k2 k3 W. destruct p as [p1 p2 p3], v as [v1 v2 v3]. unfold sub_pt, add_pt, scale_pt in *. cbn [px py pz] in *.
    injection W as W1 W2 W3. f_equal; lra.
Qed.

Lemma box_inside n v a b c p :
  orthogonal a b c -> nonzero a -> nonzero b -> nonzero c ->
  (all_neg (x_surfs (explode_box n (px v) (py v) (pz v) (px a) (py a) (pz a) (px b) (py b) (pz b) (px c) (py c) (pz c))) p
   <-> in_box v a b c p).
Proof.
  intros O NA NB NC. rewrite (box_slabs v a b c p O NA NB NC).
  unfold explode_box. cbn [x_surfs app].
  repeat (erewrite all_neg_cons by reflexivity). rewrite all_neg_nil.
  unfold of_fun. cbn [neg].
  destruct (edge_planes (px v) (py v) (pz v) (px a) (py a) (pz a) p NA) as [A1 A2].
  destruct (edge_planes (px v) (py v) (pz v) (px b) (py b) (pz b) p NB) as [B1 B2].
  destruct (edge_planes (px v) (py v) (pz v) (px c) (py c) (pz c) p NC) as [C1 C2].
  rewrite A1, A2, B1, B2, C1, C2.
  rewrite !pos_scale by (apply Rinv_0_lt_compat, norm3_pos; assumption).
  replace (Pt (px v) (py v) (pz v)) with v by (destruct v; reflexivity).
  replace (Pt (px a) (py a) (pz a)) with a by (destruct a; reflexivity).
  replace (Pt (px b) (py b) (pz b)) with b by (destruct b; reflexivity).
  replace (Pt (px c) (py c) (pz c)) with c by (destruct c; reflexivity).
  replace (px a ^ 2 + py a ^ 2 + pz a ^ 2) with (dot a a) by (unfold dot; ring).
  replace (px b ^ 2 + py b ^ 2 + pz b ^ 2) with (dot b b) by (unfold dot; ring).
  replace (px c ^ 2 + py c ^ 2 + pz c ^ 2) with (dot c c) by (unfold dot; ring).
  split; intros; lra.
Qed.

Lemma box_slabs_closed v a b c p :
  orthogonal a b c -> nonzero a -> nonzero b -> nonzero c ->
  (closed_box v a b c p <->
   0 <= dot (sub_pt p v) a <= dot a a /\ 0 <= dot (sub_pt p v) b <= dot b b /\ 0 <= dot (sub_pt p v) c <= dot c c).
Proof.
  intros (AB & AC & BC) NA NB NC.
  assert (PA : 0 < dot a a) by (pose proof (dot_pos _ _ _ NA); unfold dot; nra).
  assert (PB : 0 < dot b b) by (pose proof (dot_pos _ _ _ NB); unfold dot; nra).
  assert (PC : 0 < dot c c) by (pose proof (dot_pos _ _ _ NC); unfold dot; nra).
  split.
  - intros (s & t & u & S & U & V & ->).
    assert (EA : dot (sub_pt (add_pt v (add_pt (scale_pt s a) (add_pt (scale_pt t b) (scale_pt u c)))) v) a = s * dot a a + t * dot a b + u * dot a c)
      by (unfold dot, sub_pt, add_pt, scale_pt; cbn [px py pz]; ring).
    assert (EB : dot (sub_pt (add_pt v (add_pt (scale_pt s a) (add_pt (scale_pt t b) (scale_pt u c)))) v) b = s * dot a b + t * dot b b + u * dot b c)
      by (unfold dot, sub_pt, add_pt, scale_pt; cbn [px py pz]; ring).
    assert (EC : dot (sub_pt (add_pt v (add_pt (scale_pt s a) (add_pt (scale_pt t b) (scale_pt u c)))) v) c = s * dot a c + t * dot b c + u * dot c c)
      by (unfold dot, sub_pt, add_pt, scale_pt; cbn [px py pz]; ring).
    rewrite EA, EB, EC, AB, AC, BC. nra.
  - intros (S & U & V).
    set (q := sub_pt p v) in *.
    exists (dot q a / dot a a), (dot q b / dot b b), (dot q c / dot c c).
    assert (I : forall x y, 0 < y -> 0 <= x <= y -> 0 <= x / y <= 1).
    { intros x y Y [H1 H2]. split; apply (Rmult_le_reg_r y); try lra;
      replace (x / y * y) with x by (field; lra); lra. }
    split; [auto|split; [auto|split; [auto|]]].
    set (w := sub_pt q (add_pt (scale_pt (dot q a / dot a a) a) (add_pt (scale_pt (dot q b / dot b b) b) (scale_pt (dot q c / dot c c) c)))).
    assert (W : w = Pt 0 0 0).
    { apply (frame_span a b c); auto.
      - transitivity (dot q a - (dot q a / dot a a) * dot a a - (dot q b / dot b b) * dot a b - (dot q c / dot c c) * dot a c).
        + unfold w. generalize (dot q a / dot a a), (dot q b / dot b b), (dot q c / dot c c). intros.
          unfold dot, sub_pt, add_pt, scale_pt; cbn [px py pz]. ring.
        + rewrite AB, AC. field. split; [lra|split; lra].
      - transitivity (dot q b - (dot q a / dot a a) * dot a b - (dot q b / dot b b) * dot b b - (dot q c / dot c c) * dot b c).
        + unfold w. generalize (dot q a / dot a a), (dot q b / dot b b), (dot q c / dot c c). intros.
          unfold dot, sub_pt, add_pt, scale_pt; cbn [px py pz]. ring.
        + rewrite AB, BC. field. split; [lra|split; lra].
      - transitivity (dot q c - (dot q a / dot a a) * dot a c - (dot q b / dot b b) * dot b c - (dot q c / dot c c) * dot c c).
        + unfold w. generalize (dot q a / dot a a), (dot q b / dot b b), (dot q c / dot c c). intros.
          unfold dot, sub_pt, add_pt, scale_pt; cbn [px py pz]. ring.
        + rewrite AC, BC. field. split; [lra|split; lra]. }
    revert W. unfold w, q. generalize (dot (sub_pt p v) a / dot a a), (dot (sub_pt p v) b / dot b b), (dot (sub_pt p v) c / dot c c).
    intros k1 k2 k3 W. destruct p as [p1 p2 p3], v as [v1 v2 v3]. unfold sub_pt, add_pt, scale_pt in *. cbn [px py pz] in *.
    injection W as W1 W2 W3. f_equal; lra.
Qed.

Lemma box_inside_closed n v a b c p :
  orthogonal a b c -> nonzero a -> nonzero b -> nonzero c ->
  (none_pos (x_surfs (explode_box n (px v) (py v) (pz v) (px a) (py a) (pz a) (px b) (py b) (pz b) (px c) (py c) (pz c))) p
   <-> closed_box v a b c p).
Proof.
  intros O NA NB NC. rewrite (box_slabs_closed v a b c p O NA NB NC).
  unfold explode_box. cbn [x_surfs app].
  repeat (erewrite none_pos_cons by reflexivity). rewrite none_pos_nil.
  unfold of_fun. cbn [pos].
  destruct (edge_planes (px v) (py v) (pz v) (px a) (py a) (pz a) p NA) as [A1 A2].
  destruct (edge_planes (px v) (py v) (pz v) (px b) (py b) (pz b) p NB) as [B1 B2].
  destruct (edge_planes (px v) (py v) (pz v) (px c) (py c) (pz c) p NC) as [C1 C2].
  rewrite A1, A2, B1, B2, C1, C2.
  rewrite !pos_scale_closed by (apply Rinv_0_lt_compat, norm3_pos; assumption).
  replace (Pt (px v) (py v) (pz v)) with v by (destruct v; reflexivity).
  replace (Pt (px a) (py a) (pz a)) with a by (destruct a; reflexivity).
  replace (Pt (px b) (py b) (pz b)) with b by (destruct b; reflexivity).
  replace (Pt (px c) (py c) (pz c)) with c by (destruct c; reflexivity).
  replace (px a ^ 2 + py a ^ 2 + pz a ^ 2) with (dot a a) by (unfold dot; ring).
  replace (px b ^ 2 + py b ^ 2 + pz b ^ 2) with (dot b b) by (unfold dot; ring).
  replace (px c ^ 2 + py c ^ 2 + pz c ^ 2) with (dot c c) by (unfold dot; ring).
  split; intros; lra.
Qed.

(** The quadric of an RCC. *)
Lemma rcc_quadric c0 c1 c2 v0 v1 v2 c6 p :
  (v0, v1, v2) <> (0, 0, 0) ->
  let w := norm3 v0 v1 v2 in
  let a0 := v0 / w in let a1 := v1 / w in let a2 := v2 / w in
  let g0 := 1 - a0 ^ 2 in let g1 := 1 - a1 ^ 2 in let g2 := 1 - a2 ^ 2 in
  let g3 := -2 * a0 * a1 in let g4 := -2 * a1 * a2 in let g5 := -2 * a0 * a2 in
  let g6 := - c1 * g3 - c2 * g5 - 2 * c0 * g0 in
  let g7 := - c0 * g3 - c2 * g4 - 2 * c1 * g1 in
  let g8 := - c0 * g5 - c1 * g4 - 2 * c2 * g2 in
  let g9 := c0 * c1 * g3 + c1 * c2 * g4 + c0 * c2 * g5 + c0 ^ 2 * g0 + c1 ^ 2 * g1 + c2 ^ 2 * g2 - c6 ^ 2 in
  let q := sub_pt p (Pt c0 c1 c2) in let h := Pt v0 v1 v2 in
  quadric g0 g1 g2 g3 g4 g5 g6 g7 g8 g9 p = dot q q - (dot q h) ^ 2 / dot h h - c6 ^ 2.
Proof.
  intros N w a0 a1 a2 g0 g1 g2 g3 g4 g5 g6 g7 g8 g9 q h.
  pose proof (norm3_pos _ _ _ N) as P. fold w in P. pose proof (norm3_sq v0 v1 v2) as S. fold w in S.
  transitivity (dot q q - (dot q (Pt a0 a1 a2)) ^ 2 - c6 ^ 2).
  - unfold quadric, g9, g8, g7, g6, g5, g4, g3, g2, g1, g0, q, dot, sub_pt. destruct p as [x y z]. cbn [px py pz]. ring.
  - replace (dot h h) with (w * w) by (rewrite S; unfold h, dot; cbn [px py pz]; ring).
    unfold a0, a1, a2, h, q, dot, sub_pt. cbn [px py pz]. field. lra.
Qed.

Lemma rcc_inside n b h r p :
  nonzero h ->
  (all_neg (x_surfs (explode_rcc n (px b) (py b) (pz b) (px h) (py h) (pz h) r)) p <-> in_rcc b h r p).
Proof.
  intros NH. unfold explode_rcc. cbn [x_surfs].
  repeat (erewrite all_neg_cons by reflexivity). rewrite all_neg_nil.
  unfold of_fun. cbn [neg].
  rewrite (rcc_quadric (px b) (py b) (pz b) (px h) (py h) (pz h) r p NH).
  destruct (edge_planes (px b) (py b) (pz b) (px h) (py h) (pz h) p NH) as [A1 A2].
  rewrite A1. replace (- (px h / norm3 (px h) (py h) (pz h) * px b + py h / norm3 (px h) (py h) (pz h) * py b +
     pz h / norm3 (px h) (py h) (pz h) * pz b)) with (-1 * (px h / norm3 (px h) (py h) (pz h) * px b + py h / norm3 (px h) (py h) (pz h) * py b +
     pz h / norm3 (px h) (py h) (pz h) * pz b)) by ring.
  rewrite A2.
  rewrite !pos_scale by (apply Rinv_0_lt_compat, norm3_pos; assumption).
  replace (Pt (px b) (py b) (pz b)) with b by (destruct b; reflexivity).
  replace (Pt (px h) (py h) (pz h)) with h by (destruct h; reflexivity).
  replace (px h ^ 2 + py h ^ 2 + pz h ^ 2) with (dot h h) by (unfold dot; ring).
  assert (PH : 0 < dot h h) by (pose proof (dot_pos _ _ _ NH); unfold dot; nra).
  set (q := sub_pt p b).
  assert (Q : forall s, sub_pt p (add_pt b (scale_pt s h)) = sub_pt q (scale_pt s h)).
  { intros s. unfold q, sub_pt, add_pt, scale_pt. cbn [px py pz]. f_equal; ring. }
  assert (D1 : forall s, dot (sub_pt q (scale_pt s h)) h = dot q h - s * dot h h).
  { intros s. unfold dot, sub_pt, scale_pt. cbn [px py pz]. ring. }
  assert (D2 : forall s, dot (sub_pt q (scale_pt s h)) (sub_pt q (scale_pt s h)) = dot q q - 2 * s * dot q h + s ^ 2 * dot h h).
  { intros s. unfold dot, sub_pt, scale_pt. cbn [px py pz]. ring. }
  unfold in_rcc. split.
  - intros (A & B & C & _). exists (dot q h / dot h h). rewrite Q, D1, D2.
    split; [split|split].
    + apply Rdiv_lt_0_compat; lra.
    + apply (Rmult_lt_reg_r (dot h h)); [lra|]. replace (dot q h / dot h h * dot h h) with (dot q h) by (field; lra). lra.
    + field. lra.
    + replace (dot q q - 2 * (dot q h / dot h h) * dot q h + (dot q h / dot h h) ^ 2 * dot h h)
        with (dot q q - dot q h ^ 2 / dot h h) by (field; lra). lra.
  - intros (s & S & E & L). rewrite Q in E, L. cbn zeta in L. rewrite D1 in E. rewrite D2 in L.
    assert (K : dot q h = s * dot h h) by lra.
    split; [|split; [|split; [|exact Logic.I]]].
    + replace (dot q q - dot q h ^ 2 / dot h h - r ^ 2) with (dot q q - 2 * s * dot q h + s ^ 2 * dot h h - r ^ 2); [lra|].
      rewrite K. field. lra.
    + rewrite K. nra.
    + rewrite K. nra.
Qed.
Lemma rcc_inside_closed n b h r p :
  nonzero h ->
  (none_pos (x_surfs (explode_rcc n (px b) (py b) (pz b) (px h) (py h) (pz h) r)) p <-> closed_rcc b h r p).
Proof.
  intros NH. unfold explode_rcc. cbn [x_surfs].
  repeat (erewrite none_pos_cons by reflexivity). rewrite none_pos_nil.
  unfold of_fun. cbn [pos].
  rewrite (rcc_quadric (px b) (py b) (pz b) (px h) (py h) (pz h) r p NH).
  destruct (edge_planes (px b) (py b) (pz b) (px h) (py h) (pz h) p NH) as [A1 A2].
  rewrite A1. replace (- (px h / norm3 (px h) (py h) (pz h) * px b + py h / norm3 (px h) (py h) (pz h) * py b +
     pz h / norm3 (px h) (py h) (pz h) * pz b)) with (-1 * (px h / norm3 (px h) (py h) (pz h) * px b + py h / norm3 (px h) (py h) (pz h) * py b +
     pz h / norm3 (px h) (py h) (pz h) * pz b)) by ring.
  rewrite A2.
  rewrite !pos_scale_closed by (apply Rinv_0_lt_compat, norm3_pos; assumption).
  replace (Pt (px b) (py b) (pz b)) with b by (destruct b; reflexivity).
  replace (Pt (px h) (py h) (pz h)) with h by (destruct h; reflexivity).
  replace (px h ^ 2 + py h ^ 2 + pz h ^ 2) with (dot h h) by (unfold dot; ring).
  assert (PH : 0 < dot h h) by (pose proof (dot_pos _ _ _ NH); unfold dot; nra).
  set (q := sub_pt p b).
  assert (Q : forall s, sub_pt p (add_pt b (scale_pt s h)) = sub_pt q (scale_pt s h)).
  { intros s. unfold q, sub_pt, add_pt, scale_pt. cbn [px py pz]. f_equal; ring. }
  assert (D1 : forall s, dot (sub_pt q (scale_pt s h)) h = dot q h - s * dot h h).
  { intros s. unfold dot, sub_pt, scale_pt. cbn [px py pz]. ring. }
  assert (D2 : forall s, dot (sub_pt q (scale_pt s h)) (sub_pt q (scale_pt s h)) = dot q q - 2 * s * dot q h + s ^ 2 * dot h h).
  { intros s. unfold dot, sub_pt, scale_pt. cbn [px py pz]. ring. }
  unfold closed_rcc. split.
  - intros (A & B & C & _). exists (dot q h / dot h h). rewrite Q, D1, D2.
    split; [split|split].
    + apply (Rmult_le_reg_r (dot h h)); [lra|]. replace (dot q h / dot h h * dot h h) with (dot q h) by (field; lra). lra.
    + apply (Rmult_le_reg_r (dot h h)); [lra|]. replace (dot q h / dot h h * dot h h) with (dot q h) by (field; lra). lra.
    + field. lra.
    + replace (dot q q - 2 * (dot q h / dot h h) * dot q h + (dot q h / dot h h) ^ 2 * dot h h)
        with (dot q q - dot q h ^ 2 / dot h h) by (field; lra). lra.
  - intros (s & S & E & L). rewrite Q in E, L. cbn zeta in L. rewrite D1 in E. rewrite D2 in L.
    assert (K : dot q h = s * dot h h) by lra.
    split; [|split; [|split; [|exact Logic.I]]].
    + replace (dot q q - dot q h ^ 2 / dot h h - r ^ 2) with (dot q q - 2 * s * dot q h + s ^ 2 * dot h h - r ^ 2); [lra|].
      rewrite K. field. lra.
    + rewrite K. nra.
    + rewrite K. nra.
Qed.
