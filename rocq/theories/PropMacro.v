(** Property theorems C25-C28: macrobodies. *)
From Coq Require Import Reals List Lra Psatz QArith.
From Verif Require Import PyStr PyStrFacts FortranNumber FortranNumberProofs PyInt PyIntFacts
  RegionSpec RegionFacts GeomSpec SurfModel SurfSpec SurfProofs PropSurf
  MacroModel MacroSpec MacroProofs MacroText CellModel CellProofs CellText.
Import ListNotations.
Open Scope R_scope.

(** What C25-C27 ask of an exploded macrobody: the numbers follow the last one in use,
    and the two texts, read as MCNP geometry, say inside and outside.  [sense] gives the
    side of each new surface at the point; a point on a surface may count for either
    side, hence the open and the closed body. *)
Definition body_ok (n : Z) (k : nat) (x : exploded) (inside closed : pt -> Prop) : Prop :=
  map s_id (x_surfs x) = map (fun i => (n + Z.of_nat i)%Z) (seq 1 k) /\
  exists ri ro, expr (mcnp_lex (x_in x)) ri /\ expr (mcnp_lex (x_out x)) ro /\
    forall sense p,
      holds (zenv sense) ro = negb (holds (zenv sense) ri) /\
      ((forall s, In s (x_surfs x) -> exists sn, surf_sense s = Some sn /\ (sense (s_id s) = false <-> neg sn p)) ->
       (holds (zenv sense) ri = true <-> inside p)) /\
      ((forall s, In s (x_surfs x) -> exists sn, surf_sense s = Some sn /\ (sense (s_id s) = true <-> pos sn p)) ->
       (holds (zenv sense) ri = true <-> closed p)).

Lemma no_hash_ok s : ~ In "#"%char s -> forall f, hash_ok f s = true.
Proof.
  induction s as [|c s IH]; intros H f; [reflexivity|]. cbn [hash_ok].
  assert (N : ~ In "#"%char s) by (intro; apply H; now right).
  destruct (is_space c); [auto|]. destruct (Ascii.eqb c "+"); [auto|].
  destruct (Ascii.eqb_spec c "#"); [subst; exfalso; apply H; now left|].
  destruct (is_delim c); auto.
Qed.

Lemma sid_nohash z : ~ In "#"%char (sid z).
Proof.
  pose proof (proj2 (sid_plain z)) as P. rewrite forallb_forall in P. intros I. specialize (P _ I). discriminate.
Qed.

Ltac no_hash := repeat apply in_app_no; try apply sid_nohash; vm_compute; intuition discriminate.

Lemma zenv_sid sense i : (0 < i)%Z -> zenv sense (sid i) = sense i.
Proof. intros P. unfold zenv, sid. rewrite py_int_str_Z. destruct (Z.ltb_spec i 0); [lia|reflexivity]. Qed.

Lemma minus_sid i : (0 < i)%Z -> minus (sid i) = str_Z (- i).
Proof.
  intros P. unfold minus, sid, str_Z. destruct (Z.ltb_spec i 0); [lia|]. destruct (Z.ltb_spec (- i) 0); [|lia].
  rewrite Z.opp_involutive. reflexivity.
Qed.

Lemma zenv_minus sense i : (0 < i)%Z -> zenv sense (minus (sid i)) = negb (sense i).
Proof.
  intros P. rewrite minus_sid by assumption. unfold zenv. rewrite py_int_str_Z.
  destruct (Z.ltb_spec (- i) 0); [|lia]. now rewrite Z.opp_involutive.
Qed.

Lemma body_intro n k x inside closed :
  (0 <= n)%Z -> good_x n k x -> ~ In "#"%char (x_in x) -> ~ In "#"%char (x_out x) ->
  (forall p, all_neg (x_surfs x) p <-> inside p) -> (forall p, none_pos (x_surfs x) p <-> closed p) ->
  body_ok n k x inside closed.
Proof.
  intros P (I & K & WI & WO & _ & _ & _) HI HO AN NP. split; [exact I|].
  destruct (ids_of x) as [|i r] eqn:EI.
  { destruct k; [lia|]. discriminate I. }
  exists (in_region i r), (out_region i r).
  split; [|split].
  - rewrite <- spacify_lex by (apply no_hash_ok; exact HI). rewrite WI. apply expr_term, term_factor, in_words_factor.
  - rewrite <- spacify_lex by (apply no_hash_ok; exact HO). rewrite WO. apply expr_term, term_factor, out_words_factor.
  - intros sense p.
    assert (POS : forall j, In j (i :: r) -> (0 < j)%Z).
    { intros j J. rewrite I in J. apply in_map_iff in J as (q & <- & Q). apply in_seq in Q. lia. }
    assert (HIN : holds (zenv sense) (in_region i r) = forallb (fun j => negb (sense j)) (i :: r)).
    { rewrite holds_in_region. idtac.
      clear -POS. induction (i :: r) as [|j l IH]; [reflexivity|]. cbn [forallb].
      rewrite zenv_minus by (apply POS; now left). f_equal. apply IH. intros; apply POS; now right. }
    assert (HOUT : holds (zenv sense) (out_region i r) = existsb sense (i :: r)).
    { rewrite holds_out_region.
      clear -POS. induction (i :: r) as [|j l IH]; [reflexivity|]. cbn [existsb].
      rewrite zenv_sid by (apply POS; now left). f_equal. apply IH. intros; apply POS; now right. }
    rewrite HIN, HOUT. split; [|split].
    + clear. induction (i :: r) as [|j l IH]; [reflexivity|]. cbn [existsb forallb]. rewrite IH. now destruct (sense j).
    + intros S. rewrite <- AN, <- EI. unfold ids_of, all_neg. rewrite forallb_forall, Forall_forall. split.
      * intros H s Is. destruct (S s Is) as (sn & E & Q). exists sn. split; [exact E|]. apply Q.
        specialize (H (s_id s) (in_map s_id _ _ Is)). now destruct (sense (s_id s)).
      * intros H j J. apply in_map_iff in J as (s & <- & Is). destruct (S s Is) as (sn & E & Q).
        destruct (H s Is) as (sn' & E' & N). rewrite E in E'. injection E' as <-. apply Q in N. now rewrite N.
    + intros S. rewrite <- NP, <- EI. unfold ids_of, none_pos. rewrite forallb_forall, Forall_forall. split.
      * intros H s Is. destruct (S s Is) as (sn & E & Q). exists sn. split; [exact E|]. rewrite <- Q.
        specialize (H (s_id s) (in_map s_id _ _ Is)). now destruct (sense (s_id s)).
      * intros H j J. apply in_map_iff in J as (s & <- & Is). destruct (S s Is) as (sn & E & Q).
        destruct (H s Is) as (sn' & E' & N). rewrite E in E'. injection E' as <-. rewrite <- Q in N.
        now destruct (sense (s_id s)).
Qed.

(* ---------------------------------------------------------------- C25 *)

(** C25, from the card: any RPP. *)
Theorem C25_rpp_is_its_six_planes t id tr toks x0 x1 y0 y1 z0 z1 n :
  card_text t id tr "rpp" toks -> reads toks [x0; x1; y0; y1; z0; z1] -> (0 <= n)%Z ->
  exists s x, read_surface t = Some s /\ explode_macrobody n s = Some x /\
    body_ok n 6 x (in_rpp x0 x1 y0 y1 z0 z1) (closed_rpp x0 x1 y0 y1 z0 z1).
Proof.
  intros C RD P. exists (mkS id tr MACRO_RPP [x0; x1; y0; y1; z0; z1] TRANSMISSION), (explode_rpp n x0 x1 y0 y1 z0 z1).
  split; [|split; [reflexivity|]].
  - unfold read_surface. rewrite (card_text_card t id tr _ toks C eq_refl).
    pose proof (reads_floats _ _ RD) as F. cbn [length] in F. pose proof (reads_length _ _ RD) as L.
    change (classify_card (mkCard id tr (T "rpp") toks) fresh)
      with (reading (mkCard id tr (T "rpp") toks) fresh 6 MACRO_RPP (fun l => l)).
    unfold reading. cbn [k_coef k_id k_tr]. rewrite F. reflexivity.
  - apply body_intro; [assumption|apply good_rpp|unfold explode_rpp; cbn [x_in]; no_hash|unfold explode_rpp; cbn [x_out]; no_hash| |].
    + intros p. apply rpp_inside.
    + intros p. apply rpp_inside_closed.
Qed.
Print Assumptions C25_rpp_is_its_six_planes.

Example C25_example : card_text (T "7 rpp -1 1 -2 2 0 5") 7 None "rpp" [T "-1"; T "1"; T "-2"; T "2"; T "0"; T "5"] /\
  reads [T "-1"; T "1"; T "-2"; T "2"; T "0"; T "5"] [-1; 1; -2; 2; 0; 5] /\
  in_rpp (-1) 1 (-2) 2 0 5 (Pt 0 1 4) /\ ~ in_rpp (-1) 1 (-2) 2 0 5 (Pt 0 1 6).
Proof.
  split; [split; [vm_compute; intuition discriminate|exists (T "7"); split; [reflexivity|split; [vm_compute; intuition discriminate|reflexivity]]]|].
  split.
  - repeat constructor; unfold to_float;
      match goal with |- match ?f with _ => _ end = _ => let v := eval vm_compute in f in change f with v end;
      cbn; f_equal; unfold Q2R; cbn; lra.
  - unfold in_rpp; cbn [px py pz]; split; [|intros ?]; lra.
Qed.

(* ---------------------------------------------------------------- C26 *)

Definition box_coefs (v a b c : pt) : list R :=
  [px v; py v; pz v; px a; py a; pz a; px b; py b; pz b; px c; py c; pz c].

(** The edges lie along x, y and z in this order. *)
Definition along_axes (a b c : pt) : Prop :=
  py a = 0 /\ pz a = 0 /\ px b = 0 /\ pz b = 0 /\ px c = 0 /\ py c = 0.

Lemma read_box t id tr toks v a b c :
  card_text t id tr "box" toks -> reads toks (box_coefs v a b c) ->
  exists s, read_surface t = Some s /\
    (~ along_axes a b c -> s = mkS id tr MACRO_BOX (box_coefs v a b c) TRANSMISSION) /\
    (along_axes a b c -> s = mkS id tr MACRO_RPP [px v; px v + px a; py v; py v + py b; pz v; pz v + pz c] TRANSMISSION).
Proof.
  intros C RD. unfold read_surface. rewrite (card_text_card t id tr _ toks C eq_refl).
  pose proof (reads_floats _ _ RD) as F. unfold box_coefs in F. cbn [length] in F.
  change (classify_card (mkCard id tr (T "box") toks) fresh) with (classify_box (mkCard id tr (T "box") toks) fresh).
  unfold classify_box. cbn [k_coef k_id k_tr]. rewrite F.
  destruct (Reqb (py a) 0 && Reqb (pz a) 0 && Reqb (px b) 0 && Reqb (pz b) 0 && Reqb (px c) 0 && Reqb (py c) 0)%bool eqn:E.
  - eexists. split; [reflexivity|]. rewrite !andb_true_iff, !Reqb_true in E. unfold along_axes. split; [tauto|reflexivity].
  - eexists. split; [reflexivity|]. split; [reflexivity|].
    intros A. exfalso. assert (Z : forall x, x = 0 -> Reqb x 0 = true) by (intros; now apply Reqb_true).
    destruct A as (A1 & A2 & A3 & A4 & A5 & A6). rewrite !Z in E by assumption. discriminate.
Qed.

Lemma rpp_of_box v a b c p : along_axes a b c -> 0 < px a -> 0 < py b -> 0 < pz c ->
  (in_rpp (px v) (px v + px a) (py v) (py v + py b) (pz v) (pz v + pz c) p <-> in_box v a b c p).
Proof.
  intros (A1 & A2 & A3 & A4 & A5 & A6) PA PB PC.
  rewrite box_slabs.
  - unfold in_rpp, dot, sub_pt. cbn [px py pz]. rewrite A1, A2, A3, A4, A5, A6. split; intros H; nra.
  - unfold orthogonal, dot. rewrite A1, A2, A3, A4, A5, A6. repeat split; ring.
  - unfold nonzero. intros E. injection E. lra.
  - unfold nonzero. intros E. injection E. lra.
  - unfold nonzero. intros E. injection E. lra.
Qed.

Lemma rpp_of_box_closed v a b c p : along_axes a b c -> 0 < px a -> 0 < py b -> 0 < pz c ->
  (closed_rpp (px v) (px v + px a) (py v) (py v + py b) (pz v) (pz v + pz c) p <-> closed_box v a b c p).
Proof.
  intros (A1 & A2 & A3 & A4 & A5 & A6) PA PB PC.
  rewrite box_slabs_closed.
  - unfold closed_rpp, dot, sub_pt. cbn [px py pz]. rewrite A1, A2, A3, A4, A5, A6. split; intros H; nra.
  - unfold orthogonal, dot. rewrite A1, A2, A3, A4, A5, A6. repeat split; ring.
  - unfold nonzero. intros E. injection E. lra.
  - unfold nonzero. intros E. injection E. lra.
  - unfold nonzero. intros E. injection E. lra.
Qed.

(** C26.  Missing: edges along the axes x, y, z in this order of which one points
    backwards (refuted below). *)
Theorem C26_box_is_its_six_planes_partial t id tr toks v a b c n :
  card_text t id tr "box" toks -> reads toks (box_coefs v a b c) -> (0 <= n)%Z ->
  orthogonal a b c -> nonzero a -> nonzero b -> nonzero c ->
  (along_axes a b c -> 0 < px a /\ 0 < py b /\ 0 < pz c) ->
  exists s x, read_surface t = Some s /\ explode_macrobody n s = Some x /\
    body_ok n 6 x (in_box v a b c) (closed_box v a b c).
Proof.
  intros C RD P O NA NB NC AX. destruct (read_box t id tr toks v a b c C RD) as (s & RS & H1 & H2).
  assert (D : along_axes a b c \/ ~ along_axes a b c).
  { unfold along_axes. destruct (Req_EM_T (py a) 0), (Req_EM_T (pz a) 0), (Req_EM_T (px b) 0), (Req_EM_T (pz b) 0),
      (Req_EM_T (px c) 0), (Req_EM_T (py c) 0); tauto. }
  destruct D as [D|D].
  - specialize (H2 D). subst s. eexists. eexists. split; [exact RS|split; [reflexivity|]].
    destruct (AX D) as (PA & PB & PC).
    apply body_intro; [assumption|apply good_rpp|unfold explode_rpp; cbn [x_in]; no_hash|unfold explode_rpp; cbn [x_out]; no_hash| |].
    + intros p. rewrite rpp_inside. now apply rpp_of_box.
    + intros p. rewrite rpp_inside_closed. now apply rpp_of_box_closed.
  - specialize (H1 D). subst s. eexists. eexists. split; [exact RS|split; [reflexivity|]].
    apply body_intro; [assumption|apply good_box|unfold explode_box; cbn [x_in]; no_hash|unfold explode_box; cbn [x_out]; no_hash| |].
    + intros p. now apply box_inside.
    + intros p. now apply box_inside_closed.
Qed.
Print Assumptions C26_box_is_its_six_planes_partial.

Ltac real_tokens := repeat constructor; unfold to_float;
  match goal with |- match ?f with _ => _ end = _ => let v := eval vm_compute in f in change f with v end;
  cbn; f_equal; unfold Q2R; cbn; lra.

Example C26_example : let toks := [T "0"; T "0"; T "0"; T "3"; T "4"; T "0"; T "-4"; T "3"; T "0"; T "0"; T "0"; T "-2"] in
  card_text (T "7 box 0 0 0 3 4 0 -4 3 0 0 0 -2") 7 None "box" toks /\
  reads toks (box_coefs (Pt 0 0 0) (Pt 3 4 0) (Pt (-4) 3 0) (Pt 0 0 (-2))) /\
  orthogonal (Pt 3 4 0) (Pt (-4) 3 0) (Pt 0 0 (-2)) /\ nonzero (Pt 3 4 0) /\ nonzero (Pt (-4) 3 0) /\ nonzero (Pt 0 0 (-2)) /\
  ~ along_axes (Pt 3 4 0) (Pt (-4) 3 0) (Pt 0 0 (-2)).
Proof.
  cbn zeta. split; [split; [vm_compute; intuition discriminate|exists (T "7"); split; [reflexivity|split; [vm_compute; intuition discriminate|reflexivity]]]|].
  split; [unfold box_coefs; cbn [px py pz]; real_tokens|].
  unfold orthogonal, dot, nonzero, along_axes; cbn [px py pz].
  split; [repeat split; ring|]. split; [intros E; injection E; lra|]. split; [intros E; injection E; lra|].
  split; [intros E; injection E; lra|]. intros (H & _). lra.
Qed.

(** C26 is false for a box whose first edge points backwards along x: the cell inside
    the box becomes empty. *)
Theorem C26_backward_edge_refuted :
  exists t toks v a b c s x p,
    card_text t 7 None "box" toks /\ reads toks (box_coefs v a b c) /\
    orthogonal a b c /\ nonzero a /\ nonzero b /\ nonzero c /\
    read_surface t = Some s /\ explode_macrobody 10 s = Some x /\
    in_box v a b c p /\ ~ all_neg (x_surfs x) p.
Proof.
  set (toks := [T "0"; T "0"; T "0"; T "-1"; T "0"; T "0"; T "0"; T "1"; T "0"; T "0"; T "0"; T "1"]).
  assert (CT : card_text (T "7 box 0 0 0 -1 0 0 0 1 0 0 0 1") 7 None "box" toks).
  { split; [vm_compute; intuition discriminate|exists (T "7"); split; [reflexivity|split; [vm_compute; intuition discriminate|reflexivity]]]. }
  assert (RD : reads toks (box_coefs (Pt 0 0 0) (Pt (-1) 0 0) (Pt 0 1 0) (Pt 0 0 1))).
  { unfold box_coefs, toks; cbn [px py pz]; real_tokens. }
  destruct (read_box _ _ _ _ _ _ _ _ CT RD) as (s & RS & _ & H2).
  rewrite H2 in RS by (unfold along_axes; cbn [px py pz]; repeat split; reflexivity).
  exists (T "7 box 0 0 0 -1 0 0 0 1 0 0 0 1"), toks, (Pt 0 0 0), (Pt (-1) 0 0), (Pt 0 1 0), (Pt 0 0 1).
  eexists. eexists. exists (Pt (-1 / 2) (1 / 2) (1 / 2)).
  split; [exact CT|]. split; [exact RD|].
  split; [unfold orthogonal, dot; cbn [px py pz]; repeat split; ring|].
  split; [intros E; injection E; lra|]. split; [intros E; injection E; lra|]. split; [intros E; injection E; lra|].
  split; [exact RS|]. split; [reflexivity|]. split.
  - exists (1 / 2), (1 / 2), (1 / 2). split; [lra|split; [lra|split; [lra|]]].
    unfold add_pt, scale_pt; cbn [px py pz]. f_equal; field.
  - rewrite rpp_inside. unfold in_rpp. cbn [px py pz]. lra.
Qed.
Print Assumptions C26_backward_edge_refuted.

(* ---------------------------------------------------------------- C27 *)

Theorem C27_rcc_is_cylinder_and_planes t id tr toks b h r n :
  card_text t id tr "rcc" toks -> reads toks [px b; py b; pz b; px h; py h; pz h; r] -> (0 <= n)%Z -> nonzero h ->
  exists s x, read_surface t = Some s /\ explode_macrobody n s = Some x /\
    body_ok n 3 x (in_rcc b h r) (closed_rcc b h r).
Proof.
  intros C RD P NH. exists (mkS id tr MACRO_RCC [px b; py b; pz b; px h; py h; pz h; r] TRANSMISSION).
  eexists. split; [|split; [reflexivity|]].
  - unfold read_surface. rewrite (card_text_card t id tr _ toks C eq_refl).
    pose proof (reads_floats _ _ RD) as F. cbn [length] in F.
    change (classify_card (mkCard id tr (T "rcc") toks) fresh)
      with (reading (mkCard id tr (T "rcc") toks) fresh 7 MACRO_RCC (fun l => l)).
    unfold reading. cbn [k_coef k_id k_tr]. rewrite F. reflexivity.
  - apply body_intro; [assumption|apply good_rcc|unfold explode_rcc; cbn [x_in]; no_hash|unfold explode_rcc; cbn [x_out]; no_hash| |].
    + intros p. now apply rcc_inside.
    + intros p. now apply rcc_inside_closed.
Qed.
Print Assumptions C27_rcc_is_cylinder_and_planes.

Example C27_example : let toks := [T "1"; T "0"; T "0"; T "0"; T "3"; T "-4"; T "2.5"] in
  card_text (T "7 3 rcc 1 0 0 0 3 -4 2.5") 7 (Some (T "3")) "rcc" toks /\
  reads toks [1; 0; 0; 0; 3; -4; 5 / 2] /\ nonzero (Pt 0 3 (-4)) /\
  in_rcc (Pt 1 0 0) (Pt 0 3 (-4)) (5 / 2) (Pt 2 (3 / 2) (-2)).
Proof.
  cbn zeta. split.
  { split; [vm_compute; intuition discriminate|exists (T "7"); split; [reflexivity|split; [vm_compute; intuition discriminate|split; [reflexivity|discriminate]]]]. }
  split; [real_tokens|]. split; [intros E; injection E; lra|].
  exists (1 / 2). unfold dot, sub_pt, add_pt, scale_pt; cbn [px py pz]. split; [lra|split; [lra|]]. lra.
Qed.

(* ---------------------------------------------------------------- C28 *)

(** Surface k of the list is facet k. *)
Definition facets_match (l : list surface) (f : list sense) : Prop := Forall2 denotes l f.

Theorem C28_rpp_facets n x0 x1 y0 y1 z0 z1 :
  facets_match (x_surfs (explode_rpp n x0 x1 y0 y1 z0 z1)) (rpp_facets x0 x1 y0 y1 z0 z1).
Proof.
  unfold facets_match, explode_rpp, rpp_facets. cbn [x_surfs].
  repeat constructor; (eexists; split; [reflexivity|]); apply same_of_fun; intros p; unfold plane; lra.
Qed.
Print Assumptions C28_rpp_facets.

Theorem C28_box_facets n v a b c : nonzero a -> nonzero b -> nonzero c ->
  facets_match (x_surfs (explode_box n (px v) (py v) (pz v) (px a) (py a) (pz a) (px b) (py b) (pz b) (px c) (py c) (pz c)))
    (box_facets v a b c).
Proof.
  intros NA NB NC. unfold facets_match, explode_box, box_facets. cbn [x_surfs app].
  assert (G : forall e, nonzero e -> forall m k,
    let w := norm3 (px e) (py e) (pz e) in
    denotes (new_plane m (px e / w) (py e / w) (pz e / w) (px e / w * (px v + px e) + py e / w * (py v + py e) + pz e / w * (pz v + pz e)))
      (of_fun (fun p => dot (sub_pt p (add_pt v e)) e)) /\
    denotes (new_plane k (-1 * (px e / w)) (-1 * (py e / w)) (-1 * (pz e / w)) (-1 * (px e / w * px v + py e / w * py v + pz e / w * pz v)))
      (of_fun (fun p => - dot (sub_pt p v) e))).
  { intros e NE m k w. pose proof (norm3_pos _ _ _ NE) as P. fold w in P.
    split; (eexists; split; [reflexivity|]); apply (same_scale _ _ (/ w)); try (now apply Rinv_0_lt_compat);
    intros p; unfold plane, dot, sub_pt, add_pt; cbn [px py pz]; field; lra. }
  repeat constructor; apply G; assumption || exact 0%Z.
Qed.
Print Assumptions C28_box_facets.

Example C28_example : nonzero (Pt 3 4 0) /\ nonzero (Pt (-4) 3 0) /\ nonzero (Pt 0 0 (-2)).
Proof. repeat split; intros E; injection E; lra. Qed.

(** C28 fails for an RCC: facet 2 is the plane at the beginning of the axis, which is
    MCNP's facet 3 (and the other way round). *)
Theorem C28_rcc_facets_refuted :
  exists n c0 c1 c2 v0 v1 v2 r s f,
    nth_error (x_surfs (explode_rcc n c0 c1 c2 v0 v1 v2 r)) 1 = Some s /\
    nth_error (rcc_facets (Pt c0 c1 c2) (Pt v0 v1 v2) r) 1 = Some f /\ ~ denotes s f.
Proof.
  exists 0%Z, 0, 0, 0, 0, 0, 1, 1. eexists. eexists. split; [reflexivity|split; [reflexivity|]].
  intros (sn & E & H). injection E as <-.
  assert (N : norm3 0 0 1 = 1) by (unfold norm3; replace (0 ^ 2 + 0 ^ 2 + 1 ^ 2) with 1 by ring; apply sqrt_1).
  destruct (H (Pt 0 0 2)) as [H1 _]. cbn [neg of_fun] in H1. rewrite N in H1.
  unfold plane, dot, sub_pt, add_pt in H1. cbn [px py pz] in H1. destruct H1 as [H1 _].
  assert (-1 * (0 / 1) * 0 + -1 * (0 / 1) * 0 + -1 * (1 / 1) * 2 - - (0 / 1 * 0 + 0 / 1 * 0 + 1 / 1 * 0) < 0) by (field_simplify; lra).
  specialize (H1 H0). lra.
Qed.
Print Assumptions C28_rcc_facets_refuted.

(** What is true of an RCC: the first facet is right, the other two are exchanged. *)
Theorem C28_rcc_facets_partial n b h r : nonzero h ->
  exists f1 f2 f3, rcc_facets b h r = [f1; f2; f3] /\
  facets_match (x_surfs (explode_rcc n (px b) (py b) (pz b) (px h) (py h) (pz h) r)) [f1; f3; f2].
Proof.
  intros NH. do 3 eexists. split; [reflexivity|].
  unfold facets_match, explode_rcc. cbn [x_surfs].
  pose proof (norm3_pos _ _ _ NH) as P. set (w := norm3 (px h) (py h) (pz h)) in *.
  constructor; [|constructor; [|constructor; [|constructor]]]; (eexists; split; [reflexivity|]).
  - apply same_of_fun. intros p. unfold w. rewrite (rcc_quadric (px b) (py b) (pz b) (px h) (py h) (pz h) r p NH).
    replace (Pt (px b) (py b) (pz b)) with b by (destruct b; reflexivity).
    replace (Pt (px h) (py h) (pz h)) with h by (destruct h; reflexivity). reflexivity.
  - apply (same_scale _ _ (/ w)); [now apply Rinv_0_lt_compat|]. intros p. unfold plane, dot, sub_pt, add_pt; cbn [px py pz]. field. lra.
  - apply (same_scale _ _ (/ w)); [now apply Rinv_0_lt_compat|]. intros p. unfold plane, dot, sub_pt, add_pt; cbn [px py pz]. field. lra.
Qed.
Print Assumptions C28_rcc_facets_partial.
