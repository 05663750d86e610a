(** Properties C13-C15, C19-C24: surfaces, their reading and their transformation. *)
From Coq Require Import Reals Qreals List Lra Psatz.
From Verif Require Import PyStr PyStrFacts FortranNumber PyInt GeomSpec SurfModel SurfSpec SurfProofs.
Import ListNotations.
Open Scope R_scope.

(* ---------------------------------------------------------------- C13 *)

(** C13 (all but selected cone sheets): turning a surface into a quadric keeps its
    sides.  Missing: cones with a selected sheet, see the refutation below. *)
Theorem C13_generalise_keeps_sides_partial s sn :
  surf_sense s = Some sn -> ~ sheeted s ->
  exists s', generalise s = Some s' /\ s_id s' = s_id s /\ denotes s' sn.
Proof.
  intros H K. destruct (generalise_sense s sn H K) as (s' & A & B & _ & _ & D & _).
  exists s'. auto.
Qed.
Print Assumptions C13_generalise_keeps_sides_partial.

(** C13 fails for a cone with a selected sheet: the upper cone becomes both cones. *)
Theorem C13_generalise_sheet_refuted :
  exists s sn s', surf_sense s = Some sn /\ generalise s = Some s' /\ ~ denotes s' sn.
Proof.
  exists (mkS 1 None CONE_Z [0; 0; 0; 1; 1] TRANSMISSION).
  eexists. eexists. split; [reflexivity|split; [reflexivity|]].
  intros (sn' & E & H). unfold surf_sense in E. cbn [s_type s_coef set_tc sem] in E. injection E as <-.
  destruct (H (Pt 0 0 (-1))) as [H1 _]. cbn [neg of_fun one_sheet] in H1.
  destruct H1 as [H1 _]. unfold quadric, cone_z in H1. cbn [px py pz] in H1.
  destruct H1 as [_ H1]; [lra|]. specialize (H1 ltac:(lra)). lra.
Qed.
Print Assumptions C13_generalise_sheet_refuted.

Example generalise_keeps_sides_ex :
  let s := mkS 4 None CYLINDER_Y [1; 2; 3] TRANSMISSION in
  (exists sn, surf_sense s = Some sn) /\ ~ sheeted s.
Proof. cbn. split; [eauto|auto]. Qed.

(* ---------------------------------------------------------------- C14 *)

(** C14 (all quadrics but those whose only second-order term is zx). *)
Theorem C14_simplify_keeps_sides_partial s sn :
  surf_sense s = Some sn -> ~ only_zx s ->
  exists s', simplify s = Some s' /\ s_id s' = s_id s /\ denotes s' sn.
Proof.
  intros H K. destruct (simplify_sense s sn H K) as (s' & A & B & _ & _ & D). eauto.
Qed.
Print Assumptions C14_simplify_keeps_sides_partial.

(** C14 fails: the hyperbolic cylinder zx = 1 is turned into a plane. *)
Theorem C14_simplify_refuted :
  exists s sn s', surf_sense s = Some sn /\ simplify s = Some s' /\ ~ denotes s' sn.
Proof.
  set (s := mkS 1 None GENERAL_QUADRATIC [0; 0; 0; 0; 0; 1; 0; 0; 0; -1] TRANSMISSION).
  assert (E : simplify s = Some (set_tc s PLANE_GENERAL [0; 0; 0; -1 * -1])).
  { unfold simplify, s. cbn [s_type s_coef firstn forallb]. rewrite !Reqb_refl. reflexivity. }
  exists s. eexists. eexists. split; [reflexivity|split; [exact E|]].
  intros (sn' & E' & H). unfold surf_sense in E'. cbn [s_type s_coef set_tc sem] in E'. injection E' as <-.
  destruct (H (Pt 2 0 2)) as [H1 _]. cbn [neg of_fun] in H1.
  unfold plane, quadric in H1. cbn [px py pz] in H1. lra.
Qed.
Print Assumptions C14_simplify_refuted.

Example simplify_keeps_sides_ex :
  let s := mkS 4 None GENERAL_QUADRATIC [0; 0; 0; 0; 0; 0; 1; 2; 3; 4] TRANSMISSION in
  (exists sn, surf_sense s = Some sn) /\ ~ only_zx s.
Proof. cbn. split; [eauto|]. intros (_ & _ & _ & _ & _ & H). now apply H. Qed.

(* ---------------------------------------------------------------- C15 *)

(** C15 (surfaces without selected sheet): if two surfaces are reported the same, they
    have the same sides, or opposite sides if reported inverted; and afterwards each
    still has the sides it had. *)
Theorem C15_diff_sound_partial s o sn so both inv s' o' :
  surf_sense s = Some sn -> surf_sense o = Some so ->
  ~ sheeted s -> ~ sheeted o -> torus_ok s -> torus_ok o ->
  diff s o both false = Some ((true, inv), s', o') ->
  (if inv then opposite_sense so sn else same_sense so sn) /\
  denotes s' sn /\ denotes o' so.
Proof.
  intros Hs Ho NS NO TS TO.
  destruct (generalise_sense s sn Hs NS) as (gs & Es & _ & _ & _ & Ds & Ts & Qs).
  destruct (generalise_sense o so Ho NO) as (go & Eo & _ & _ & _ & Do & To & Qo).
  unfold diff. rewrite Es, Eo. unfold diff_gen.
  destruct (stype_beq (s_type go) (s_type gs)) eqn:Ety; cbn [negb]; [|congruence].
  apply internal_stype_dec_bl in Ety.
  destruct Ds as (ns & Ens & Sns). destruct Do as (no & Eno & Sno).
  assert (Dsn : denotes gs sn) by (exists ns; auto).
  assert (Dso : denotes go so) by (exists no; auto).
  destruct (list_Reqb (s_coef go) (s_coef gs)) eqn:Ec.
  - intros H. injection H as <- <- <-. apply list_Reqb_true in Ec.
    split; [|tauto].
    unfold surf_sense in Ens, Eno. rewrite Ety, Ec, Ens in Eno. injection Eno as <-.
    eapply same_trans; [apply same_sym; exact Sno|exact Sns].
  - destruct both; [|congruence].
    rewrite reverse_reverse.
    destruct (list_Reqb (s_coef (reverse go)) (s_coef gs)) eqn:Er; [|congruence].
    intros H. injection H as <- <- <-. apply list_Reqb_true in Er.
    split; [|tauto].
    unfold surf_sense in Ens, Eno. rewrite Ety in Eno. rewrite <- Er in Ens.
    unfold reverse in Ens. cbn [s_coef set_tc] in Ens.
    destruct (is_torus (s_type s)) eqn:TT.
    + exfalso. assert (gs = s) by auto. subst gs.
      assert (TT2 : is_torus (s_type go) = true) by (rewrite Ety; exact TT).
      destruct (is_torus (s_type o)) eqn:TT3.
      2:{ rewrite (Qo eq_refl) in TT2. discriminate. }
      assert (go = o) by auto. subst go.
      specialize (TS TT). specialize (TO TT3).
      rewrite <- Er in TS. unfold reverse in TS. cbn [s_coef set_tc] in TS.
      destruct (s_type s); try discriminate TT; cbn [sem] in Eno;
        destruct (s_coef o) as [|? [|? [|? [|? [|? [|? [|? ?]]]]]]]; try discriminate Eno;
        cbn [map] in TS; lra.
    + rewrite (Qs eq_refl) in Ens, Eno. cbn [sem] in Eno.
      destruct (s_coef go) as [|a [|b [|c [|d [|e [|f [|g [|h [|j [|k [|? ?]]]]]]]]]]]; try discriminate Eno.
      injection Eno as <-. cbn [map sem] in Ens. injection Ens as <-.
      intros p. destruct (Sns p) as [N1 P1], (Sno p) as [N2 P2]. rewrite <- N1, <- N2, <- P1, <- P2.
      cbn [neg pos of_fun].
      match goal with |- (quadric a b c d e f g h j k p < 0 <-> ?R) /\ _ =>
        assert (Q : quadric (a * -1) (b * -1) (c * -1) (d * -1) (e * -1) (f * -1) (g * -1) (h * -1) (j * -1) (k * -1) p
                    = - quadric a b c d e f g h j k p) by (unfold quadric; ring) end.
      rewrite Q. lra.
Qed.
Print Assumptions C15_diff_sound_partial.

(** C15 fails for cones: the two sheets of a cone are reported the same. *)
Theorem C15_diff_sound_refuted :
  exists s o sn so s' o', surf_sense s = Some sn /\ surf_sense o = Some so /\
    diff s o true false = Some ((true, false), s', o') /\ ~ same_sense so sn.
Proof.
  set (s := mkS 1 None CONE_Z [0; 0; 0; 1; 1] TRANSMISSION).
  set (o := mkS 2 None CONE_Z [0; 0; 0; 1; -1] TRANSMISSION).
  exists s, o. eexists. eexists. eexists. eexists.
  split; [reflexivity|split; [reflexivity|split]].
  - unfold diff, generalise, s, o. cbn [s_type s_coef]. unfold diff_gen. cbn [s_type set_tc].
    change (negb (stype_beq GENERAL_QUADRATIC GENERAL_QUADRATIC)) with false. cbn [s_coef].
    match goal with |- context [list_Reqb ?a ?b] => replace (list_Reqb a b) with true by (symmetry; now apply list_Reqb_true) end.
    reflexivity.
  - intros H. destruct (H (Pt 0 0 1)) as [_ [_ H1]]. cbn [pos one_sheet] in H1.
    unfold cone_z in H1. cbn [px py pz] in H1.
    destruct (H (Pt 0 0 1)) as [[_ H2] _]. cbn [neg one_sheet] in H2. unfold cone_z in H2. cbn [px py pz] in H2.
    destruct H2 as [_ H2]; [split; intros; lra|]. specialize (H2 ltac:(lra)). lra.
Qed.
Print Assumptions C15_diff_sound_refuted.

Example diff_sound_ex :
  let s := mkS 1 None PLANE_X [1; 0; 0; 5] TRANSMISSION in
  let o := mkS 2 None PLANE_GENERAL [-1; 0; 0; -5] TRANSMISSION in
  exists s' o', diff s o true false = Some ((true, true), s', o') /\ torus_ok s /\ ~ sheeted s.
Proof.
  cbn zeta. eexists. eexists. split; [|split; [discriminate|auto]].
  unfold diff, generalise. cbn [s_type s_coef]. unfold diff_gen. cbn [s_type set_tc].
  change (negb (stype_beq GENERAL_QUADRATIC GENERAL_QUADRATIC)) with false. cbn [s_coef reverse map set_tc].
  match goal with |- context [list_Reqb ?a ?b] => replace (list_Reqb a b) with false end.
  2:{ symmetry. apply Bool.not_true_iff_false. rewrite list_Reqb_true. injection 1. lra. }
  match goal with |- context [list_Reqb ?a ?b] => replace (list_Reqb a b) with true end.
  2:{ symmetry. apply list_Reqb_true. repeat (apply (f_equal2 (@cons R)); [ring|]). reflexivity. }
  reflexivity.
Qed.

(** Comparing changes nothing when
    the surfaces have been generalised already. *)
Theorem C15_diff_leaves_surfaces s o both r s' o' :
  diff s o both true = Some (r, s', o') -> s' = s /\ o' = o.
Proof.
  unfold diff, diff_gen. rewrite reverse_reverse.
  destruct (negb _); [intros H; injection H; auto|].
  destruct (list_Reqb _ _); [intros H; injection H; auto|].
  destruct both; [|intros H; injection H; auto].
  destruct (list_Reqb _ _); intros H; injection H; auto.
Qed.
Print Assumptions C15_diff_leaves_surfaces.

(* ---------------------------------------------------------------- C19 *)

(** The tokens [toks] are read by float() as the numbers [vals]. *)
Definition reads (toks : list text) (vals : list R) : Prop :=
  Forall2 (fun t v => to_float t = Some v) toks vals.

Lemma reads_floats toks vals : reads toks vals -> floats (length vals) toks = Some vals.
Proof.
  induction 1 as [|t v toks vals H _ IH]; [reflexivity|].
  cbn [length floats]. now rewrite H, IH.
Qed.

Lemma reads_length toks vals : reads toks vals -> length toks = length vals.
Proof. induction 1; cbn; auto. Qed.

(** The text is the card: number, transform if any, mnemonic, entries. *)
Definition card_text (t : text) (id : Z) (tr : option text) (m : string) (toks : list text) : Prop :=
  ~ In "$"%char t /\
  exists idtok, py_int idtok = Some id /\ ~ In "*"%char idtok /\
    match tr with
    | None => words t = idtok :: T m :: toks
    | Some n => words t = idtok :: n :: T m :: toks /\ py_float n <> None
    end.

Lemma existsb_notin c t : ~ In c t -> existsb (Ascii.eqb c) t = false.
Proof.
  intros H. apply Bool.not_true_iff_false. intros E. apply existsb_exists in E.
  destruct E as (x & I & E). apply Ascii.eqb_eq in E. subst. contradiction.
Qed.

Lemma card_text_card t id tr m toks :
  card_text t id tr m toks -> py_float (T m) = None ->
  card_of_text t = Some (mkCard id tr (T m) toks).
Proof.
  intros (ND & idtok & Eid & NS & W) NF. unfold card_of_text, before_dollar.
  rewrite (existsb_notin _ _ ND).
  destruct tr as [n|].
  - destruct W as [W FN]. rewrite W. rewrite (existsb_notin _ _ NS), Eid.
    unfold surface_has_transform. destruct (py_float n); [reflexivity|congruence].
  - rewrite W. rewrite (existsb_notin _ _ NS), Eid.
    unfold surface_has_transform. rewrite NF. reflexivity.
Qed.

Ltac reads_in H :=
  let F := fresh "F" in let L := fresh "L" in
  pose proof (reads_floats _ _ H) as F; pose proof (reads_length _ _ H) as L; cbn [length] in F, L.

(** C19: every supported mnemonic is stored as what the MCNP manual says it is. *)
Theorem C19_surface_card_meaning t id tr m toks vals sn :
  card_text t id tr m toks -> reads toks vals -> mcnp_means m vals sn ->
  exists s, read_surface t = Some s /\ s_id s = id /\ s_tr s = tr /\ denotes s sn.
Proof.
  intros C RD M.
  assert (NF : py_float (T m) = None) by (destruct M; reflexivity).
  unfold read_surface. rewrite (card_text_card t id tr m toks C NF).
  reads_in RD. clear C NF.
  assert (D : forall n ty f l, floats n toks = Some l ->
            reading (mkCard id tr (T m) toks) fresh n ty f = Some (mkS id tr ty (f l) TRANSMISSION)).
  { intros n ty f l E. unfold reading. cbn [k_coef k_id k_tr]. now rewrite E. }
  assert (P : forall n ty f l sn1, floats n toks = Some l ->
            sem ty (f l) = Some sn1 -> same_sense sn1 sn ->
            exists s, reading (mkCard id tr (T m) toks) fresh n ty f = Some s /\ s_id s = id /\ s_tr s = tr /\ denotes s sn).
  { intros n ty f l sn1 E1 E2 E3. eexists. split; [exact (D n ty f l E1)|].
    split; [reflexivity|split; [reflexivity|]]. exists sn1. auto. }
  clear D.
  destruct M; cbn [length] in F, L; dl toks;
  [ refine (P 1%nat PLANE_X (fun l => [1; 0; 0; c_ l 0]) _ _ F eq_refl _)
  | refine (P 1%nat PLANE_Y (fun l => [0; 1; 0; c_ l 0]) _ _ F eq_refl _)
  | refine (P 1%nat PLANE_Z (fun l => [0; 0; 1; c_ l 0]) _ _ F eq_refl _)
  | refine (P 4%nat PLANE_GENERAL (fun l => l) _ _ F eq_refl _)
  | refine (P 1%nat SPHERE_GENERAL (fun l => [0; 0; 0; c_ l 0]) _ _ F eq_refl _)
  | refine (P 4%nat SPHERE_GENERAL (fun l => l) _ _ F eq_refl _)
  | refine (P 2%nat SPHERE_GENERAL (fun l => [c_ l 0; 0; 0; c_ l 1]) _ _ F eq_refl _)
  | refine (P 2%nat SPHERE_GENERAL (fun l => [0; c_ l 0; 0; c_ l 1]) _ _ F eq_refl _)
  | refine (P 2%nat SPHERE_GENERAL (fun l => [0; 0; c_ l 0; c_ l 1]) _ _ F eq_refl _)
  | refine (P 3%nat CYLINDER_X (fun l => l) _ _ F eq_refl _)
  | refine (P 3%nat CYLINDER_Y (fun l => l) _ _ F eq_refl _)
  | refine (P 3%nat CYLINDER_Z (fun l => l) _ _ F eq_refl _)
  | refine (P 1%nat CYLINDER_X (fun l => [0; 0; c_ l 0]) _ _ F eq_refl _)
  | refine (P 1%nat CYLINDER_Y (fun l => [0; 0; c_ l 0]) _ _ F eq_refl _)
  | refine (P 1%nat CYLINDER_Z (fun l => [0; 0; c_ l 0]) _ _ F eq_refl _)
  | refine (P 4%nat CONE_X (fun l => [c_ l 0; c_ l 1; c_ l 2; c_ l 3; c_ l 4]) _ _ F eq_refl _)
  | refine (P 4%nat CONE_Y (fun l => [c_ l 0; c_ l 1; c_ l 2; c_ l 3; c_ l 4]) _ _ F eq_refl _)
  | refine (P 4%nat CONE_Z (fun l => [c_ l 0; c_ l 1; c_ l 2; c_ l 3; c_ l 4]) _ _ F eq_refl _)
  | refine (P 5%nat CONE_X (fun l => [c_ l 0; c_ l 1; c_ l 2; c_ l 3; c_ l 4]) _ _ F eq_refl _)
  | refine (P 5%nat CONE_Y (fun l => [c_ l 0; c_ l 1; c_ l 2; c_ l 3; c_ l 4]) _ _ F eq_refl _)
  | refine (P 5%nat CONE_Z (fun l => [c_ l 0; c_ l 1; c_ l 2; c_ l 3; c_ l 4]) _ _ F eq_refl _)
  | refine (P 2%nat CONE_X (fun l => [c_ l 0; 0; 0; c_ l 1; c_ l 2]) _ _ F eq_refl _)
  | refine (P 2%nat CONE_Y (fun l => [0; c_ l 0; 0; c_ l 1; c_ l 2]) _ _ F eq_refl _)
  | refine (P 2%nat CONE_Z (fun l => [0; 0; c_ l 0; c_ l 1; c_ l 2]) _ _ F eq_refl _)
  | refine (P 3%nat CONE_X (fun l => [c_ l 0; 0; 0; c_ l 1; c_ l 2]) _ _ F eq_refl _)
  | refine (P 3%nat CONE_Y (fun l => [0; c_ l 0; 0; c_ l 1; c_ l 2]) _ _ F eq_refl _)
  | refine (P 3%nat CONE_Z (fun l => [0; 0; c_ l 0; c_ l 1; c_ l 2]) _ _ F eq_refl _)
  | refine (P 10%nat GENERAL_QUADRATIC (fun l => l) _ _ F eq_refl _)
  | refine (P 10%nat GENERAL_QUADRATIC sq_coords _ _ F eq_refl _)
  | refine (P 6%nat TORUS_X (fun l => l) _ _ F eq_refl _)
  | refine (P 6%nat TORUS_Y (fun l => l) _ _ F eq_refl _)
  | refine (P 6%nat TORUS_Z (fun l => l) _ _ F eq_refl _)
  | refine (P 4%nat SPHERE_GENERAL (fun l => l) _ _ F eq_refl _) ];
  unfold c_; cbn [nth]; try apply same_refl; try apply one_sheet_0.
  (* sq *)
  apply same_of_fun. intros [u v w]. unfold quadric, special_quadric, c_. cbn [nth px py pz]. ring.
Qed.
Print Assumptions C19_surface_card_meaning.

Example surface_card_meaning_ex :
  exists t toks, card_text t 10 (Some (T "3")) "k/z" toks /\
    reads toks [Q2R (10 # 10); Q2R (20 # 10); Q2R (30 # 10); Q2R (25 # 100); Q2R (-1)] /\
    exists sn, mcnp_means "k/z" [Q2R (10 # 10); Q2R (20 # 10); Q2R (30 # 10); Q2R (25 # 100); Q2R (-1)] sn.
Proof.
  exists (T "10 3 k/z 1.0 2.0  3.0 0.25 -1 "), [T "1.0"; T "2.0"; T "3.0"; T "0.25"; T "-1"].
  split; [|split].
  - split; [vm_compute; intuition discriminate|].
    exists (T "10"). split; [reflexivity|split; [vm_compute; intuition discriminate|split; [reflexivity|]]].
    vm_compute. discriminate.
  - repeat constructor.
  - eexists. apply m_kpz1.
Qed.

(* ---------------------------------------------------------------- C20 *)

Lemma normalise_plane_spec a b c d :
  (a, b, c) <> (0, 0, 0) ->
  exists k, k <> 0 /\ normalise_plane [a; b; c; d] = [a * k; b * k; c * k; d * k] /\
    (0 < d * k \/ (d * k = 0 /\ 0 < c * k) \/ (d * k = 0 /\ c * k = 0 /\ 0 < b * k) \/
     (d * k = 0 /\ c * k = 0 /\ b * k = 0 /\ 0 < a * k)).
Proof.
  intros N. unfold normalise_plane, norm_step, c_. cbn [nth].
  assert (I : forall x, x <> 0 -> 1 / x <> 0).
  { intros x H. unfold Rdiv. rewrite Rmult_1_l. now apply Rinv_neq_0_compat. }
  assert (U : forall x, x <> 0 -> 0 < x * (1 / x)).
  { intros x H. replace (x * (1 / x)) with 1 by (field; exact H). lra. }
  destruct (Req_EM_T d 0) as [Ed|Ed].
  - subst d. rewrite (Reqb_refl 0). cbn [negb andb]. rewrite (Reqb_refl 0).
    destruct (Req_EM_T c 0) as [Ec|Ec].
    + subst c. rewrite (Reqb_refl 0). cbn [negb andb]. rewrite ?(Reqb_refl 0).
      destruct (Req_EM_T b 0) as [Eb|Eb].
      * subst b. rewrite ?(Reqb_refl 0). cbn [negb andb]. rewrite ?(Reqb_refl 0).
        destruct (Req_EM_T a 0) as [Ea|Ea]; [subst a; congruence|].
        rewrite (proj2 (Reqb_false a 0) Ea). cbn [negb andb].
        exists (1 / a). split; [auto|split].
        -- repeat (apply (f_equal2 (@cons R)); [ring|]). reflexivity.
        -- right; right; right. specialize (U a Ea). repeat split; try ring. exact U.
      * rewrite (proj2 (Reqb_false b 0) Eb). cbn [negb andb].
        rewrite (proj2 (Reqb_false (1 / b) 0) (I b Eb)). cbn [negb andb].
        exists (1 / b). split; [auto|split].
        -- repeat (apply (f_equal2 (@cons R)); [ring|]). reflexivity.
        -- right; right; left. specialize (U b Eb). repeat split; try ring. exact U.
    + rewrite (proj2 (Reqb_false c 0) Ec). cbn [negb andb].
      rewrite (proj2 (Reqb_false (1 / c) 0) (I c Ec)). cbn [negb andb].
      rewrite ?(proj2 (Reqb_false (1 / c) 0) (I c Ec)). cbn [negb andb].
      exists (1 / c). split; [auto|split].
      * repeat (apply (f_equal2 (@cons R)); [ring|]). reflexivity.
      * right; left. specialize (U c Ec). split; [ring|exact U].
  - rewrite (Reqb_refl 0), (proj2 (Reqb_false d 0) Ed). cbn [negb andb].
    rewrite (proj2 (Reqb_false (1 / d) 0) (I d Ed)). cbn [negb andb].
    rewrite ?(proj2 (Reqb_false (1 / d) 0) (I d Ed)). cbn [negb andb].
    rewrite ?(proj2 (Reqb_false (1 / d) 0) (I d Ed)). cbn [negb andb].
    exists (1 / d). split; [auto|split].
    + reflexivity.
    + left. auto.
Qed.

(** C20: a p card with nine entries is the plane through the three points, with the
    orientation MCNP gives it. *)
Theorem C20_three_point_plane t id tr toks x1 y1 z1 x2 y2 z2 x3 y3 z3 :
  card_text t id tr "p" toks -> reads toks [x1; y1; z1; x2; y2; z2; x3; y3; z3] ->
  not_collinear (Pt x1 y1 z1) (Pt x2 y2 z2) (Pt x3 y3 z3) ->
  exists s sn, read_surface t = Some s /\ s_id s = id /\ s_tr s = tr /\
    surf_sense s = Some sn /\ three_points (Pt x1 y1 z1) (Pt x2 y2 z2) (Pt x3 y3 z3) sn.
Proof.
  intros C RD N. unfold read_surface.
  rewrite (card_text_card t id tr _ toks C eq_refl). reads_in RD.
  change (classify_card (mkCard id tr (T "p") toks) fresh)
    with (classify_general_planes (mkCard id tr (T "p") toks) fresh).
  unfold classify_general_planes, reading. cbn [k_coef k_id k_tr]. rewrite L, F. cbn [Nat.eqb].
  set (l := three_point_coords _). unfold c_, three_point_coords in l. cbn [nth Nat.add] in l.
  match eval unfold l in l with
  | [?a; ?b; ?c; ?d] =>
      destruct (normalise_plane_spec a b c d) as (k & Hk & E & O)
  end.
  { intros H. injection H as H1 H2 H3. apply N. unfold cross_pt, sub_pt. cbn [px py pz].
    f_equal; lra. }
  assert (E' : normalise_plane l = _) by exact E. clear E.
  eexists. eexists. split; [reflexivity|]. unfold surf_sense. cbn [s_id s_tr s_type s_coef set_type].
  rewrite E'. cbn [sem]. repeat (split; [reflexivity|]).
  eexists _, _, _, _. split; [reflexivity|].
  split.
  { intros H. injection H as H1 H2 H3. apply N. unfold cross_pt, sub_pt. cbn [px py pz].
    apply Rmult_integral in H1, H2, H3. f_equal; lra. }
  split; [unfold plane; cbn [px py pz]; ring|].
  split; [unfold plane; cbn [px py pz]; ring|].
  split; [unfold plane; cbn [px py pz]; ring|].
  exact O.
Qed.
Print Assumptions C20_three_point_plane.

Lemma perp_parallel ax ay az u v :
  dot (Pt ax ay az) u = 0 -> dot (Pt ax ay az) v = 0 -> cross_pt u v <> Pt 0 0 0 ->
  exists m, ax = m * px (cross_pt u v) /\ ay = m * py (cross_pt u v) /\ az = m * pz (cross_pt u v).
Proof.
  destruct u as [u1 u2 u3], v as [v1 v2 v3]. unfold dot, cross_pt. cbn [px py pz]. intros Hu Hv N.
  set (n1 := u2 * v3 - u3 * v2) in *. set (n2 := u3 * v1 - u1 * v3) in *. set (n3 := u1 * v2 - u2 * v1) in *.
  assert (E1 : ay * n3 - az * n2 = 0).
  { replace (ay * n3 - az * n2) with (u1 * (ax * v1 + ay * v2 + az * v3) - v1 * (ax * u1 + ay * u2 + az * u3))
      by (unfold n2, n3; ring). rewrite Hu, Hv. ring. }
  assert (E2 : az * n1 - ax * n3 = 0).
  { replace (az * n1 - ax * n3) with (u2 * (ax * v1 + ay * v2 + az * v3) - v2 * (ax * u1 + ay * u2 + az * u3))
      by (unfold n1, n3; ring). rewrite Hu, Hv. ring. }
  assert (E3 : ax * n2 - ay * n1 = 0).
  { replace (ax * n2 - ay * n1) with (u3 * (ax * v1 + ay * v2 + az * v3) - v3 * (ax * u1 + ay * u2 + az * u3))
      by (unfold n1, n2; ring). rewrite Hu, Hv. ring. }
  clearbody n1 n2 n3. clear Hu Hv.
  destruct (Req_EM_T n1 0) as [Z1|Z1]; [destruct (Req_EM_T n2 0) as [Z2|Z2]; [destruct (Req_EM_T n3 0) as [Z3|Z3]|]|].
  - subst. congruence.
  - exists (az / n3). subst. repeat split; apply (Rmult_eq_reg_r n3); auto; field_simplify; auto; lra.
  - exists (ay / n2). subst. repeat split; apply (Rmult_eq_reg_r n2); auto; field_simplify; auto; lra.
  - exists (ax / n1). repeat split; apply (Rmult_eq_reg_r n1); auto; field_simplify; auto; lra.
Qed.

(** The rule fixes the sides: there is only one oriented plane meeting it. *)
Theorem C20_three_points_unique p1 p2 p3 s s' :
  not_collinear p1 p2 p3 -> three_points p1 p2 p3 s -> three_points p1 p2 p3 s' -> same_sense s s'.
Proof.
  intros N (a & b & c & d & -> & Na & A1 & A2 & A3 & O) (a' & b' & c' & d' & -> & Na' & B1 & B2 & B3 & O').
  destruct (perp_parallel a b c (sub_pt p2 p1) (sub_pt p3 p1)) as (m & M1 & M2 & M3); auto.
  { revert A1 A2. unfold plane, dot, sub_pt. cbn [px py pz]. lra. }
  { revert A1 A3. unfold plane, dot, sub_pt. cbn [px py pz]. lra. }
  destruct (perp_parallel a' b' c' (sub_pt p2 p1) (sub_pt p3 p1)) as (m' & M1' & M2' & M3'); auto.
  { revert B1 B2. unfold plane, dot, sub_pt. cbn [px py pz]. lra. }
  { revert B1 B3. unfold plane, dot, sub_pt. cbn [px py pz]. lra. }
  destruct (cross_pt (sub_pt p2 p1) (sub_pt p3 p1)) as [n1 n2 n3]. cbn [px py pz] in *.
  assert (D : d = m * (n1 * px p1 + n2 * py p1 + n3 * pz p1)) by (revert A1; unfold plane; subst; lra).
  assert (D' : d' = m' * (n1 * px p1 + n2 * py p1 + n3 * pz p1)) by (revert B1; unfold plane; subst; lra).
  set (e := n1 * px p1 + n2 * py p1 + n3 * pz p1) in *. clearbody e.
  assert (Hm : m <> 0) by (intros ->; apply Na; subst; f_equal; [f_equal|]; ring).
  assert (Hm' : m' <> 0) by (intros ->; apply Na'; subst; f_equal; [f_equal|]; ring).
  assert (Z : forall x y, x <> 0 -> x * y = 0 -> y = 0).
  { intros x y Hx Hy. apply Rmult_integral in Hy. tauto. }
  assert (K : 0 < m * m').
  { assert (sg : forall x, 0 < m * x -> 0 < m' * x -> 0 < m * m').
    { intros x P1 P2. assert (x <> 0) by (intros ->; lra).
      assert (0 < x * x) by nra. assert (0 < (m * m') * (x * x)) by nra.
      apply Rmult_lt_reg_r with (x * x); lra. }
    assert (zz : forall x, m * x = 0 -> 0 < m' * x -> False).
    { intros x P1 P2. apply Z in P1; auto. subst x. lra. }
    assert (zz' : forall x, m' * x = 0 -> 0 < m * x -> False).
    { intros x P1 P2. apply Z in P1; auto. subst x. lra. }
    subst a b c d a' b' c' d'.
    destruct O as [O|[[O1 O]|[[O1 [O2 O]]|[O1 [O2 [O3 O]]]]]];
      destruct O' as [O'|[[O1' O']|[[O1' [O2' O']]|[O1' [O2' [O3' O']]]]]];
      match goal with
      | P : 0 < m * ?x, Q : 0 < m' * ?x |- _ => exact (sg x P Q)
      | P : m * ?x = 0, Q : 0 < m' * ?x |- _ => destruct (zz x P Q)
      | P : m' * ?x = 0, Q : 0 < m * ?x |- _ => destruct (zz' x P Q)
      end. }
  apply (same_scale _ _ (m / m')).
  - replace (m / m') with ((m * m') / (m' * m')) by (field; auto).
    apply Rdiv_lt_0_compat; [exact K|nra].
  - intros p. unfold plane. subst. field. auto.
Qed.
Print Assumptions C20_three_points_unique.

Example three_point_plane_ex : not_collinear (Pt 1 0 0) (Pt 0 1 0) (Pt 0 0 1).
Proof. unfold not_collinear, cross_pt, sub_pt. cbn [px py pz]. injection 1. lra. Qed.

(* ---------------------------------------------------------------- C21 *)

Lemma edp_cone_sheet a1 q1 a2 q2 :
  0 <= q1 -> 0 <= q2 -> a1 <> a2 -> q1 <> q2 ->
  let grad := (a2 - a1) / (q2 - q1) in
  let apex := a2 - grad * q2 in
  let t2 := (-1 / grad) ^ 2 in
  let sheet := if Rlt_dec grad 0 then -1 else 1 in
  0 < t2 /\ (sheet = 1 \/ sheet = -1) /\
  q1 ^ 2 = t2 * (a1 - apex) ^ 2 /\ 0 <= sheet * (a1 - apex) /\
  q2 ^ 2 = t2 * (a2 - apex) ^ 2 /\ 0 <= sheet * (a2 - apex).
Proof.
  intros Q1 Q2 NA NQ grad apex t2 sheet.
  assert (Hd : q2 - q1 <> 0) by lra. assert (Hn : a2 - a1 <> 0) by lra.
  assert (Hg : grad <> 0).
  { unfold grad, Rdiv. apply Rmult_integral_contrapositive_currified; auto. now apply Rinv_neq_0_compat. }
  assert (E1 : a1 - apex = grad * q1).
  { unfold apex, grad. field. auto. }
  assert (E2 : a2 - apex = grad * q2) by (unfold apex; ring).
  assert (T : t2 = / grad ^ 2) by (unfold t2; field; auto).
  assert (G2 : 0 < grad ^ 2) by nra.
  split; [rewrite T; now apply Rinv_0_lt_compat|].
  split; [unfold sheet; destruct (Rlt_dec grad 0); auto|].
  rewrite E1, E2, T.
  split; [field; auto|]. split; [unfold sheet; destruct (Rlt_dec grad 0); nra|].
  split; [field; auto|]. unfold sheet; destruct (Rlt_dec grad 0); nra.
Qed.

(** C21 (y and z cards with two pairs).  Missing: x cards (taken for y cards) and cards
    with one pair (ignored), both refuted below; and three pairs (not supported). *)
Theorem C21_point_surfaces_partial t id tr (m : string) toks a1 q1 a2 q2 :
  m = "y"%string \/ m = "z"%string ->
  card_text t id tr m toks -> reads toks [a1; q1; a2; q2] -> 0 <= q1 -> 0 <= q2 ->
  exists s sn, read_surface t = Some s /\ s_id s = id /\ s_tr s = tr /\ surf_sense s = Some sn /\
    (m = "y"%string -> two_circles py (fun p => px p ^ 2 + pz p ^ 2) a1 q1 a2 q2 sn) /\
    (m = "z"%string -> two_circles pz (fun p => px p ^ 2 + py p ^ 2) a1 q1 a2 q2 sn).
Proof.
  intros Hm C RD Q1 Q2. unfold read_surface.
  rewrite (card_text_card t id tr _ toks C) by (destruct Hm as [-> | ->]; reflexivity). reads_in RD.
  dl toks.
  pose proof (edp_cone_sheet a1 q1 a2 q2 Q1 Q2) as CS. cbn zeta in CS.
  destruct Hm as [-> | ->];
  match goal with |- context [classify_card (mkCard ?i ?tt ?m ?k) fresh] =>
    change (classify_card (mkCard i tt m k) fresh) with (classify_edp (mkCard i tt m k) fresh) end;
  unfold classify_edp; cbn [k_coef k_type length]; rewrite F; cbn [Nat.eqb];
  [change (text_eqb (T "y") (T "x")) with false; change (text_eqb (T "y") (T "y")) with true
  |change (text_eqb (T "z") (T "x")) with false; change (text_eqb (T "z") (T "y")) with false;
   change (text_eqb (T "z") (T "z")) with true]; cbv iota;
  unfold define_edp_2coord; cbn [k_id k_tr];
  destruct (Req_EM_T a1 a2) as [Ea|Ea];
  [rewrite (proj2 (Reqb_true a1 a2) Ea)|rewrite (proj2 (Reqb_false a1 a2) Ea);
   destruct (Req_EM_T q1 q2) as [Eq|Eq];
   [rewrite (proj2 (Reqb_true q1 q2) Eq)|rewrite (proj2 (Reqb_false q1 q2) Eq)]
  |rewrite (proj2 (Reqb_true a1 a2) Ea)|rewrite (proj2 (Reqb_false a1 a2) Ea);
   destruct (Req_EM_T q1 q2) as [Eq|Eq];
   [rewrite (proj2 (Reqb_true q1 q2) Eq)|rewrite (proj2 (Reqb_false q1 q2) Eq)]];
  eexists; eexists; (split; [reflexivity|]); (split; [reflexivity|]); (split; [reflexivity|]);
  (split; [reflexivity|]); (split; [intros H; try discriminate H|intros H; try discriminate H]);
  (split; [intros E; try congruence|split; [intros E E2; try congruence|intros E E2; try congruence]]);
  try (apply same_of_fun; intros [x y z]; unfold plane, cyl_y, cyl_z; cbn [px py pz]; ring);
  (eexists _, _, _; split; [apply (CS Ea Eq)|];
   split; [apply (CS Ea Eq)|]; split; [apply (CS Ea Eq)|]; split; [apply (CS Ea Eq)|];
   split; [apply (CS Ea Eq)|]; split; [apply (CS Ea Eq)|]);
  intros [x y z]; unfold one_sheet, cone_y, cone_z; cbn [neg pos px py pz]; rewrite !Rminus_0_r; tauto.
Qed.
Print Assumptions C21_point_surfaces_partial.

Lemma words_card_x : words (T "5 x 0 1 2 1") = [T "5"; T "x"; T "0"; T "1"; T "2"; T "1"].
Proof. reflexivity. Qed.

(** C21 fails for x cards: x 0 1 2 1 (the cylinder of radius 1 around the x axis)
    becomes a cylinder around the y axis. *)
Theorem C21_x_card_refuted :
  exists t toks a1 q1 a2 q2 s sn, card_text t 5 None "x" toks /\ reads toks [a1; q1; a2; q2] /\
    0 <= q1 /\ 0 <= q2 /\ read_surface t = Some s /\ surf_sense s = Some sn /\
    ~ two_circles px (fun p => py p ^ 2 + pz p ^ 2) a1 q1 a2 q2 sn.
Proof.
  exists (T "5 x 0 1 2 1"), [T "0"; T "1"; T "2"; T "1"].
  assert (F : forall n, Q2R (n # 1) = IZR n) by (intros; unfold Q2R; cbn; field).
  exists (Q2R (inject_Z 0 * 1)), (Q2R (inject_Z 1 * 1)), (Q2R (inject_Z 2 * 1)), (Q2R (inject_Z 1 * 1)).
  assert (E0 : Q2R (inject_Z 0 * 1) = 0) by exact (F 0%Z).
  assert (E1 : Q2R (inject_Z 1 * 1) = 1) by exact (F 1%Z).
  assert (E2 : Q2R (inject_Z 2 * 1) = 2) by exact (F 2%Z).
  eexists. eexists.
  split; [split; [vm_compute; intuition discriminate|exists (T "5")]|].
  { split; [reflexivity|split; [vm_compute; intuition discriminate|reflexivity]]. }
  split; [repeat constructor|]. rewrite ?E0, ?E1, ?E2. split; [lra|split; [lra|]].
  split.
  { unfold read_surface. change (card_of_text _) with (Some (mkCard 5 None (T "x") [T "0"; T "1"; T "2"; T "1"])).
    cbv iota beta.
    change (classify_card _ fresh)
      with (Some (define_edp_2coord (mkCard 5 None (T "x") [T "0"; T "1"; T "2"; T "1"]) fresh
                    (Q2R (inject_Z 0 * 1)) (Q2R (inject_Z 1 * 1)) (Q2R (inject_Z 2 * 1)) (Q2R (inject_Z 1 * 1)) AY)).
    rewrite E0, E1, E2. unfold define_edp_2coord.
    rewrite (proj2 (Reqb_false 0 2)) by lra. rewrite (Reqb_refl 1). cbn [k_id k_tr]. reflexivity. }
  split; [reflexivity|].
  intros (_ & H & _). specialize (H ltac:(lra) eq_refl (Pt 2 0 0)). destruct H as [[_ H] _].
  cbn [neg of_fun] in H. unfold cyl_y in H. cbn [px py pz] in H. lra.
Qed.
Print Assumptions C21_x_card_refuted.

(** Cards with one pair: the surface is left without number, type and coefficients. *)
Theorem C21_one_pair_ignored t id tr (m : string) toks a q :
  m = "x"%string \/ m = "y"%string \/ m = "z"%string ->
  card_text t id tr m toks -> reads toks [a; q] -> read_surface t = Some fresh.
Proof.
  intros Hm C RD. unfold read_surface.
  rewrite (card_text_card t id tr _ toks C) by (destruct Hm as [-> | [-> | ->]]; reflexivity). reads_in RD.
  dl toks.
  destruct Hm as [-> | [-> | ->]];
  match goal with |- context [classify_card (mkCard ?i ?tt ?m ?k) fresh] =>
    change (classify_card (mkCard i tt m k) fresh) with (classify_edp (mkCard i tt m k) fresh) end;
  unfold classify_edp; cbn [k_coef k_type length]; rewrite F; cbn [Nat.eqb]; reflexivity.
Qed.
Print Assumptions C21_one_pair_ignored.

(** C21 fails for one pair: y 3 1 is the plane y = 3, and no plane is stored. *)
Theorem C21_one_pair_refuted :
  exists t toks a q s, card_text t 5 None "y" toks /\ reads toks [a; q] /\ read_surface t = Some s /\
    ~ denotes s (of_fun (plane 0 1 0 a)).
Proof.
  assert (C : card_text (T "5 y 3 1") 5 None "y" [T "3"; T "1"]).
  { split; [vm_compute; intuition discriminate|exists (T "5")].
    split; [reflexivity|split; [vm_compute; intuition discriminate|reflexivity]]. }
  assert (RD : reads [T "3"; T "1"] [Q2R 3; Q2R 1]) by repeat constructor.
  exists (T "5 y 3 1"), [T "3"; T "1"], (Q2R 3), (Q2R 1), fresh.
  split; [exact C|split; [exact RD|split]].
  - eapply C21_one_pair_ignored; [|exact C|exact RD]. auto.
  - intros (sn & E & _). discriminate E.
Qed.
Print Assumptions C21_one_pair_refuted.

Example point_surfaces_ex :
  card_text (T "7 z 0 1 4 3") 7 None "z" [T "0"; T "1"; T "4"; T "3"] /\
  exists l, reads [T "0"; T "1"; T "4"; T "3"] l.
Proof.
  split; [split; [vm_compute; intuition discriminate|exists (T "7")]|].
  - split; [reflexivity|split; [vm_compute; intuition discriminate|reflexivity]].
  - eexists [_; _; _; _]. repeat constructor.
Qed.

(* ---------------------------------------------------------------- C64 *)

(** C64 fails: the entry 1.0-3, a number MCNP accepts and which the density reader of
    this code base accepts, raises in a surface card. *)
Theorem C64_surface_number_refuted :
  exists t toks, card_text t 5 None "px" toks /\
    (exists tok q, toks = [tok] /\ get_fortran_formatted_number tok = Some q /\ (q == 1 # 1000)%Q) /\
    read_surface t = None.
Proof.
  exists (T "5 px 1.0-3"), [T "1.0-3"].
  split; [|split].
  - split; [vm_compute; intuition discriminate|exists (T "5")].
    split; [reflexivity|split; [vm_compute; intuition discriminate|reflexivity]].
  - exists (T "1.0-3"). eexists. split; [reflexivity|split; [vm_compute; reflexivity|reflexivity]].
  - reflexivity.
Qed.
Print Assumptions C64_surface_number_refuted.

(** C64 holds for every entry in a form Python's float() accepts: the entry is read
    with its value. *)
Theorem C64_surface_number_partial t id tr toks a :
  card_text t id tr "px" toks -> reads toks [a] ->
  read_surface t = Some (mkS id tr PLANE_X [1; 0; 0; a] TRANSMISSION).
Proof.
  intros C RD. unfold read_surface. rewrite (card_text_card t id tr _ toks C eq_refl).
  reads_in RD. dl toks.
  change (classify_card (mkCard id tr (T "px") [c]) fresh)
    with (reading (mkCard id tr (T "px") [c]) fresh 1 PLANE_X (fun l => [1; 0; 0; c_ l 0])).
  unfold reading. cbn [k_coef k_id k_tr]. rewrite F. reflexivity.
Qed.
Print Assumptions C64_surface_number_partial.
