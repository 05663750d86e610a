(** From an MCNP file to the characters of geometry.xml and materials.xml (C90). *)
From Coq Require Import QArith Reals Lia.
From Verif Require Import PyStr PyStrFacts PyInt PyIntFacts FortranNumber FortranNumberProofs PyDict RegionSpec CellModel CellProofs SurfModel SurfSpec GeomSpec FlattenProofs MaterialModel MaterialProofs PropMaterial MaterialWriters
  NotsModel DeckScan FileModel FileProofs PropDeck PropKeyword ConvertModel MainModel PropProcess PropPlace PropMain PropCards PropProgram PropRead PropTexts OpenMCPrune CellWriters CellWritersOut SurfWritersProofs XmlModel PropXml.
From Verif Require PropOpenMC FlattenModel.
Open Scope nat_scope.
Open Scope list_scope.

(** The texts of the deck that a file becomes have no control characters. *)
Lemma deck_clean str show quick s cells ss ds d N :
  describes s cells ss ds -> (forall fuel, N <= fuel -> load str show fuel quick s = Done d) -> deck_means str show cells (map snd ss) ds d ->
  whole_universes cells ->
  (forall c star v tr, In c cells -> has_kw (KFill star v tr) (cs_keys c) -> exists m, fill_means (trs_of ds) star tr m) ->
  (forall c star v sep inner, In c cells -> has_kw (KFill star v (Some (sep, inner))) (cs_keys c) -> Forall clean (words inner)) ->
  (forall x, clean (str x)) -> (forall q, clean (show q)) -> clean_deck d.
Proof.
  intros DS L D WU GF FW CS CQ. assert (PI : forall v, py_int v <> None -> clean v).
  { intros v H. destruct (py_int v) as [z|] eqn:E; [|tauto]. unfold py_int in E. destruct v as [|c r]; [discriminate E|]. unfold take_sign in E.
    destruct (Ascii.eqb c "-") eqn:E1; [|destruct (Ascii.eqb c "+") eqn:E2].
    - apply Ascii.eqb_eq in E1. subst c. destruct r as [|c2 r]; [discriminate E|]. destruct (forallb is_digit (c2 :: r)) eqn:F; [|discriminate E]. apply (clean_app (T "-")); [reflexivity|now apply clean_digits].
    - apply Ascii.eqb_eq in E2. subst c. destruct r as [|c2 r]; [discriminate E|]. destruct (forallb is_digit (c2 :: r)) eqn:F; [|discriminate E]. apply (clean_app (T "+")); [reflexivity|now apply clean_digits].
    - destruct (forallb is_digit (c :: r)) eqn:F; [|discriminate E]. now apply clean_digits. }
  split.
  - apply Forall_forall. intros g I. apply In_nth_error in I as (k & HG). destruct (nth_there _ _ k g (dm_count _ _ _ _ _ _ D) HG) as (c & HC).
    assert (IC := nth_error_In _ _ HC). assert (M := dm_cells _ _ _ _ _ _ D k c g HC HG). destruct (WU c IC) as [WU1 WU2].
    assert (WD : forall w, In w (placing_words g) -> clean w).
    { intros w IW. destruct (cm_words _ _ _ _ _ _ _ _ _ M w IW) as [(x & ->)|(star & v & sep & inner & K & IW2)]; [apply CS|]. specialize (FW c star v sep inner IC K). rewrite Forall_forall in FW. now apply FW. }
    split; [|split; [|split; [|split]]].
    + apply Forall_forall. intros [o|t] II; [exact Logic.I|]. destruct (cm_laid _ _ _ _ _ _ _ _ _ M) as [_ CN]. destruct (is_word t) eqn:EW.
      * destruct (CN t II EW) as (z & ->). apply clean_Z.
      * unfold is_word in EW. apply negb_false_iff, orb_true_iff in EW as [EW|EW]; apply text_eqb_eq in EW; subst t; reflexivity.
    + intros u EU. destruct (has_univ c) as [(v & H)|NU].
      * rewrite (cm_univ _ _ _ _ _ _ _ _ _ M v H) in EU. injection EU as <-. now apply PI, WU1.
      * rewrite (cm_nouniv _ _ _ _ _ _ _ _ _ M NU) in EU. discriminate.
    + intros u EU. destruct (has_fill c) as [(star & v & tr & H)|NF].
      * destruct (GF c star v tr IC H) as (m & FM). destruct (cm_fill _ _ _ _ _ _ _ _ _ M star v tr m H FM) as [E _]. rewrite E in EU. injection EU as <-. now apply PI, (WU2 star v tr).
      * destruct (cm_nofill _ _ _ _ _ _ _ _ _ M NF) as [E _]. congruence.
    + intros o EO. apply Forall_forall. intros w IW. apply WD. unfold placing_words. rewrite EO. apply in_app_iff. now left.
    + intros o EO. apply Forall_forall. intros w IW. apply WD. unfold placing_words. rewrite EO. apply in_app_iff. now right.
  - destruct DS as (title & noisy & cs & b1 & b2 & dd & H1 & H2 & H3 & H4 & H5 & H6 & H7 & SC & SS & SD & -> & ->).
    destruct (file_read s title noisy cs b1 ss b2 dd) as (p & R & _ & FC & FS & _ & _ & MG); auto.
    assert (LD : load str show (S N) quick s = Done d) by (apply L; lia).
    destruct (load_stages _ _ _ _ _ _ _ (R N) LD) as (imps & o & pls & cs2 & _ & ER & _).
    assert (G : forall k a, In (k, a) (d_mats d) -> clean k /\ clean (m_name a)).
    { apply (reorganised_texts show (fun _ => True) (Z.of_nat (length (f_mats p) + length (map (fun x => mkC (MInt (c_mat (fst x))) (c_dens (fst x))) (f_cells p))) + 1) (fun k a => clean k /\ clean (m_name a))) with (4 := ER).
      - intros k m q H _. exact H.
      - intros k m q z n H _ _. cbn [m_name]. split; [apply clean_Z|]. apply clean_app; [reflexivity|]. apply clean_app; [apply clean_Z|]. apply clean_app; [reflexivity|apply CQ].
      - intros k m m' H E. unfold finish_material in E. destruct (normalise (m_comp m)) as [c1|]; [|discriminate]. destruct (explode_elements c1 (m_xs m)) as [[? ?]|]; [|discriminate]. injection E as <-. exact H.
      - intros; exact Logic.I.
      - intros c IC. apply in_map_iff in IC as (x & <- & IX). cbn [k_mat]. eauto.
      - lia.
      - intros k a I. destruct (read_file_fresh _ _ _ (R 0) k a I) as (EN & ED & EC). rewrite EN.
        assert (IK : In k (map fst (mats_of (map snd dd)))) by (apply MG; unfold keys; apply in_map_iff; now exists (k, a)).
        assert (CK : clean k).
        { apply in_map_iff in IK as ([k' es] & <- & IK). cbn [fst]. unfold mats_of in IK. apply in_flat_map in IK as (x & IX & IK). destruct x; cbn [In] in IK; try contradiction.
          destruct IK as [E|[]]. injection E as <- <-. apply in_map_iff in IX as ([c x] & EX & IX). cbn [snd] in EX. subst x. destruct SD as [SD _]. rewrite Forall_forall in SD.
          destruct (SD _ IX) as [_ (rest & (_ & NE & DG & _) & _)]. now apply clean_digits. }
        split; [exact CK|]. apply (clean_app (T "M")); [reflexivity|exact CK]. }
    apply Forall_forall. intros [k a] I. cbn [snd]. destruct (dm_mats _ _ _ _ _ _ D k a I) as [-> _]. exact (G k a I).
Qed.

(** C90: asked for OpenMC, the program writes two files whose characters, read as XML, are the model of C84: with C84 this is a
    statement about the characters of the MCNP file and the characters of the files written.  (Missing: what C84 leaves out.) *)
Theorem C90_program_partial str show nuclide_order universe_order quick s cells ss ds rank :
  describes s cells ss ds -> good_cards cells (map snd ss) ds rank -> fine_cards quick (trs_of ds) ss -> uncut_cards ss ->
  whole_universes cells -> openmc_nuclides cells ds ->
  (forall x, word (str x)) -> (forall x, clean (str x)) -> (forall q, clean (show q)) ->
  (forall c star v sep inner, In c cells -> has_kw (KFill star v (Some (sep, inner))) (cs_keys c) -> Forall clean (words inner)) ->
  exists N g ms srfs cls d,
    (forall fuel, N <= fuel -> program str show fuel nuclide_order universe_order quick [OPENMC] s = Done ([(OPENMC, Xml g ms)], Some d)) /\
    read_geometry (geometry_text g) = Some g /\ read_materials (materials_text ms) = Some ms /\
    omc_says str g srfs cls /\ NoDup (map (fun x => fst (fst x)) srfs) /\ NoDup (map om_id ms) /\
    (forall c u, In c cells -> in_universe c u -> used cells u -> exists k r, In (cs_id c, u, k, r) cls /\ content_said str show ds ms c k /\
       forall p env incell, means_at cells (map snd ss) (trs_of ds) p env incell ->
       forall sense, (forall x, In x srfs -> (sense (fst (fst x)) = true <-> pos (snd (fst x)) p)) ->
       holds (zenv sense) r = incell (str_Z (cs_id c))) /\
    (forall x, In x cls -> exists c, In c cells /\ cs_id c = fst (fst (fst x)) /\ in_universe c (snd (fst (fst x)))).
Proof.
  intros DS G FC UC WU ON W CS CQ CF.
  destruct (C84_openmc_partial str show nuclide_order universe_order quick s cells ss ds rank DS G FC UC WU ON W) as (N & g & ms & srfs & cls & d & P & A & B & C & _ & E & F).
  destruct (read_deck str show quick s cells ss ds rank DS G FC) as (N2 & d2 & L & D & _).
  assert (CD := deck_clean str show quick s cells ss ds d2 N2 DS L D WU (gc_fill _ _ _ _ G) CF CS CQ).
  exists N, g, ms, srfs, cls, d. split; [exact P|]. specialize (P (N + N2) ltac:(lia)). unfold program in P. rewrite (L (N + N2)) in P by lia. injection P as P. cbn [run write_code] in P.
  destruct (openmc_trees str show d2) as [[g0 ms0]|] eqn:ET; [|discriminate P]. cbn [option_map fst snd] in P. injection P as -> -> _.
  destruct (C90_files str show d2 g ms ET CD CS CQ) as [R1 R2]. auto 10.
Qed.
Print Assumptions C90_program_partial.

(** The file of the examples of C83 and C84: printing functions of words without control characters exist, and the four cells
    are in the model that is read from the characters of geometry.xml. *)
Example C90_program_example str show nuclide_order universe_order quick : (forall x, word (str x)) -> (forall x, clean (str x)) -> (forall q, clean (show q)) ->
  exists N g ms srfs cls d k1 k2 k3 k4 q1 q2 q3 q4,
    (forall fuel, N <= fuel -> program str show fuel nuclide_order universe_order quick [OPENMC] file83 = Done ([(OPENMC, Xml g ms)], Some d)) /\
    read_geometry (geometry_text g) = Some g /\ read_materials (materials_text ms) = Some ms /\
    omc_says str g srfs cls /\ Forall (fun x => In x cls) [(1, 3, k1, q1); (2, 3, k2, q2); (3, 0, k3, q3); (4, 0, k4, q4)]%Z /\ length ms = length (d_mats d).
Proof.
  intros W CS CQ.
  destruct (C84_openmc_example str show nuclide_order universe_order quick W) as (N & g & ms & srfs & cls & d & k1 & k2 & k3 & k4 & q1 & q2 & q3 & q4 & L & S & F & _).
  destruct (C90_program_partial str show nuclide_order universe_order quick file83 _ surfs83 _ Z.to_nat describes83 good_cards83 (fine_cards83 quick) uncut_cards83 whole83 nuclides83 W CS CQ) as (N2 & g2 & ms2 & _ & _ & d2 & L2 & R1 & R2 & _).
  { intros c star v sep inner I H. cbn [map cells83 snd In] in I. destruct I as [<-|[<-|[<-|[<-|[]]]]]; cbn in H; try (destruct H as [H|[]]; try discriminate H; injection H; intros; subst); try (now destruct H).
    set (w := words _). vm_compute in w. subst w. repeat constructor. }
  assert (E := L (N + N2) ltac:(lia)). rewrite (L2 (N + N2) ltac:(lia)) in E. injection E as -> -> ->.
  exists N, g, ms, srfs, cls, d, k1, k2, k3, k4, q1, q2, q3, q4. split; [exact L|]. split; [exact R1|]. split; [exact R2|]. split; [exact S|]. split; [exact F|].
  assert (E := L N ltac:(lia)). unfold program in E. destruct (load str show N quick file83) as [d0| |]; try discriminate E. injection E as E. cbn [run write_code] in E.
  destruct (openmc_trees str show d0) as [[g0 ms0]|] eqn:ET; [|discriminate E]. cbn [option_map fst snd] in E. injection E as -> -> <-.
  unfold openmc_trees in ET. destruct (FlattenModel.mapM (fun s => openmc_surface str (fst s)) (d_surfs d0)) as [ss|]; [|discriminate ET].
  destruct (FlattenModel.mapM (fun e => write_openmc_material show (snd e)) (d_mats d0)) as [ms'|] eqn:EM; [|discriminate ET]. destruct (prune _); try discriminate ET. injection ET as _ ->.
  clear - EM. revert ms EM. induction (d_mats d0) as [|x l IH]; intros ms EM; cbn [FlattenModel.mapM] in EM; [now injection EM as <-|].
  destruct (write_openmc_material _ _); [|discriminate EM]. destruct (FlattenModel.mapM _ l) as [ys|]; [|discriminate EM]. injection EM as <-. cbn [length]. f_equal. now apply IH.
Qed.

(** The deck of the example of C76 (a sphere, a plane, a filled cell, the outside, two cells of universes, one of them unused). *)
Example C90_files_example : exists g ms, openmc_trees PropOpenMC.strp (fun _ => T "0.5") PropOpenMC.omc_ex = Some (g, ms) /\ length g = 5 /\ length ms = 1 /\ clean_deck PropOpenMC.omc_ex /\ read_geometry (geometry_text g) = Some g /\ read_materials (materials_text ms) = Some ms.
Proof.
  destruct PropOpenMC.C76_example as (a & b & c & d & e & ms & E & _). exists [a; b; c; d; e], ms. split; [exact E|]. split; [reflexivity|].
  assert (C : clean_deck PropOpenMC.omc_ex).
  { split; unfold PropOpenMC.omc_ex; cbn [d_cells d_mats].
    - repeat (apply Forall_cons; [cbn [g_items g_univ g_fill g_offset g_rot];
        split; [repeat (apply Forall_cons; [reflexivity|]); apply Forall_nil|]; repeat split; try discriminate; intros o [= <-]; try reflexivity; repeat (apply Forall_cons; [reflexivity|]); apply Forall_nil|]).
      apply Forall_nil.
    - apply Forall_cons; [|apply Forall_nil]. split; reflexivity. }
  split; [|split; [exact C|]].
  - assert (L : option_map (fun x => length (snd x)) (openmc_trees PropOpenMC.strp (fun _ => T "0.5") PropOpenMC.omc_ex) = Some 1) by (vm_compute; reflexivity).
    rewrite E in L. now injection L.
  - apply (C90_files PropOpenMC.strp (fun _ => T "0.5") PropOpenMC.omc_ex); [exact E|exact C|reflexivity|reflexivity].
Qed.
