(** C49: what one format leaves for the next. *)
From Coq Require Import Reals QArith Lia Lra.
From Verif Require Import PyStr PyStrFacts PyInt Formatter CellModel CellWriters SurfModel SurfWriters FlattenModel PyDict MaterialModel
  MaterialWriters NamesModel FlukaModel FlukaInput OpenMCPrune UniverseModel PropFlukaNames ConvertModel.
Open Scope nat_scope.
Open Scope list_scope.

(** ** Specification *)

(** What a format gives for a deck on its own. *)
Definition alone str show fuel no uo (c : code) (d : deck) : option output := option_map fst (write_code str show fuel no uo c d).

(** A whole cone: no sheet is chosen. *)
Definition whole_cone (s : surface) : Prop :=
  match s_type s, s_coef s with (CONE_X | CONE_Y | CONE_Z), _ :: _ :: _ :: _ :: sheet :: _ => sheet = 0%R | _, _ => False end.

(** The functions enumerate the sets (FLUKAInput.py 329-332, Input.py 96-99). *)
Definition enumerates_nuclides (no : dict material -> list text) : Prop := forall ms, is_nuclide_set ms (no ms).
Definition enumerates_universes (uo : list ucell -> list Z) : Prop :=
  forall cs, (forall c, In c cs -> uc_number c <> None) -> universe_ids (uo cs) cs.

(** ** Formats other than FLUKA and SCONE *)

Lemma write_keeps str show fuel no uo c d o d' : write_code str show fuel no uo c d = Some (o, d') -> c <> FLUKA ->
  d_surfs d' = d_surfs d /\ d_cells d' = d_cells d /\ d_mats d' = d_mats d /\ (c <> SCONE -> d_univ d' = d_univ d).
Proof.
  intros W NF. destruct c; cbn [write_code] in W; try tauto.
  1-4: match type of W with option_map _ ?x = _ => destruct x; [|discriminate] end; injection W as _ <-; tauto.
  destruct (scone_file str show fuel uo d) as [[t us]|]; [|discriminate]. injection W as _ <-. tauto.
Qed.

Lemma run_keeps str show fuel no uo cs : forall d os d', run str show fuel no uo cs d = (os, Some d') -> ~ In FLUKA cs ->
  d_surfs d' = d_surfs d /\ d_cells d' = d_cells d /\ d_mats d' = d_mats d /\ (~ In SCONE cs -> d_univ d' = d_univ d).
Proof.
  induction cs as [|c cs IH]; intros d os d' R N; cbn [run] in R.
  - injection R as _ <-. tauto.
  - destruct (write_code str show fuel no uo c d) as [[o d1]|] eqn:W; [|discriminate]. destruct (run str show fuel no uo cs d1) as [os1 e] eqn:R1.
    injection R as _ ->. destruct (write_keeps _ _ _ _ _ _ _ _ _ W) as (A1 & A2 & A3 & A4); [intros ->; apply N; now left|].
    destruct (IH _ _ _ R1) as (B1 & B2 & B3 & B4); [intro I; apply N; now right|]. rewrite B1, B2, B3. repeat split; [assumption..|].
    intro NS. rewrite B4, A4; [reflexivity|intros ->; apply NS; now left|intro I; apply NS; now right].
Qed.

Lemma alone_depends str show fuel no uo c d d' : d_surfs d' = d_surfs d -> d_cells d' = d_cells d -> d_mats d' = d_mats d ->
  (c = SCONE -> d_univ d' = d_univ d) -> alone str show fuel no uo c d' = alone str show fuel no uo c d.
Proof.
  intros E1 E2 E3 E4. unfold alone. destruct d as [s c0 m u], d' as [s' c' m' u']. cbn [d_surfs d_cells d_mats d_univ] in *. subst.
  destruct c; cbn [write_code]; unfold mcnp_file, serpent_file, openmc_trees, phits_file; cbn [d_surfs d_cells d_mats]; try (now match goal with |- option_map fst (option_map _ ?x) = _ => destruct x end).
  - unfold fluka_file. cbn [d_surfs d_cells d_mats d_univ]. destruct (fluka_surfaces str s) as [[? ?]|]; [|reflexivity].
    destruct (write_fluka_materials show fuel (no m) m) as [[? ?]|]; [|reflexivity]. now match goal with |- context [seqs ?x] => destruct (seqs x) end.
  - now rewrite (E4 eq_refl).
Qed.

(** The output of a format does not depend on the formats written before, as long as FLUKA is not among them and SCONE is
    not written twice.  Missing: with FLUKA before, or SCONE twice, this is false (below). *)
Theorem C49_partial str show fuel no uo before c d os d' :
  run str show fuel no uo before d = (os, Some d') -> ~ In FLUKA before -> (c = SCONE -> ~ In SCONE before) ->
  alone str show fuel no uo c d' = alone str show fuel no uo c d.
Proof.
  intros R N S. destruct (run_keeps _ _ _ _ _ _ _ _ _ R N) as (A & B & C & D). apply alone_depends; auto.
Qed.
Print Assumptions C49_partial.

Lemma run_app str show fuel no uo a b d : run str show fuel no uo (a ++ b) d =
  let (os, e) := run str show fuel no uo a d in
  match e with Some d' => let (os', e') := run str show fuel no uo b d' in (os ++ os', e') | None => (os, None) end.
Proof.
  revert d. induction a as [|c a IH]; intro d; cbn [app run].
  - now destruct (run str show fuel no uo b d).
  - destruct (write_code str show fuel no uo c d) as [[o d1]|]; [|reflexivity]. rewrite IH. destruct (run str show fuel no uo a d1) as [os [d2|]]; [|reflexivity].
    now destruct (run str show fuel no uo b d2).
Qed.

Lemma run_outputs str show fuel no uo cs : forall d os e, run str show fuel no uo cs d = (os, e) -> ~ In FLUKA cs -> ~ In SCONE cs ->
  Forall (fun p => alone str show fuel no uo (fst p) d = Some (snd p)) os.
Proof.
  induction cs as [|c cs IH]; intros d os e R N1 N2; cbn [run] in R; [injection R as <- _; constructor|].
  destruct (write_code str show fuel no uo c d) as [[o d1]|] eqn:W; [|injection R as <- _; constructor].
  destruct (run str show fuel no uo cs d1) as [os1 e1] eqn:R1. injection R as <- _.
  destruct (write_keeps _ _ _ _ _ _ _ _ _ W) as (A1 & A2 & A3 & A4); [intros ->; apply N1; now left|]. constructor.
  - unfold alone. cbn [fst snd]. now rewrite W.
  - assert (F := IH _ _ _ R1 (fun I => N1 (or_intror I)) (fun I => N2 (or_intror I))). apply (Forall_impl _) with (2 := F). intros [c' o'] H. cbn [fst snd] in *.
    rewrite <- H. symmetry. apply alone_depends; auto. intro; apply A4; intros ->; apply N2; now left.
Qed.

(** When all formats are asked for, the outputs for MCNP, Serpent, OpenMC, PHITS and FLUKA are those of the formats alone,
    and each of these formats that can be written alone is written unless an earlier one fails. *)
Theorem C49_all str show fuel no uo d os e : run str show fuel no uo all_codes d = (os, e) ->
  (forall c o, In (c, o) os -> c <> SCONE -> alone str show fuel no uo c d = Some o) /\
  ((forall c, In c all_codes -> c <> SCONE -> alone str show fuel no uo c d <> None) -> map fst (firstn 5 os) = [MCNP; SERPENT; OPENMC; PHITS; FLUKA]).
Proof.
  intro R. change all_codes with ([MCNP; SERPENT; OPENMC; PHITS] ++ [FLUKA; SCONE]) in R. rewrite run_app in R.
  destruct (run str show fuel no uo [MCNP; SERPENT; OPENMC; PHITS] d) as [os1 e1] eqn:R1.
  assert (NF : ~ In FLUKA [MCNP; SERPENT; OPENMC; PHITS]) by (intros [?|[?|[?|[?|[]]]]]; discriminate).
  assert (NS : ~ In SCONE [MCNP; SERPENT; OPENMC; PHITS]) by (intros [?|[?|[?|[?|[]]]]]; discriminate).
  assert (F := run_outputs _ _ _ _ _ _ _ _ _ R1 NF NS). rewrite Forall_forall in F. split.
  - intros c o I NSC. destruct e1 as [d1|].
    + destruct (run_keeps _ _ _ _ _ _ _ _ _ R1 NF) as (A1 & A2 & A3 & A4). specialize (A4 NS). cbn [run] in R.
      destruct (write_code str show fuel no uo FLUKA d1) as [[o1 d2]|] eqn:W; [|injection R as <- _; rewrite app_nil_r in I; now apply (F (c, o))].
      destruct (write_code str show fuel no uo SCONE d2) as [[o2 d3]|]; injection R as <- _; apply in_app_or in I as [I|I]; try (now apply (F (c, o)));
        destruct I as [I|I]; try (injection I as <- <-; rewrite <- (alone_depends str show fuel no uo FLUKA d d1); auto; unfold alone; now rewrite W).
      * destruct I as [I|[]]. injection I as <- _. tauto.
      * destruct I.
    + injection R as <- _. now apply (F (c, o)).
  - intro H. unfold alone in H.
    assert (H1 := H MCNP (or_introl eq_refl) ltac:(discriminate)). assert (H2 := H SERPENT ltac:(cbn; tauto) ltac:(discriminate)).
    assert (H3 := H OPENMC ltac:(cbn; tauto) ltac:(discriminate)). assert (H4 := H PHITS ltac:(cbn; tauto) ltac:(discriminate)).
    assert (H5 := H FLUKA ltac:(cbn; tauto) ltac:(discriminate)). clear H F NF NS. cbn [run write_code] in *.
    destruct (mcnp_file str show fuel d); [|tauto]. cbn [option_map] in R1. destruct (serpent_file str show fuel d); [|tauto]. cbn [option_map] in R1.
    destruct (openmc_trees str show d) as [[? ?]|]; [|tauto]. cbn [option_map] in R1. destruct (phits_file str show fuel d); [|tauto]. cbn [option_map] in R1.
    injection R1 as <- <-. destruct (fluka_file str show fuel no d) as [[? d2]|]; [|tauto]. cbn [option_map fst snd] in R.
    destruct (option_map _ (scone_file str show fuel uo d2)) as [[? ?]|]; injection R as <- _; reflexivity.
Qed.
Print Assumptions C49_all.

(** ** FLUKA and the geometry *)

Lemma fluka_surface_same str b s t s' : write_fluka_surface str b s = Some (t, s') -> ~ whole_cone s -> s' = s.
Proof.
  intros W N. unfold write_fluka_surface in W. unfold whole_cone in N. destruct s as [id tr ty co bc]. cbn [s_type s_coef s_id s_tr s_bc] in *.
  assert (SM : forall x : option text, option_map (fun t : text => (t, mkS id tr ty co bc)) x = Some (t, s') -> s' = mkS id tr ty co bc)
    by (intros [x|] E; [now injection E|discriminate]).
  assert (CN : forall ty0, match fluka_cone str ty0 id b co with Some (t, l') => Some (t, mkS id tr ty l' bc) | None => None end = Some (t, s') ->
    match co with _ :: _ :: _ :: _ :: sheet :: _ => sheet <> 0%R | _ => True end -> s' = mkS id tr ty co bc).
  { intros ty0 E NZ. unfold fluka_cone in E. destruct co as [|x [|y [|z [|t2 [|sh co]]]]]; try discriminate.
    destruct b as [|b1 [|b2 [|b3 [|b4 [|b5 [|b6 [|]]]]]]]; try discriminate. destruct (Req_EM_T sh 0); [tauto|].
    destruct (match ty0 with CONE_X => (true, b1, b2, x) | CONE_Y => (false, b3, b4, y) | _ => (false, b5, b6, z) end) as [[[f lo] hi] ap].
    destruct (half_cone_base f sh lo hi ap) as [[ba h]|]; [|discriminate]. destruct (Rlt_dec t2 0); [discriminate|]. now injection E. }
  destruct ty; try (now apply SM in W); try (apply CN in W; [assumption|destruct co as [|? [|? [|? [|? [|? ?]]]]]; tauto]);
    destruct co as [|? [|? [|? [|? ?]]]]; try discriminate; now apply SM in W.
Qed.

Lemma fluka_surfaces_same str l : forall t l', fluka_surfaces str l = Some (t, l') -> Forall (fun p => ~ whole_cone (fst p)) l -> l' = l.
Proof.
  induction l as [|[s b] l IH]; intros t l' E F; cbn [fluka_surfaces] in E; [now injection E|]. inversion F as [|? ? N F']; subst.
  destruct (write_fluka_surface str b s) as [[t1 s']|] eqn:W; [|discriminate]. destruct (fluka_surfaces str l) as [[u r]|]; [|discriminate].
  injection E as _ <-. rewrite (fluka_surface_same _ _ _ _ _ W N). now rewrite (IH _ _ eq_refl F').
Qed.

(** Without whole cones, the surfaces and the cells are the same after any formats in any order. *)
Theorem C49_geometry str show fuel no uo cs : forall d os d', run str show fuel no uo cs d = (os, Some d') ->
  Forall (fun p => ~ whole_cone (fst p)) (d_surfs d) -> d_surfs d' = d_surfs d /\ d_cells d' = d_cells d.
Proof.
  induction cs as [|c cs IH]; intros d os d' R F; cbn [run] in R; [now injection R as _ <-|].
  destruct (write_code str show fuel no uo c d) as [[o d1]|] eqn:W; [|discriminate]. destruct (run str show fuel no uo cs d1) as [os1 e] eqn:R1. injection R as _ ->.
  assert (K : d_surfs d1 = d_surfs d /\ d_cells d1 = d_cells d).
  { destruct c; try (destruct (write_keeps _ _ _ _ _ _ _ _ _ W) as (A & B & _); [discriminate|now split]).
    cbn [write_code] in W. unfold fluka_file in W. destruct (fluka_surfaces str (d_surfs d)) as [[ss l']|] eqn:FS; [|discriminate].
    destruct (write_fluka_materials show fuel (no (d_mats d)) (d_mats d)) as [[? ?]|]; [|discriminate].
    match type of W with option_map _ (match seqs ?x with _ => _ end) = _ => destruct (seqs x) end; [|discriminate].
    injection W as _ <-. cbn [d_surfs d_cells]. split; [|reflexivity]. now apply (fluka_surfaces_same _ _ _ _ FS). }
  destruct K as [K1 K2]. destruct (IH _ _ _ R1) as [B1 B2]; [now rewrite K1|]. now rewrite B1, B2.
Qed.
Print Assumptions C49_geometry.

(** ** FLUKA and the materials *)

Lemma names_checked : forallb (fun e => match py_int (T (snd e)), zaid_to_name (T (snd e)) with None, None => true | _, _ => false end) zz_table = true.
Proof. vm_compute. reflexivity. Qed.
Lemma called_not_number z f : called z f -> py_int f = None /\ zaid_to_name f = None.
Proof.
  intro C. assert (I : exists w n, In (w, n) zz_table /\ f = T n) by (destruct C as [z n I|z n _ I _]; eauto).
  destruct I as (w & n & I & ->). assert (K := names_checked). rewrite forallb_forall in K. specialize (K _ I). cbn [snd] in K.
  destruct (py_int (T n)), (zaid_to_name (T n)); try discriminate. now split.
Qed.

Lemma mapM_fails {A B} (f : A -> option B) l x : In x l -> f x = None -> mapM f l = None.
Proof.
  induction l as [|y l IH]; intros I N; [destruct I|]. cbn [mapM]. destruct I as [->|I]; [now rewrite N|]. destruct (f y); [|reflexivity]. now rewrite (IH I N).
Qed.
Lemma seqs_fails l : In None l -> seqs l = None.
Proof.
  induction l as [|a l IH]; intro I; [destruct I|]. cbn [seqs]. destruct I as [->|I]; [reflexivity|]. rewrite (IH I). now destruct a.
Qed.
Lemma zaids_fails c f : In f (keys c) -> py_int f = None -> zaids c = None.
Proof.
  induction c as [|[k q] c IH]; intros I P; [destruct I|]. cbn [zaids]. cbn in I. destruct I as [->|I]; [now rewrite P|]. destruct (py_int k); [|reflexivity]. now rewrite (IH I P).
Qed.
Lemma collapse_fails order n : In n order -> collapse n = None -> collapsed_map order = None.
Proof.
  induction order as [|m l IH]; intros I C; [destruct I|]. cbn [collapsed_map]. destruct I as [->|I]; [now rewrite C|]. rewrite (IH I C). now destruct (collapse m) as [[?|]|].
Qed.

(** Once FLUKA is written, a material with a nuclide FLUKA has a name for makes OpenMC, PHITS and a second FLUKA fail,
    and SCONE too if its density is a mass density. *)
Theorem C49_after_fluka str show fuel no uo d o d' k m n z f : enumerates_nuclides no ->
  write_code str show fuel no uo FLUKA d = Some (o, d') ->
  In (k, m) (d_mats d) -> In n (keys (m_comp m)) -> py_int n = Some z -> called z f ->
  alone str show fuel no uo OPENMC d' = None /\ alone str show fuel no uo FLUKA d' = None /\
  ((forall x, In x (keys (m_xs m)) -> py_int x <> None) -> alone str show fuel no uo PHITS d' = None) /\
  ((m_dens m <= 0)%Q -> alone str show fuel no uo SCONE d' = None).
Proof.
  intros EN W I IN P C. destruct (called_not_number z f C) as [NI NZ].
  assert (D : exists m', In (k, m') (d_mats d') /\ m_dens m' = m_dens m /\ m_xs m' = m_xs m /\ In f (keys (m_comp m'))).
  { cbn [write_code] in W. unfold fluka_file in W. destruct (fluka_surfaces str (d_surfs d)) as [[ss l']|]; [|discriminate].
    destruct (write_fluka_materials show fuel (no (d_mats d)) (d_mats d)) as [[cards ms']|] eqn:WM; [|discriminate].
    match type of W with option_map _ (match seqs ?x with _ => _ end) = _ => destruct (seqs x) end; [|discriminate].
    injection W as _ <-. cbn [d_mats]. apply written_materials in WM as (CN & -> & _).
    exists (with_comp m (named (entries (no (d_mats d))) (m_comp m))). split; [unfold rename_all; now apply (in_map (fun e => (fst e, with_comp (snd e) (named (entries (no (d_mats d))) (m_comp (snd e)))))) in I|].
    split; [reflexivity|]. split; [reflexivity|]. cbn [with_comp m_comp]. unfold named. apply named_keys. right. exists n. split; [|exact IN].
    apply in_entries. split; [apply (EN (d_mats d)); eauto|]. now apply (collapse_called n z). }
  destruct D as (m' & I' & D1 & D2 & D3). assert (D4 := D3). unfold keys in D4. apply in_map_iff in D4 as ([f' q] & E & D4). cbn [fst] in E. subst f'.
  split; [|split; [|split]].
  - unfold alone. cbn [write_code]. unfold openmc_trees.
    replace (mapM (fun e => write_openmc_material show (snd e)) (d_mats d')) with (@None (list openmc_element)).
    + now destruct (mapM (fun s => openmc_surface str (fst s)) (d_surfs d')).
    + symmetry. apply (mapM_fails _ _ _ I'). cbn [snd]. unfold write_openmc_material. rewrite (mapM_fails _ _ _ D4); [reflexivity|].
      unfold openmc_nuclide. cbn [fst]. now rewrite NZ.
  - unfold alone. cbn [write_code]. unfold fluka_file, write_fluka_materials. rewrite (collapse_fails (no (d_mats d')) f).
    + now destruct (fluka_surfaces str (d_surfs d')) as [[? ?]|].
    + apply (EN (d_mats d')). eauto.
    + unfold collapse. now rewrite NI.
  - intro X. unfold alone. cbn [write_code]. unfold phits_file. rewrite seqs_fails; [reflexivity|].
    replace (write_phits_materials show (d_mats d')) with (@None text); [cbn [In]; tauto|]. symmetry. unfold write_phits_materials, write_all.
    rewrite (mapM_fails _ _ m'); [reflexivity|now apply (in_map snd) in I'|]. unfold write_mcnp_material. rewrite (mapM_fails _ _ _ D4); [reflexivity|].
    unfold mcnp_nuclide. cbn [fst]. replace (dget f (m_xs m')) with (@None text); [reflexivity|]. symmetry. apply dget_none. rewrite D2. intro J. now apply (X f J).
  - intro L. unfold alone. cbn [write_code]. unfold scone_file. destruct (create_universes _ _ _) as [us|]; [|reflexivity].
    rewrite seqs_fails; [reflexivity|]. replace (texts (fun e => write_scone_material (snd e)) (d_mats d')) with (@None text); [cbn [In]; tauto|].
    symmetry. unfold texts. rewrite (mapM_fails _ _ _ I'); [reflexivity|]. cbn [snd]. unfold write_scone_material, scone_densities.
    rewrite <- D1 in L. apply Qle_bool_iff in L. rewrite L. cbn [negb]. now rewrite (zaids_fails _ f).
Qed.
Print Assumptions C49_after_fluka.

(** ** A deck *)

Definition some_nuclides (ms : dict material) : list text := nodup (list_eq_dec ascii_dec) (flat_map (fun e => keys (m_comp (snd e))) ms).
Definition some_universes (cs : list ucell) : list Z := nodup Z.eq_dec (flat_map (fun c => match uc_number c with Some n => [n] | None => [] end) cs).
Lemma some_nuclides_ok : enumerates_nuclides some_nuclides.
Proof.
  intro ms. split; [apply NoDup_nodup|]. intro n. unfold some_nuclides. rewrite nodup_In, in_flat_map. split.
  - intros ([k m] & I & J). eauto.
  - intros (k & m & I & J). exists (k, m). auto.
Qed.
Lemma some_universes_ok : enumerates_universes some_universes.
Proof.
  intros cs H. split; [apply NoDup_nodup|]. split; [exact H|]. intro n. unfold some_universes. rewrite nodup_In, in_flat_map. split.
  - intros (c & I & J). exists c. split; [exact I|]. destruct (uc_number c) as [m|]; [|destruct J]. destruct J as [->|[]]. reflexivity.
  - intros (c & I & J). exists c. split; [exact I|]. rewrite J. now left.
Qed.

(** A plane at 5 with iron on one side and nothing on the other; every number printed is 5 or 1. *)
Definition plane5 : surface := mkS 1 None PLANE_X [1; 0; 0; 5]%R TRANSMISSION.
Definition iron (dens : Q) : material := mkM (T "1") (T "iron") dens [(T "26056", 1%Q)] [(T "26056", T "80c")] (Some "255 0 0"%string).
Definition iron_deck (dens : Q) : deck :=
  mkDeck [(plane5, [])]
    [mkG 1 1 (T "-7.8") [T "-1"] [Str (T "-1")] None None None None 1%Q; mkG 2 0 (T "0.0") [T "1"] [Str (T "1")] None None None None 1%Q]
    [(T "1", iron dens)] [].
Definition five (_ : R) : text := T "5.0".
Definition one (_ : Q) : text := T "1.0".

(** All formats can be written for the deck, and the first five are those of the formats alone. *)
Example C49_example : (forall c, alone five one 100 some_nuclides some_universes c (iron_deck (-7)) <> None) /\
  map fst (fst (run five one 100 some_nuclides some_universes all_codes (iron_deck (-7)))) = [MCNP; SERPENT; OPENMC; PHITS; FLUKA].
Proof. split; [intros []; vm_compute; discriminate|vm_compute; reflexivity]. Qed.
Example C49_plane_no_cone : Forall (fun p => ~ whole_cone (fst p)) (d_surfs (iron_deck (-7))).
Proof. constructor; [intro H; exact H|constructor]. Qed.
Example C49_iron_called : called 26056 (T "IRON").
Proof.
  apply element_name.
  - apply zz_none. vm_compute. reflexivity.
  - vm_compute. tauto.
  - vm_compute. intuition discriminate.
Qed.

(** Asking for all formats ends with an exception in SCONE although each format can be written alone. *)
Theorem C49_all_refuted : exists str show fuel no uo d, enumerates_nuclides no /\ enumerates_universes uo /\
  (forall c, alone str show fuel no uo c d <> None) /\ snd (run str show fuel no uo all_codes d) = None.
Proof.
  exists five, one, 100, some_nuclides, some_universes, (iron_deck (-7)). split; [exact some_nuclides_ok|]. split; [exact some_universes_ok|].
  split; [intros []; vm_compute; discriminate|vm_compute; reflexivity].
Qed.
Print Assumptions C49_all_refuted.

(** With an atom density SCONE is written after FLUKA, but with other nuclides than alone. *)
Theorem C49_names_refuted : exists str show fuel no uo d o o1 d1, enumerates_nuclides no /\ enumerates_universes uo /\
  alone str show fuel no uo SCONE d = Some o /\ run str show fuel no uo all_codes d = (o1, Some d1) /\ ~ In (SCONE, o) o1.
Proof.
  exists five, one, 100, some_nuclides, some_universes, (iron_deck (1#10)). do 3 eexists. split; [exact some_nuclides_ok|]. split; [exact some_universes_ok|].
  split; [vm_compute; reflexivity|]. split; [vm_compute; reflexivity|]. cbn [In]. intro H. repeat (destruct H as [H|H]; [discriminate H|]). exact H.
Qed.
Print Assumptions C49_names_refuted.

(** SCONE written twice gives two different files. *)
Theorem C49_twice_refuted : exists str show fuel no uo d o1 o2 d1, enumerates_nuclides no /\ enumerates_universes uo /\
  run str show fuel no uo [SCONE; SCONE] d = ([(SCONE, o1); (SCONE, o2)], Some d1) /\ o1 <> o2.
Proof.
  exists five, one, 100, some_nuclides, some_universes, (iron_deck (1#10)). do 3 eexists. split; [exact some_nuclides_ok|]. split; [exact some_universes_ok|].
  split; [vm_compute; reflexivity|discriminate].
Qed.
Print Assumptions C49_twice_refuted.

(** A whole cone with apex at the origin: after FLUKA, MCNP is told of a cone with apex (1, 1, 1) and slope 0. *)
Lemma cone_changed str show fuel no uo : str 0%R = T "0.0" -> str 1%R = T "1.0" -> enumerates_nuclides no -> exists d o d',
  run str show fuel no uo [FLUKA] d = (o, Some d') /\
  (exists t, alone str show fuel no uo MCNP d = Some (File t)) /\
  (exists t, alone str show fuel no uo MCNP d' = Some (File t)) /\
  alone str show fuel no uo MCNP d' <> alone str show fuel no uo MCNP d.
Proof.
  intros S0 S1 EN. set (s := mkS 1 None CONE_Z [0; 0; 0; 1; 0]%R TRANSMISSION). set (b := [-5; 5; -5; 5; -5; 5]%R).
  destruct (EN []) as [_ E0]. assert (NO : no [] = []) by (destruct (no []) as [|x l]; [reflexivity|destruct (proj1 (E0 x) (or_introl eq_refl)) as (? & ? & [] & _)]).
  exists (mkDeck [(s, b)] [] [] []). set (s' := mkS 1 None CONE_Z (cone_coefficients CONE_Z 0 0 0 1) TRANSMISSION).
  assert (F : fluka_surfaces str [(s, b)] = Some (match fluka_gq str 1 (cone_coefficients CONE_Z 0 0 0 1) with Some t => t ++ [] | None => [] end, [(s', b)])).
  { cbn [fluka_surfaces]. unfold write_fluka_surface. cbn [s_type s_coef s s_id s_tr s_bc]. unfold fluka_cone, b. destruct (Req_EM_T 0 0) as [_|N]; [|congruence]. reflexivity. }
  eexists. exists (mkDeck [(s', b)] [] [] []). split.
  - cbn [run write_code]. unfold fluka_file. cbn [d_surfs d_mats d_cells d_univ]. rewrite F, NO. reflexivity.
  - assert (M1 : mcnp_surface_text str s = Some (T "1 k/z 0.0 0.0 0.0 1.0" ++ nl)).
    { unfold mcnp_surface_text, s. cbn [s_type s_coef s_bc s_id mcnp_boundary mcnp_body]. unfold numbers, spread. cbn [map]. rewrite S0, S1. reflexivity. }
    assert (M2 : mcnp_surface_text str s' = Some (T "1 k/z 1.0 1.0 1.0 0.0" ++ nl)).
    { unfold mcnp_surface_text, s', cone_coefficients. cbn [s_type s_coef s_bc s_id mcnp_boundary mcnp_body]. unfold numbers, spread. cbn [map]. rewrite S0, S1. reflexivity. }
    unfold alone. cbn [write_code]. unfold mcnp_file, texts. cbn [d_surfs d_mats d_cells mapM]. unfold mcnp_surface. cbn [fst]. rewrite M1, M2. vm_compute. split; [eauto|]. split; [eauto|discriminate].
Qed.
Theorem C49_cone_refuted : exists str show fuel no uo d o d', str 0%R = T "0.0" /\ str 1%R = T "1.0" /\ enumerates_nuclides no /\ enumerates_universes uo /\
  run str show fuel no uo [FLUKA] d = (o, Some d') /\
  (exists t, alone str show fuel no uo MCNP d = Some (File t)) /\ (exists t, alone str show fuel no uo MCNP d' = Some (File t)) /\
  alone str show fuel no uo MCNP d' <> alone str show fuel no uo MCNP d.
Proof.
  set (str := fun x : R => if Req_EM_T x 0 then T "0.0" else T "1.0").
  assert (S0 : str 0%R = T "0.0") by (unfold str; destruct (Req_EM_T 0 0); congruence).
  assert (S1 : str 1%R = T "1.0") by (unfold str; destruct (Req_EM_T 1 0) as [E|]; [exfalso; lra|reflexivity]).
  destruct (cone_changed str one 100 some_nuclides some_universes S0 S1 some_nuclides_ok) as (d & o & d' & H).
  exists str, one, 100, some_nuclides, some_universes, d, o, d'. repeat (split; [first [exact S0|exact S1|exact some_nuclides_ok|exact some_universes_ok]|]). exact H.
Qed.
Print Assumptions C49_cone_refuted.
