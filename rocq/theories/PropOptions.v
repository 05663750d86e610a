(** The command line (csg2csg/__main__.py 25-136): C87, C88, C89. *)
From Coq Require Import QArith Reals Lia Permutation.
From Verif Require Import PyStr PyStrFacts PyInt PyIntFacts PyDict FortranNumber RegionSpec CellModel SurfModel SurfSpec FlattenProofs MaterialModel MaterialProofs PropMaterial MaterialWriters PropMaterialOut
  NotsModel DeckScan FileModel FileProofs PropDeck ConvertModel PropConvert MainModel PropMain PropCards PropProgram PropFile PropRead WrapProofs PropTexts OptionsModel PropProgramMcnp.
From Verif Require PropSerpentIn PropProgramPhits PropVacuum FlattenModel.
Open Scope nat_scope.
Open Scope list_scope.

(* ------------------------------------------------------------------ *)
(** * The formats asked for *)

(** What a command line asks for: nothing said, or all, is every format; otherwise the names of formats, in their order. *)
Inductive wants : option (list text) -> list code -> Prop :=
| wants_default : wants None [MCNP; SERPENT; OPENMC; PHITS; FLUKA; SCONE]
| wants_all ws : In (T "all") ws -> wants (Some ws) [MCNP; SERPENT; OPENMC; PHITS; FLUKA; SCONE]
| wants_names cs : wants (Some (map code_name cs)) cs.

Lemma word_name c : word_codes (code_name c) = [c].
Proof. destruct c; vm_compute; reflexivity. Qed.
Lemma words_names cs : flat_map word_codes (map code_name cs) = cs.
Proof. induction cs as [|c cs IH]; [reflexivity|]. cbn [map flat_map]. now rewrite word_name, IH. Qed.
Lemma asked_wants o cs : wants o cs -> asked o = cs.
Proof.
  unfold asked. destruct 1 as [|ws I|cs]; [vm_compute; reflexivity| |].
  - cbn [asked_words]. assert (E : existsb (text_eqb (T "all")) ws = true).
    { apply existsb_exists. exists (T "all"). split; [exact I|apply text_eqb_refl]. }
    rewrite E. vm_compute. reflexivity.
  - cbn [asked_words]. assert (E : existsb (text_eqb (T "all")) (map code_name cs) = false).
    { induction cs as [|c cs IH]; [reflexivity|]. cbn [map existsb]. rewrite IH. destruct c; reflexivity. }
    rewrite E. apply words_names.
Qed.

Lemma run_codes str show fuel no uo cs : forall d os e, run str show fuel no uo cs d = (os, e) ->
  (exists rest, cs = map fst os ++ rest /\ (e <> None -> rest = [])) .
Proof.
  induction cs as [|c cs IH]; intros d os e R; cbn [run] in R.
  - injection R as <- <-. now exists [].
  - destruct (write_code str show fuel no uo c d) as [[o d']|]; [|injection R as <- <-; exists (c :: cs); split; [reflexivity|tauto]].
    destruct (run str show fuel no uo cs d') as [os' e'] eqn:E. injection R as <- <-. destruct (IH _ _ _ E) as (rest & -> & H). now exists rest.
Qed.

(** C87: the program writes the formats that the command line asks for, in that order and no others: all of them if no
    exception ends it, otherwise those before the one that failed.  (Missing: words that are not names of formats, for which
    this is false, below.) *)
Theorem C87_formats_partial str show fuel no uo preserve quick out cs s : wants out cs ->
  main str show fuel no uo (mkOpt MCNP preserve out quick) s = program str show fuel no uo quick cs s /\
  forall os e, main str show fuel no uo (mkOpt MCNP preserve out quick) s = Done (os, e) ->
    exists rest, cs = map fst os ++ rest /\ (e <> None -> rest = []).
Proof.
  intro W. assert (E : main str show fuel no uo (mkOpt MCNP preserve out quick) s = program str show fuel no uo quick cs s).
  { unfold main. cbn [o_format o_quick o_output]. now rewrite (asked_wants _ _ W). }
  split; [exact E|]. rewrite E. intros os e H. unfold program in H. destruct (load str show fuel quick s) as [d| |]; try discriminate H.
  injection H as H. now apply (run_codes _ _ _ _ _ _ _ _ _ H).
Qed.
Print Assumptions C87_formats_partial.

Example C87_example : wants (Some [T "serpent"; T "mcnp"]) [SERPENT; MCNP].
Proof. exact (wants_names [SERPENT; MCNP]). Qed.

(** For every list of words, the formats written are those whose names are part of a word. *)
Theorem C87_words ws c : ~ In (T "all") ws -> (In c (asked (Some ws)) <-> exists w l r, In w ws /\ w = l ++ code_name c ++ r).
Proof.
  intro NA. unfold asked. cbn [asked_words].
  assert (E : existsb (text_eqb (T "all")) ws = false).
  { destruct (existsb (text_eqb (T "all")) ws) eqn:Q; [|reflexivity]. exfalso. apply existsb_exists in Q as (w & I & Q). apply text_eqb_eq in Q. now subst w. }
  rewrite E. rewrite in_flat_map. unfold word_codes. split.
  - intros (w & I & F). apply filter_In in F as [_ S]. apply sub_in_app in S as (l & r & S). now exists w, l, r.
  - intros (w & l & r & I & S). exists w. split; [exact I|]. apply filter_In. split; [destruct c; cbn; tauto|]. apply sub_in_app. now exists l, r.
Qed.
Print Assumptions C87_words.
Example C87_words_example : ~ In (T "all") [T "openmcnp"] /\ asked (Some [T "openmcnp"]) = [MCNP; OPENMC].
Proof. split; [intros [H|[]]; discriminate H|vm_compute; reflexivity]. Qed.

(** A name in capitals is taken without an error, and nothing is written. *)
Theorem C87_unknown_refuted : exists w, ~ In w (T "all" :: map code_name all_codes) /\
  forall str show no uo preserve quick s N d, (forall fuel, N <= fuel -> load str show fuel quick s = Done d) ->
  forall fuel, N <= fuel -> main str show fuel no uo (mkOpt MCNP preserve (Some [w]) quick) s = Done ([], Some d).
Proof.
  exists (T "MCNP"). split; [cbn; intuition discriminate|]. intros str show no uo preserve quick s N d L fuel F. unfold main, program. cbn [o_format o_quick o_output].
  rewrite L by exact F. reflexivity.
Qed.
Print Assumptions C87_unknown_refuted.
(** A file for which this happens is that of the example of C84. *)
Example C87_unknown_example : exists N d, forall fuel, N <= fuel -> load str88 show88 fuel true file88 = Done d.
Proof. destruct (read_deck str88 show88 true file88 _ PropVacuum.surfs86 _ Z.to_nat describes88 good_cards88 (fine_cards88 true)) as (N & d & L & _). now exists N, d. Qed.

(** Four of the six formats that can be given for the input are never read. *)
Theorem C87_input_refuted : exists c, In c all_codes /\ forall str show fuel no uo preserve out quick s,
  main str show fuel no uo (mkOpt c preserve out quick) s = Raised.
Proof. exists OPENMC. split; [cbn; tauto|reflexivity]. Qed.
Print Assumptions C87_input_refuted.

Lemma run_each str show fuel no uo cs : forall d, ~ In FLUKA cs -> ~ In SCONE cs -> (forall c, In c cs -> alone str show fuel no uo c d <> None) ->
  exists os d', run str show fuel no uo cs d = (os, Some d') /\ map fst os = cs.
Proof.
  induction cs as [|c cs IH]; intros d NF NS H; [now exists [], d|]. cbn [run].
  assert (H1 := H c (or_introl eq_refl)). unfold alone in H1. destruct (write_code str show fuel no uo c d) as [[o d1]|] eqn:W; [|now elim H1].
  destruct (write_keeps _ _ _ _ _ _ _ _ _ W) as (A1 & A2 & A3 & A4); [intros ->; apply NF; now left|].
  destruct (IH d1) as (os & d' & R & M); [intro I; apply NF; now right|intro I; apply NS; now right| |].
  { intros c' I'. rewrite (alone_depends str show fuel no uo c' d d1); auto. - apply H. now right. - intros _. apply A4. intros ->. apply NS. now left. }
  rewrite R. exists ((c, o) :: os), d'. split; [reflexivity|]. cbn [map fst]. now rewrite M.
Qed.

(** Several of MCNP, Serpent, OpenMC and PHITS asked for together give what each of them gives alone (which is what C84 is
    about). *)
Theorem C87_together str show fuel no uo preserve quick out cs s : wants out cs -> ~ In FLUKA cs -> ~ In SCONE cs -> cs <> [] ->
  (forall c, In c cs -> exists o d, program str show fuel no uo quick [c] s = Done ([(c, o)], Some d)) ->
  exists os d, main str show fuel no uo (mkOpt MCNP preserve out quick) s = Done (os, Some d) /\ map fst os = cs /\
    forall c o, In (c, o) os -> exists d', program str show fuel no uo quick [c] s = Done ([(c, o)], Some d').
Proof.
  intros W NF NS NE H. destruct (C87_formats_partial str show fuel no uo preserve quick out cs s W) as [-> _]. unfold program in *.
  destruct (load str show fuel quick s) as [d| |]; [|destruct cs as [|c cs]; [tauto|]; destruct (H c (or_introl eq_refl)) as (o & d & E); discriminate E..].
  assert (AL : forall c, In c cs -> alone str show fuel no uo c d <> None).
  { intros c I. destruct (H c I) as (o & d' & E). cbn [run] in E. unfold alone. destruct (write_code str show fuel no uo c d) as [[o1 d1]|]; [discriminate|discriminate E]. }
  destruct (run_each str show fuel no uo cs d NF NS AL) as (os & d' & R & M). exists os, d'. rewrite R. split; [reflexivity|]. split; [exact M|].
  assert (F := run_outputs _ _ _ _ _ _ _ _ _ R NF NS). rewrite Forall_forall in F. intros c o I. specialize (F _ I). cbn [fst snd] in F. unfold alone in F. cbn [run].
  destruct (write_code str show fuel no uo c d) as [[o1 d1]|]; [|discriminate F]. cbn [option_map fst] in F. injection F as ->. now exists d1.
Qed.
Print Assumptions C87_together.

(** The file of C84 to MCNP and PHITS at once. *)
Lemma phits88 : PropProgramPhits.phits_nuclides (map snd cells88) (map snd data88).
Proof.
  intros n es L. destruct (nuclides88 n es L) as [A B]. split; [exact A|]. split; [exact B|]. intros z l LB. destruct (mats88 n es L) as [_ ->].
  destruct LB as (p & w & f & r & E & _ & LW & _). destruct p as [|x p]; [|destruct p; discriminate E]. injection E as E1 E2 E3. subst w. subst l.
  now split; vm_compute.
Qed.
Example C87_together_example no uo preserve quick : exists N, forall fuel, N <= fuel ->
  exists o1 o2 d, main str88 show88 fuel no uo (mkOpt MCNP preserve (Some [T "mcnp"; T "phits"]) quick) file88 = Done ([(MCNP, o1); (PHITS, o2)], Some d).
Proof.
  destruct (C84_mcnp_example no uo quick) as (N1 & t1 & d1 & _ & P1 & _).
  destruct (PropProgramPhits.C84_phits_partial str88 show88 no uo quick file88 _ PropVacuum.surfs86 _ Z.to_nat describes88 good_cards88 (fine_cards88 quick) PropVacuum.uncut_cards86 printable88
    phits88 str88_numeral show88_numeral) as (N2 & t2 & d2 & _ & _ & _ & _ & _ & _ & P2 & _).
  exists (max N1 N2). intros fuel F. specialize (P1 fuel ltac:(lia)). specialize (P2 fuel ltac:(lia)).
  destruct (C87_together str88 show88 fuel no uo preserve quick _ _ file88 (wants_names [MCNP; PHITS])) as (os & d & R & M & _).
  - cbn; intuition discriminate.
  - cbn; intuition discriminate.
  - discriminate.
  - intros c [<-|[<-|[]]]; eauto.
  - destruct os as [|[c1 o1] [|[c2 o2] [|]]]; try discriminate M. injection M as -> ->. exists o1, o2, d. exact R.
Qed.

(* ------------------------------------------------------------------ *)
(** * Cross-section libraries *)

(** C88: with the option to keep them, the MCNP file has the cross-section libraries of the input.  It is false: there is a
    file whose material has a nuclide with a library, and the MCNP file written with the option has the nuclide without one. *)
Theorem C88_preserve_refuted : exists s cells ss ds es str show, describes s cells ss ds /\ last_for (T "1") (mats_of ds) es /\ library (T "92235") es (T "70c") /\
  forall no uo quick, exists N t d, (forall fuel, N <= fuel -> main str show fuel no uo (mkOpt MCNP true (Some [T "mcnp"]) quick) s = Done ([(MCNP, File t)], Some d)) /\
  forall f, exists p a v, read_file (S f) t = Some p /\ In a (map snd (f_mats p)) /\ dget (T "92235") (m_comp a) = Some v /\ dget (T "92235") (m_xs a) = Some [].
Proof.
  exists file88, (map snd cells88), PropVacuum.surfs86, (map snd data88), [Nuclide (T "92235.70c") (T "2")], str88, show88. split; [exact describes88|].
  split; [exists [], []; split; [reflexivity|intros []]|].
  split; [exists [], (T "92235.70c"), (T "2"), []; repeat split; intros (w & f & I & _); destruct I|].
  intros no uo quick. destruct (C84_mcnp_example no uo quick) as (N & t & d & srfs & P & R). exists N, t, d. split.
  - intros fuel F. unfold main. cbn [o_format o_quick o_output]. exact (P fuel F).
  - intro f. destruct (R f) as (p & x1 & x2 & x3 & a & v & r1 & r2 & r3 & H1 & _ & _ & _ & H5 & H6 & _ & H8 & _). exists p, a, v. split; [exact H1|].
    split; [|now split]. apply dget_some_in in H5. apply in_map_iff. now exists (str_Z (c_mat (fst x1)), a).
Qed.
Print Assumptions C88_preserve_refuted.

(** The option changes nothing at all. *)
Theorem C88_ignored str show fuel no uo format out quick s :
  main str show fuel no uo (mkOpt format true out quick) s = main str show fuel no uo (mkOpt format false out quick) s.
Proof. reflexivity. Qed.
Print Assumptions C88_ignored.

(* ------------------------------------------------------------------ *)
(** * Serpent files *)

Lemma materials_cards l : forall i rs, serpent_cards l = Some rs -> exists ms, serpent_materials i l = Some ms /\
  map (fun e => (m_name (snd e), m_dens (snd e), m_comp (snd e))) ms = rs /\
  map (fun e => m_num (snd e)) ms = map fst ms /\ map fst ms = map (fun k => str_Z (i + Z.of_nat k)) (List.seq 0 (length rs)).
Proof.
  induction l as [|x l IH]; intros i rs E; cbn [serpent_cards serpent_materials] in *; [injection E as <-; now exists []|].
  destruct (is_mat_line x); [|now apply IH]. unfold serpent_card, serpent_material in *. destruct (words x) as [|w0 [|name [|d ws]]]; try discriminate E.
  destruct (serpent_text l) as [t|]; [|discriminate E]. destruct (py_float d) as [q|]; [|discriminate E]. destruct (serpent_composition (T " " ++ t)) as [[c y]|]; [|discriminate E].
  destruct (serpent_cards l) as [rs'|]; [|discriminate E]. injection E as <-. destruct (IH (i + 1)%Z rs' eq_refl) as (ms & -> & M & K & F).
  eexists. split; [reflexivity|]. cbn [map snd fst m_name m_dens m_comp m_num length List.seq]. rewrite M, K, F. repeat split.
  f_equal; [f_equal; lia|]. rewrite <- seq_shift, map_map. apply map_ext. intro k. f_equal. lia.
Qed.

Lemma insert_number_perm w l : Permutation (insert_number w l) (w :: l).
Proof.
  induction l as [|x l IH]; [reflexivity|]. cbn [insert_number]. destruct (number_leb w x); [reflexivity|]. rewrite IH. apply perm_swap.
Qed.

Lemma sort_numbers_up n : forall i, sort_numbers (map (fun k => str_Z (i + Z.of_nat k)) (List.seq 0 n)) = map (fun k => str_Z (i + Z.of_nat k)) (List.seq 0 n).
Proof.
  induction n as [|n IH]; intro i; [reflexivity|]. cbn [List.seq map]. unfold sort_numbers. cbn [fold_right]. fold (sort_numbers (map (fun k => str_Z (i + Z.of_nat k)) (List.seq 1 n))).
  assert (SH : map (fun k => str_Z (i + Z.of_nat k)) (List.seq 1 n) = map (fun k => str_Z ((i + 1) + Z.of_nat k)) (List.seq 0 n)).
  { rewrite <- seq_shift, map_map. apply map_ext. intro k. f_equal. lia. }
  rewrite SH, IH. destruct n as [|n]; [reflexivity|]. cbn [List.seq map insert_number]. unfold number_leb. rewrite !py_int_str_Z.
  destruct (Z.leb_spec (i + Z.of_nat 0) (i + 1 + Z.of_nat 0)); [reflexivity|lia].
Qed.

(** Materials under the numbers 1, 2, ... are written in this order. *)
Lemma by_number_ok (ms : dict material) n : (forall k m, In (k, m) ms -> k = m_num m) -> NoDup (keys ms) ->
  keys ms = map (fun k => str_Z (1 + Z.of_nat k)) (List.seq 0 n) -> by_number ms = Some (map snd ms) /\ map m_num (map snd ms) = keys ms.
Proof.
  intros K ND E. unfold by_number. rewrite E, sort_numbers_up, <- E. clear E n. split.
  - assert (H : forall l, incl l ms -> FlattenModel.mapM (fun k => dget k ms) (keys l) = Some (map snd l)); [|apply H, incl_refl].
    induction l as [|[k m] l IH]; intro I; [reflexivity|]. cbn [keys map fst FlattenModel.mapM]. unfold keys in IH. rewrite IH by (intros x J; apply I; now right).
    rewrite (dget_in_nodup k m) by (exact ND || (apply I; now left)). reflexivity.
  - unfold keys. rewrite map_map. apply map_ext_in. intros [k m] I. symmetry. now apply K.
Qed.

(** Whatever a Serpent file says of surfaces and cells, the deck in memory has none. *)
Theorem C89_geometry s d : serpent_deck s = Some d -> d_surfs d = [] /\ d_cells d = [].
Proof. unfold serpent_deck. destruct (serpent_materials _ _); [|discriminate]. cbn [option_map]. injection 1 as <-. now split. Qed.
Print Assumptions C89_geometry.

(** The fractions of the materials of a Serpent file are printed so that they are read back. *)
Definition exact_fractions (show : Q -> text) (m : PropSerpentIn.smat) : Prop :=
  forall n v, lists n (PropSerpentIn.sm_entries m) -> (v == total (map (listed n) (PropSerpentIn.sm_entries m)))%Q -> printed_well show v /\ numeral (show v).

(** C89: a Serpent file converted to MCNP has the materials of the file, numbered in their order, with the same nuclides and
    fractions.  (Missing, because false: the surfaces and the cells, below; the densities, which an MCNP file has on its
    cells; and what C74 leaves out.) *)
Theorem C89_materials_partial str show no uo preserve quick pre ms :
  Forall PropSerpentIn.good_line pre -> Forall PropSerpentIn.no_mat pre -> Forall PropSerpentIn.good_smat ms ->
  Forall (fun m => exact_fractions show m /\ PropSerpentIn.sm_entries m <> [] /\ forall z, lists z (PropSerpentIn.sm_entries m) -> zaid z) ms ->
  exists N t d, (forall fuel, N <= fuel -> main str show fuel no uo (mkOpt SERPENT preserve (Some [T "mcnp"]) quick)
      (with_ends (map PropSerpentIn.shown (pre ++ PropSerpentIn.all_lines ms))) = Done ([(MCNP, File t)], Some d)) /\
    forall f, exists p, read_file (S f) t = Some p /\ keys (f_mats p) = map (fun k => str_Z (1 + Z.of_nat k)) (List.seq 0 (length ms)) /\
    forall k m, nth_error ms k = Some m -> exists a, dget (str_Z (1 + Z.of_nat k)) (f_mats p) = Some a /\ NoDup (keys (m_comp a)) /\
      forall n, (In n (keys (m_comp a)) <-> lists n (PropSerpentIn.sm_entries m)) /\
        forall v, dget n (m_comp a) = Some v -> (v == total (map (listed n) (PropSerpentIn.sm_entries m)))%Q.
Proof.
  intros GP NP GM FX. destruct (PropSerpentIn.C74_serpent_input_partial pre ms GP NP GM) as (rs & R & F). unfold read_serpent in R.
  destruct (materials_cards _ 1%Z rs R) as (dm & E & M & K & NU).
  set (s := with_ends (map PropSerpentIn.shown (pre ++ PropSerpentIn.all_lines ms))) in *.
  assert (SD : serpent_deck s = Some (ConvertModel.mkDeck [] [] dm [])) by (unfold serpent_deck; now rewrite E).
  set (d := ConvertModel.mkDeck [] [] dm []) in *.
  assert (ND : NoDup (keys dm)).
  { unfold keys. rewrite NU. apply FinFun.Injective_map_NoDup; [|apply seq_NoDup]. intros a b Q. apply str_Z_inj in Q. lia. }
  assert (LR : length rs = length ms) by (symmetry; exact (PropProcess.forall2_len _ _ _ F)).
  assert (LD : length dm = length ms) by (rewrite <- LR, <- M; symmetry; apply map_length).
  assert (NTH : forall k m, nth_error ms k = Some m -> exists a, nth_error dm k = Some (str_Z (1 + Z.of_nat k), a) /\ m_num a = str_Z (1 + Z.of_nat k) /\
    PropSerpentIn.smat_read m (m_name a, m_dens a, m_comp a)).
  { intros k m HK. assert (KL : k < length ms) by (apply nth_error_Some; congruence).
    destruct (nth_error dm k) as [[n a]|] eqn:HD; [|apply nth_error_None in HD; lia].
    assert (N1 : nth_error (map fst dm) k = Some n) by (rewrite nth_error_map, HD; reflexivity). rewrite NU, nth_error_map in N1.
    assert (N2 : nth_error (List.seq 0 (length rs)) k = Some k) by (rewrite nth_error_nth' with (d := 0) by (rewrite seq_length; lia); now rewrite seq_nth by lia).
    rewrite N2 in N1. cbn [option_map] in N1. injection N1 as N1. subst n. exists a. split; [reflexivity|].
    assert (N3 : nth_error (map (fun e => m_num (snd e)) dm) k = Some (m_num a)) by (rewrite nth_error_map, HD; reflexivity).
    rewrite K, nth_error_map, HD in N3.  split; [now injection N3|].
    assert (N4 : nth_error rs k = Some (m_name a, m_dens a, m_comp a)) by (rewrite <- M, nth_error_map, HD; reflexivity).
    exact (PropMain.forall2_nth _ _ _ F k m _ HK N4). }
  assert (GD : good_deck str show d).
  { split; [constructor|]. split; [constructor|]. split; [|exact ND]. cbn [d d_mats]. intros k a I. apply In_nth_error in I as (j & HJ).
    assert (JL : j < length ms) by (rewrite <- LD; apply nth_error_Some; congruence).
    destruct (nth_error ms j) as [m|] eqn:HM; [|apply nth_error_None in HM; lia]. destruct (NTH j m HM) as (a' & HA & NA & SR). rewrite HJ in HA. injection HA as -> <-.
    assert (IM := nth_error_In _ _ HM). rewrite Forall_forall in FX, GM. destruct (FX m IM) as (EX & NE & ZD). destruct (GM m IM) as (_ & _ & _ & WH & _ & _ & _ & _ & IN & _).
    destruct SR as (SN & _ & SK & SV). cbn [fst snd] in SN, SK, SV.
    assert (VAL : forall e, In e (m_comp a) -> lists (fst e) (PropSerpentIn.sm_entries m) /\ (snd e == total (map (listed (fst e)) (PropSerpentIn.sm_entries m)))%Q).
    { intros [n v] IE. destruct (SV n) as [SV1 SV2]. cbn [fst snd]. split; [apply SV1; unfold keys; apply in_map_iff; now exists (n, v)|].
      apply SV2. now apply in_dget. }
    split; [now symmetry|]. split; [|apply Forall_forall; intros e IE; destruct (VAL e IE) as [VL VQ]; now apply (EX (fst e))].
    split; [rewrite NA; apply str_zaid; lia|]. split.
    { rewrite SN. assert (IW : In (PropSerpentIn.sm_name m) (words (lower (fst (PropSerpentIn.sm_head m))))) by (unfold PropSerpentIn.line_words in WH; rewrite WH; right; now left).
      apply words_nonempty_nospace in IW as [_ IW]. intro IN'. rewrite forallb_forall in IW. apply IW in IN'. discriminate IN'. }
    split.
    { destruct (PropSerpentIn.sm_entries m) as [|[kw|w f] es] eqn:EE; [tauto|inversion IN; tauto|]. intro NIL.
      assert (I0 : In (before_dot w) (keys (m_comp a))) by (apply SV; exists w, f; split; [now left|reflexivity]). rewrite NIL in I0. destruct I0. }
    split; [exact SK|]. apply Forall_forall. intros e IE. destruct (VAL e IE) as [VL VQ]. split; [now apply ZD|]. split; [now apply (EX (fst e))|discriminate]. }
  assert (BK : forall k m, In (k, m) dm -> k = m_num m).
  { intros k a I. apply In_nth_error in I as (j & HJ). assert (JL : j < length ms) by (rewrite <- LD; apply nth_error_Some; congruence).
    destruct (nth_error ms j) as [m|] eqn:HM; [|apply nth_error_None in HM; lia]. destruct (NTH j m HM) as (a' & HA & NA & _). rewrite HJ in HA. injection HA as -> <-. now symmetry. }
  destruct (by_number_ok dm (length rs) BK ND NU) as [BN BM].
  destruct (file_reads str show d (map snd dm) GD) as (N & t & W & HR).
  { cbn [d d_mats]. now rewrite BM. }
  { cbn [d d_mats]. intros k m. split.
    - intro I. split; [apply in_map_iff; now exists (k, m)|now apply BK].
    - intros [I ->]. apply in_map_iff in I as ([k' m'] & E' & I). cbn [snd] in E'. subst m'. now rewrite <- (BK k' m I). }
  exists N, t, d. split.
  { intros fuel HF. unfold main. cbn [o_format o_output]. rewrite SD. cbn [asked asked_words]. change (asked (Some [T "mcnp"])) with [MCNP]. cbn [run_serpent writable write_numbered].
    unfold mcnp_by_number. cbn [d d_mats]. rewrite BN. fold d. rewrite W by exact HF. reflexivity. }
  intro f. destruct (HR f) as (p & RF & _ & _ & _ & _ & PK & PM). exists p. split; [exact RF|]. split.
  { rewrite PK, BM. unfold keys. now rewrite NU, LR. }
  intros k m HK. destruct (NTH k m HK) as (a & HA & _ & SR). cbn [d d_mats] in PM.
  destruct (PM (str_Z (1 + Z.of_nat k)) a) as (a' & GA & SF & _). { apply in_dget; [exact ND|]. exact (nth_error_In _ _ HA). }
  destruct SR as (_ & _ & SK & SV). cbn [fst snd] in SK, SV. exists a'. split; [exact GA|]. rewrite (same_keys _ _ SF). split; [exact SK|].
  intro n. destruct (SV n) as [SV1 SV2]. split; [exact SV1|]. intros v GV.
  assert (IK : In n (keys (m_comp a))) by (rewrite <- (same_keys _ _ SF); unfold keys; apply in_map_iff; exists (n, v); split; [reflexivity|now apply dget_some_in]).
  unfold keys in IK. apply in_map_iff in IK as ([n' v'] & EN & IN). cbn [fst] in EN. subst n'. apply (in_dget _ _ _ SK) in IN.
  destruct (same_get _ _ SF n v' IN) as (w & GW & QW). rewrite GV in GW. injection GW as <-. rewrite QW. now apply SV2.
Qed.
Print Assumptions C89_materials_partial.

Definition show89 (q : Q) : text := if Qeq_bool q (4 # 100) then T "0.04" else if Qeq_bool q (96 # 100) then T "0.96" else T "2.0".
Definition pre89 : list PropSerpentIn.sline := [(T "surf 1 sph 0 0 0 5", None); (T "cell 1 0 UO2 -1", None); (T "cell 2 0 outside 1", None)].
Lemma pre89_good : Forall PropSerpentIn.good_line pre89 /\ Forall PropSerpentIn.no_mat pre89.
Proof.
  split.
  - repeat (constructor; [split; [vm_compute; intuition discriminate|split; [vm_compute; intuition discriminate|intro H; now elim H]]|]). constructor.
  - repeat (constructor; [vm_compute; discriminate|]). constructor.
Qed.
Lemma fuel89 : exact_fractions show89 PropSerpentIn.fuel_mat /\ forall z, lists z (PropSerpentIn.sm_entries PropSerpentIn.fuel_mat) -> zaid z.
Proof.
  assert (L : forall z, lists z (PropSerpentIn.sm_entries PropSerpentIn.fuel_mat) -> z = T "92235" \/ z = T "92238" \/ z = T "8016").
  { intros z (w & f & [E|[E|[E|[]]]] & <-); injection E as <- <-; auto. }
  assert (SH : forall q, ((q == 4 # 100) \/ (q == 96 # 100) \/ (q == 2))%Q -> printed_well show89 q /\ numeral (show89 q)).
  { intros q H. assert (E : show89 q = T "0.04" /\ (q == 4 # 100)%Q \/ show89 q = T "0.96" /\ (q == 96 # 100)%Q \/ show89 q = T "2.0" /\ (q == 2)%Q).
    { unfold show89. destruct H as [H|[H|H]]; [left|right; left|right; right]; (split; [|exact H]).
      - apply Qeq_bool_iff in H. now rewrite H.
      - replace (Qeq_bool q (4 # 100)) with (Qeq_bool (96 # 100) (4 # 100)) by now rewrite H. apply Qeq_bool_iff in H. now rewrite H.
      - replace (Qeq_bool q (4 # 100)) with (Qeq_bool 2 (4 # 100)) by now rewrite H. replace (Qeq_bool q (96 # 100)) with (Qeq_bool 2 (96 # 100)) by now rewrite H. reflexivity. }
    unfold printed_well. destruct E as [[-> E]|[[-> E]|[-> E]]]; (split; [split; [split; [discriminate|split; reflexivity]|eexists; split; [vm_compute; reflexivity|rewrite E; reflexivity]]|
      split; [discriminate|split; [cbn; lia|reflexivity]]]). }
  split.
  - intros n v LN VQ. apply SH. destruct (L n LN) as [-> |[-> | ->]]; [left|right; left|right; right]; rewrite VQ; vm_compute; reflexivity.
  - intros z LZ. destruct (L z LZ) as [-> |[-> | ->]]; (split; [discriminate|reflexivity]).
Qed.

(** C89 is false of the geometry: a Serpent file with a surface and two cells becomes, without an error, an MCNP file that
    has a material and nothing else. *)
Theorem C89_geometry_refuted : exists pre m show, In (T "surf 1 sph 0 0 0 5", None) pre /\ In (T "cell 1 0 UO2 -1", None) pre /\
  forall str no uo preserve quick, exists N t d, (forall fuel, N <= fuel -> main str show fuel no uo (mkOpt SERPENT preserve (Some [T "mcnp"]) quick)
      (with_ends (map PropSerpentIn.shown (pre ++ PropSerpentIn.all_lines [m]))) = Done ([(MCNP, File t)], Some d)) /\
    d_cells d = [] /\ d_surfs d = [] /\
    forall f, exists p a, read_file (S f) t = Some p /\ dget (T "1") (f_mats p) = Some a /\ keys (m_comp a) <> [].
Proof.
  exists pre89, PropSerpentIn.fuel_mat, show89. split; [now left|]. split; [right; now left|]. intros str no uo preserve quick.
  destruct pre89_good as [GL NM]. destruct fuel89 as [FX FZ].
  destruct (C89_materials_partial str show89 no uo preserve quick pre89 [PropSerpentIn.fuel_mat] GL NM) as (N & t & d & P & R).
  - exact (proj1 (proj2 (proj2 PropSerpentIn.C74_example))).
  - constructor; [|constructor]. split; [exact FX|]. split; [discriminate|exact FZ].
  - exists N, t, d. split; [exact P|]. assert (G : d_surfs d = [] /\ d_cells d = []).
    { specialize (P N (Nat.le_refl N)). unfold main in P. cbn [o_format o_output] in P. destruct (serpent_deck _) as [d0|] eqn:SD; [|discriminate P]. injection P as P.
      change (asked (Some [T "mcnp"])) with [MCNP] in P. cbn [run_serpent writable write_numbered] in P. destruct (mcnp_by_number str show89 N d0); [|discriminate P].
      cbn [option_map] in P. injection P as _ <-. now apply (C89_geometry _ d0 SD). }
    split; [apply G|]. split; [apply G|]. intro f. destruct (R f) as (p & RF & _ & H). destruct (H 0 PropSerpentIn.fuel_mat eq_refl) as (a & GA & _ & K).
    exists p, a. split; [exact RF|]. split; [exact GA|]. intro NIL.
    assert (I : In (T "92235") (keys (m_comp a))) by (apply K; exists (T "92235.09c"), (T "0.04"); split; [now left|reflexivity]).
    rewrite NIL in I. destruct I.
Qed.
Print Assumptions C89_geometry_refuted.

Lemma numbered_keeps str show fuel no uo c d o d' : write_numbered str show fuel no uo c d = Some (o, d') -> c <> FLUKA -> d_mats d' = d_mats d.
Proof.
  intros W NF. unfold write_numbered in W. destruct c; try (destruct (write_keeps _ _ _ _ _ _ _ _ _ W NF) as (_ & _ & A3 & _); exact A3).
  destruct (mcnp_by_number _ _ _ _); [|discriminate W]. cbn [option_map] in W. now injection W as _ <-.
Qed.

Lemma run_serpent_fluka str show fuel no uo cs : forall d, d_mats d <> [] -> In FLUKA cs -> exists os, run_serpent str show fuel no uo cs d = (os, None) /\ ~ In FLUKA (map fst os).
Proof.
  induction cs as [|c cs IH]; intros d NE I; [destruct I|]. cbn [run_serpent]. destruct (writable c d) eqn:WR; [|now exists []].
  assert (NF : c <> FLUKA) by (intros ->; unfold writable in WR; destruct (d_mats d); [tauto|discriminate]). destruct I as [->|I]; [tauto|].
  destruct (write_numbered str show fuel no uo c d) as [[o d1]|] eqn:W; [|now exists []].
  assert (A3 := numbered_keeps _ _ _ _ _ _ _ _ _ W NF). destruct (IH d1) as (os & R & NI); [now rewrite A3|exact I|]. rewrite R.
  exists ((c, o) :: os). split; [reflexivity|]. cbn [map fst In]. intros [E|E]; [now apply NF|now apply NI].
Qed.

(** From a Serpent file with a material FLUKA is never written: the program ends with an exception when it comes to it, so
    that with the default, all formats, neither FLUKA nor SCONE is written. *)
Theorem C89_fluka s d : serpent_deck s = Some d -> d_mats d <> [] ->
  forall str show fuel no uo preserve out quick, In FLUKA (asked out) ->
  exists os, main str show fuel no uo (mkOpt SERPENT preserve out quick) s = Done (os, None) /\ ~ In FLUKA (map fst os) /\
    (out = None -> ~ In SCONE (map fst os)).
Proof.
  intros SD NE str show fuel no uo preserve out quick I. unfold main. cbn [o_format o_output]. rewrite SD.
  destruct (run_serpent_fluka str show fuel no uo _ d NE I) as (os & R & NI). exists os. rewrite R. split; [reflexivity|]. split; [exact NI|].
  intros ->. clear SD. change (asked None) with [MCNP; SERPENT; OPENMC; PHITS; FLUKA; SCONE] in R. clear I.
  assert (G : forall a b d os, run_serpent str show fuel no uo (a ++ FLUKA :: b) d = (os, None) -> d_mats d <> [] -> ~ In FLUKA a -> forall c, In c (map fst os) -> In c a).
  { clear. induction a as [|c0 a IH]; intros b d os R NE NF c I; cbn [app run_serpent] in R.
    - unfold writable in R. destruct (d_mats d); [tauto|]. injection R as <-. destruct I.
    - destruct (writable c0 d); [|injection R as <-; destruct I]. destruct (write_numbered str show fuel no uo c0 d) as [[o d1]|] eqn:W; [|injection R as <-; destruct I].
      destruct (run_serpent str show fuel no uo (a ++ FLUKA :: b) d1) as [os1 e1] eqn:R1. injection R as <- ->. cbn [map fst In] in I. destruct I as [<-|I]; [now left|right].
      assert (A3 : d_mats d1 = d_mats d) by (apply (numbered_keeps _ _ _ _ _ _ _ _ _ W); intros ->; apply NF; now left).
      apply (IH b d1 os1 R1); [now rewrite A3|intro J; apply NF; now right|exact I]. }
  intro IS. assert (NF : ~ In FLUKA [MCNP; SERPENT; OPENMC; PHITS]) by (intros [E|[E|[E|[E|[]]]]]; discriminate E).
  destruct (G [MCNP; SERPENT; OPENMC; PHITS] [SCONE] d os R NE NF SCONE IS) as [E|[E|[E|[E|[]]]]]; discriminate E.
Qed.
Print Assumptions C89_fluka.
Example C89_fluka_example : exists d, serpent_deck (with_ends (map PropSerpentIn.shown (pre89 ++ PropSerpentIn.all_lines [PropSerpentIn.fuel_mat]))) = Some d /\ d_mats d <> [].
Proof. eexists. split; [vm_compute; reflexivity|discriminate]. Qed.
