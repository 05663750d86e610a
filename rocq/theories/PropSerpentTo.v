(** A Serpent file converted to OpenMC or written for Serpent again (csg2csg/__main__.py 68-134, SerpentInput.py): C89. *)
From Coq Require Import QArith Qabs Reals Lia.
From Verif Require Import PyStr PyStrFacts PyInt PyIntFacts PyDict FortranNumber MaterialModel MaterialProofs PropMaterial MaterialWriters PropMaterialOut NamesModel PropNames PropMaterialTargets
  NotsModel DeckScan PropDeck PropTexts ConvertModel MainModel LayoutProofs FileProofs WrapProofs OptionsModel PropOptions.
From Verif Require PropSerpentIn PropSerpentFile PropMain PropProcess OpenMCPrune PropFile FlattenModel.
Open Scope nat_scope.
Open Scope list_scope.

Definition serpent_text_of (pre : list PropSerpentIn.sline) (ms : list PropSerpentIn.smat) : text :=
  with_ends (map PropSerpentIn.shown (pre ++ PropSerpentIn.all_lines ms)).

Lemma no_colours l : forall i ms, serpent_materials i l = Some ms -> Forall (fun e => m_colour (snd e) = None) ms.
Proof.
  induction l as [|x l IH]; intros i ms E; cbn [serpent_materials] in E; [injection E as <-; constructor|].
  destruct (is_mat_line x); [|now apply (IH i)]. unfold serpent_material in E. destruct (words x) as [|w0 [|name [|d ws]]]; try discriminate E.
  destruct (serpent_text l) as [t|]; [|discriminate E]. destruct (py_float d) as [q|]; [|discriminate E]. destruct (serpent_composition (T " " ++ t)) as [[c y]|]; [|discriminate E].
  destruct (serpent_materials (i + 1) l) as [ms'|] eqn:EM; [|discriminate E]. injection E as <-. constructor; [reflexivity|exact (IH _ _ EM)].
Qed.

(** What is in memory after a Serpent file is read. *)
Lemma serpent_memory pre ms :
  Forall PropSerpentIn.good_line pre -> Forall PropSerpentIn.no_mat pre -> Forall PropSerpentIn.good_smat ms ->
  exists dm, serpent_deck (serpent_text_of pre ms) = Some (ConvertModel.mkDeck [] [] dm []) /\ length dm = length ms /\
    forall k m, nth_error ms k = Some m -> exists a, nth_error dm k = Some (str_Z (1 + Z.of_nat k), a) /\ m_num a = str_Z (1 + Z.of_nat k) /\ m_colour a = None /\
      PropSerpentIn.smat_read m (m_name a, m_dens a, m_comp a).
Proof.
  intros GP NP GM. destruct (PropSerpentIn.C74_serpent_input_partial pre ms GP NP GM) as (rs & R & F). unfold read_serpent in R.
  destruct (materials_cards _ 1%Z rs R) as (dm & E & M & K & NU). exists dm. unfold serpent_text_of. split; [unfold serpent_deck; now rewrite E|].
  assert (NC := no_colours _ _ _ E).
  assert (LR : length rs = length ms) by (symmetry; exact (PropProcess.forall2_len _ _ _ F)).
  assert (LD : length dm = length ms) by (rewrite <- LR, <- M; symmetry; apply map_length). split; [exact LD|].
  intros k m HK. assert (KL : k < length ms) by (apply nth_error_Some; congruence).
  destruct (nth_error dm k) as [[n a]|] eqn:HD; [|apply nth_error_None in HD; lia].
  assert (N1 : nth_error (map fst dm) k = Some n) by (rewrite nth_error_map, HD; reflexivity). rewrite NU, nth_error_map in N1.
  assert (N2 : nth_error (List.seq 0 (length rs)) k = Some k) by (rewrite nth_error_nth' with (d := 0) by (rewrite seq_length; lia); now rewrite seq_nth by lia).
  rewrite N2 in N1. cbn [option_map] in N1. injection N1 as N1. subst n. exists a. split; [reflexivity|].
  assert (N3 : nth_error (map (fun e => m_num (snd e)) dm) k = Some (m_num a)) by (rewrite nth_error_map, HD; reflexivity).
  rewrite K, nth_error_map, HD in N3. split; [now injection N3|].
  split; [rewrite Forall_forall in NC; exact (NC _ (nth_error_In _ _ HD))|].
  assert (N4 : nth_error rs k = Some (m_name a, m_dens a, m_comp a)) by (rewrite <- M, nth_error_map, HD; reflexivity).
  exact (PropMain.forall2_nth _ _ _ F k m _ HK N4).
Qed.

(* ------------------------------------------------------------------ *)
(** * OpenMC *)

(** An OpenMC material says what a Serpent material says: its number in the file, its name, the size of its density with the
    unit that its sign stands for, and one nuclide for each that the material lists, by atoms or by mass. *)
Definition openmc_says (show : Q -> text) (k : nat) (m : PropSerpentIn.smat) (el : openmc_element) : Prop :=
  om_id el = str_Z (1 + Z.of_nat k) /\ om_name el = PropSerpentIn.sm_name m /\
  (exists q, py_float (PropSerpentIn.sm_dens m) = Some q /\ om_value el = show (Qabs q) /\ om_units el = if Qlt_le_dec q 0 then T "g/cc" else T "atom/b-cm") /\
  NoDup (map (fun n => fst (fst n)) (om_nuclides el)) /\
  forall z a s, (1 <= z <= 118)%Z -> (1 <= a <= 999)%Z -> (10 <= z \/ a <= 99)%Z -> symbol z = Some s ->
    (lists (str_Z (1000 * z + a)) (PropSerpentIn.sm_entries m) <-> exists n, In n (om_nuclides el) /\ fst (fst n) = s ++ str_Z a) /\
    forall n, In n (om_nuclides el) -> fst (fst n) = s ++ str_Z a ->
      exists v, (v == total (map (listed (str_Z (1000 * z + a))) (PropSerpentIn.sm_entries m)))%Q /\ snd n = show (Qabs v) /\ (snd (fst n) = true <-> (v < 0)%Q).

(** C89 for OpenMC: a Serpent file becomes a file of materials that say what the file says, in its order (and a geometry with
    nothing in it).  Missing, because false: surfaces and cells (C89_geometry); what C74 leaves out; nuclides without a name (C52). *)
Theorem C89_openmc_partial str show fuel no uo preserve quick pre ms :
  Forall PropSerpentIn.good_line pre -> Forall PropSerpentIn.no_mat pre -> Forall PropSerpentIn.good_smat ms ->
  Forall (fun m => forall n, lists n (PropSerpentIn.sm_entries m) -> exists z a, nuclide_key n z a) ms ->
  exists els d, main str show fuel no uo (mkOpt SERPENT preserve (Some [T "openmc"]) quick) (serpent_text_of pre ms) = Done ([(OPENMC, Xml [] els)], Some d) /\
    length els = length ms /\
    forall k m, nth_error ms k = Some m -> exists el, nth_error els k = Some el /\ openmc_says show k m el.
Proof.
  intros GP NP GM FK. destruct (serpent_memory pre ms GP NP GM) as (dm & SD & LD & NTH).
  assert (EL : exists els, FlattenModel.mapM (fun e => write_openmc_material show (snd e)) dm = Some els /\
    Forall2 (fun e el => write_openmc_material show (snd e) = Some el) dm els).
  { assert (H : Forall (fun e => exists el, write_openmc_material show (snd e) = Some el) dm).
    { apply Forall_forall. intros [n a] I. apply In_nth_error in I as (j & HJ). assert (JL : j < length ms) by (rewrite <- LD; apply nth_error_Some; congruence).
      destruct (nth_error ms j) as [m|] eqn:HM; [|apply nth_error_None in HM; lia]. destruct (NTH j m HM) as (a' & HA & _ & _ & (_ & _ & SK & SV)). rewrite HJ in HA. injection HA as -> <-.
      cbn [fst snd] in SK, SV. destruct (C69_openmc_partial show a SK) as (el & W & _); [|now exists el].
      apply Forall_forall. intros e IE. rewrite Forall_forall in FK. apply (FK m (nth_error_In _ _ HM)). apply SV. now apply (in_map fst). }
    clear - H. induction H as [|e l (el & W) F (els & E & G)]; [now exists []|]. exists (el :: els). cbn [FlattenModel.mapM]. rewrite W, E. split; [reflexivity|now constructor]. }
  destruct EL as (els & EM & FE). exists els, (ConvertModel.mkDeck [] [] dm []). split.
  { unfold main. cbn [o_format o_output]. rewrite SD. change (asked (Some [T "openmc"])) with [OPENMC]. cbn [run_serpent writable write_numbered write_code].
    unfold openmc_trees. cbn [d_surfs d_cells d_mats FlattenModel.mapM map app]. rewrite EM. reflexivity. }
  split; [rewrite <- (PropProcess.forall2_len _ _ _ FE); exact LD|].
  intros k m HK. destruct (NTH k m HK) as (a & HA & NA & _ & (SN & SDn & SK & SV)). cbn [fst snd] in SN, SDn, SK, SV.
  destruct (nth_error els k) as [el|] eqn:HE.
  2:{ apply nth_error_None in HE. rewrite <- (PropProcess.forall2_len _ _ _ FE) in HE. assert (k < length dm) by (apply nth_error_Some; congruence). lia. }
  exists el. split; [reflexivity|]. assert (W := PropMain.forall2_nth _ _ _ FE k _ _ HA HE). cbn [snd] in W.
  destruct (C69_openmc_partial show a SK) as (el' & W' & I1 & I2 & I3 & I4 & I5 & I6 & I7 & _).
  { apply Forall_forall. intros e IE. rewrite Forall_forall in FK. apply (FK m (nth_error_In _ _ HK)). apply SV. now apply (in_map fst). }
  rewrite W in W'. injection W' as <-. split; [congruence|]. split; [congruence|]. split.
  { exists (m_dens a). split; [exact SDn|]. split; [exact I3|]. destruct (Qlt_le_dec (m_dens a) 0) as [L|L]; [now apply I4|]. apply I5. intro L2. exact (Qlt_not_le _ _ L2 L). }
  split; [exact I7|]. intros z b s HZ HB HC HS.
  assert (NAME : forall e n, openmc_same show e n -> fst (fst n) = s ++ str_Z b <-> fst e = str_Z (1000 * z + b)).
  { intros e n ((z' & b' & s' & (KE & KZ & KA & KC) & S' & NM) & _). rewrite NM, KE. split; intro Q.
    - destruct (proj1 C52_names_partial z b HZ HB HC) as (s1 & S1 & N1). destruct (proj1 C52_names_partial z' b' KZ KA KC) as (s2 & S2 & N2).
      destruct (proj2 C52_names_partial z' b' z b (s1 ++ str_Z b) KZ KA KC HZ HB HC) as (Z1 & Z2); [|exact N1|now subst].
      assert (s2 = s') by congruence. assert (s1 = s) by congruence. subst s1 s2. rewrite N2. now f_equal.
    - apply str_Z_inj in Q. assert (z' = z) by lia. assert (b' = b) by lia. subst z' b'. congruence. }
  assert (F1 : forall e, In e (m_comp a) -> exists n, In n (om_nuclides el) /\ openmc_same show e n).
  { intros e IE. destruct (PropMain.forall2_in_left _ _ _ e I6 IE) as (n & IN & OS). now exists n. }
  assert (F2 : forall n, In n (om_nuclides el) -> exists e, In e (m_comp a) /\ openmc_same show e n).
  { intros n IN. destruct (PropMain.forall2_in_right _ _ _ n I6 IN) as (e & IE & OS). now exists e. }
  split.
  - rewrite <- (proj1 (SV _)). split.
    + intro I. apply in_map_iff in I as (e & EQ & IE). destruct (F1 e IE) as (n & IN & OS). exists n. split; [exact IN|]. now apply (NAME e n OS).
    + intros (n & IN & NM). destruct (F2 n IN) as (e & IE & OS). apply (NAME e n OS) in NM. rewrite <- NM. now apply (in_map fst).
  - intros n IN NM. destruct (F2 n IN) as (e & IE & OS). assert (OS' := OS). destruct OS' as (_ & VS & NG). exists (snd e). split; [|split; [exact VS|exact NG]].
    apply (NAME e n OS) in NM. apply (proj2 (SV (str_Z (1000 * z + b)))). apply in_dget; [exact SK|]. rewrite <- NM. now destruct e.
Qed.
Print Assumptions C89_openmc_partial.

Lemma fuel_keys : forall n, lists n (PropSerpentIn.sm_entries PropSerpentIn.fuel_mat) -> exists z a, nuclide_key n z a.
Proof.
  intros n (w & f & [E|[E|[E|[]]]] & <-); injection E as <- <-;
    [exists 92%Z, 235%Z|exists 92%Z, 238%Z|exists 8%Z, 16%Z]; (split; [vm_compute; reflexivity|split; [lia|split; lia]]).
Qed.
(** The file has a surface, two cells and the fuel of C74. *)
Example C89_openmc_example show : exists els d, main (fun _ => []) show 0 (fun _ => []) (fun _ => []) (mkOpt SERPENT false (Some [T "openmc"]) false)
    (serpent_text_of pre89 [PropSerpentIn.fuel_mat]) = Done ([(OPENMC, Xml [] els)], Some d) /\
  exists el, els = [el] /\ om_id el = T "1" /\ om_name el = T "uo2" /\ (exists n, In n (om_nuclides el) /\ fst (fst n) = T "U235" /\ snd (fst n) = false) /\
    ~ exists n, In n (om_nuclides el) /\ fst (fst n) = T "Pu239".
Proof.
  destruct pre89_good as [GL NM].
  destruct (C89_openmc_partial (fun _ => []) show 0 (fun _ => []) (fun _ => []) false false pre89 [PropSerpentIn.fuel_mat] GL NM) as (els & d & M & L & H).
  - exact (proj1 (proj2 (proj2 PropSerpentIn.C74_example))).
  - constructor; [exact fuel_keys|constructor].
  - exists els, d. split; [exact M|]. destruct (H 0 _ eq_refl) as (el & HE & I & N & _ & ND & NU). exists el.
    destruct els as [|e0 [|]]; [discriminate L| |discriminate L]. cbn [nth_error] in HE. injection HE as ->.
    split; [reflexivity|]. split; [exact I|]. split; [exact N|]. split.
    + destruct (NU 92%Z 235%Z (T "U")) as [[A _] B]; [lia|lia|lia|reflexivity|]. destruct A as (n & IN & NN); [exists (T "92235.09c"), (T "0.04"); split; [now left|reflexivity]|].
      exists n. split; [exact IN|]. split; [exact NN|]. destruct (B n IN NN) as (v & V & _ & S). destruct (snd (fst n)); [|reflexivity]. apply proj1 in S. specialize (S eq_refl). rewrite V in S. vm_compute in S. discriminate S.
    + intro P. destruct (NU 94%Z 239%Z (T "Pu")) as [[_ A] _]; [lia|lia|lia|reflexivity|]. destruct (A P) as (w & f & [E|[E|[E|[]]]] & Q); injection E as <- <-; vm_compute in Q; discriminate Q.
Qed.

(* ------------------------------------------------------------------ *)
(** * Serpent *)

(** A material that can be written for Serpent: its nuclides are numbered, its name stays on its line and its density is
    printed as a number that is the density. *)
Definition serpent_writable (show : Q -> text) (m : PropSerpentIn.smat) : Prop :=
  (forall n, lists n (PropSerpentIn.sm_entries m) -> zaid n) /\ ~ In newline (PropSerpentIn.sm_name m) /\
  forall q, py_float (PropSerpentIn.sm_dens m) = Some q -> wordy (show q) /\ numeral (show q) /\ exists v, py_float (show q) = Some v /\ (v == q)%Q.

(** C89 for Serpent: Serpent reads in the file that is written, and in its order, a material for each that the file has, named
    by its number, with the density and the nuclides of the file to seven digits; and nothing else.  Missing, because false:
    the names (below), the surfaces and the cells (C89_geometry); and what C74 leaves out. *)
Theorem C89_serpent_partial str show no uo preserve quick pre ms :
  Forall PropSerpentIn.good_line pre -> Forall PropSerpentIn.no_mat pre -> Forall PropSerpentIn.good_smat ms -> Forall (serpent_writable show) ms ->
  exists N t mm d, (forall fuel, N <= fuel -> main str show fuel no uo (mkOpt SERPENT preserve (Some [T "serpent"]) quick) (serpent_text_of pre ms) = Done ([(SERPENT, File t)], Some d)) /\
    PropSerpentFile.serpent_reads t = ([], mm) /\ length mm = length ms /\
    forall k m, nth_error ms k = Some m -> exists card q ns, nth_error mm k = Some card /\
      PropSerpentFile.mat_card card (str_Z (1 + Z.of_nat k)) q None ns /\ py_float (PropSerpentIn.sm_dens m) = Some q /\ NoDup (keys ns) /\
      forall n, (In n (keys ns) <-> lists n (PropSerpentIn.sm_entries m)) /\
        forall v, dget n ns = Some v -> (v == total (map (listed n) (PropSerpentIn.sm_entries m)))%Q.
Proof.
  intros GP NP GM FW. destruct (serpent_memory pre ms GP NP GM) as (dm & SD & LD & NTH).
  set (str0 := fun _ : R => T "0").
  destruct (PropSerpentFile.C77_serpent_file_partial str0 show (ConvertModel.mkDeck [] [] dm [])) as (t & ss & cc & mm & (N & LA) & RD & F1 & F2 & F3).
  { split; [intro x; split; [discriminate|split; [cbn; lia|reflexivity]]|]. split; [constructor|]. split; [constructor|]. cbn [d_mats].
    apply Forall_forall. intros [n a] I. apply In_nth_error in I as (j & HJ). assert (JL : j < length ms) by (rewrite <- LD; apply nth_error_Some; congruence).
    destruct (nth_error ms j) as [m|] eqn:HM; [|apply nth_error_None in HM; lia]. destruct (NTH j m HM) as (a' & HA & NA & CA & (SN & SDn & SK & SV)). rewrite HJ in HA. injection HA as -> <-.
    cbn [fst snd] in *. rewrite Forall_forall in FW. destruct (FW m (nth_error_In _ _ HM)) as (WZ & WN & WD). destruct (WD _ SDn) as (D1 & D2 & D3).
    split; [|split; [exact D2|now rewrite CA]]. split; [rewrite NA; apply str_zaid; lia|]. split; [now rewrite SN|]. split; [exact D1|]. split; [exact D3|].
    split; [now rewrite CA|]. split; [exact SK|]. apply Forall_forall. intros e IE. apply WZ, SV. now apply (in_map fst). }
  cbn [d_surfs d_cells d_mats] in F1, F2, F3. inversion F1; subst ss. inversion F2; subst cc. cbn [concat app] in RD.
  exists N, t, mm, (ConvertModel.mkDeck [] [] dm []). split.
  { intros fuel LE. unfold main. cbn [o_format o_output]. rewrite SD. change (asked (Some [T "serpent"])) with [SERPENT]. cbn [run_serpent writable write_numbered write_code].
    change (serpent_file str show fuel (ConvertModel.mkDeck [] [] dm [])) with (serpent_file str0 show fuel (ConvertModel.mkDeck [] [] dm [])).
    rewrite LA by exact LE. reflexivity. }
  split; [exact RD|]. split; [rewrite <- (PropProcess.forall2_len _ _ _ F3); exact LD|].
  intros k m HK. destruct (NTH k m HK) as (a & HA & NA & CA & (SN & SDn & SK & SV)). cbn [fst snd] in SN, SDn, SK, SV.
  destruct (nth_error mm k) as [card|] eqn:HC.
  2:{ apply nth_error_None in HC. rewrite <- (PropProcess.forall2_len _ _ _ F3) in HC. assert (k < length dm) by (apply nth_error_Some; congruence). lia. }
  assert (MC := PropMain.forall2_nth _ _ _ F3 k _ _ HA HC). cbn [snd] in MC. rewrite NA, CA in MC. cbn [option_map] in MC.
  exists card, (m_dens a), (m_comp a). split; [reflexivity|]. split; [exact MC|]. split; [exact SDn|]. split; [exact SK|exact SV].
Qed.
Print Assumptions C89_serpent_partial.

Definition show102 (q : Q) : text := T "-10.2".
Lemma fuel_writable : serpent_writable show102 PropSerpentIn.fuel_mat.
Proof.
  split; [exact (proj2 fuel89)|]. split; [vm_compute; intuition discriminate|]. intros q E. vm_compute in E. injection E as <-.
  split; [split; [discriminate|split; reflexivity]|]. split; [split; [discriminate|split; [cbn; lia|reflexivity]]|]. eexists. split; [vm_compute; reflexivity|reflexivity].
Qed.

(** The name is not kept: the material that the file calls uo2 is called 1 in the Serpent file that is written from it. *)
Theorem C89_name_refuted : exists pre m show, Forall PropSerpentIn.good_line pre /\ Forall PropSerpentIn.no_mat pre /\ PropSerpentIn.good_smat m /\ serpent_writable show m /\
  PropSerpentIn.sm_name m = T "uo2" /\
  forall str no uo preserve quick, exists N t card d, (forall fuel, N <= fuel ->
      main str show fuel no uo (mkOpt SERPENT preserve (Some [T "serpent"]) quick) (serpent_text_of pre [m]) = Done ([(SERPENT, File t)], Some d)) /\
    PropSerpentFile.serpent_reads t = ([], [card]) /\ hd_error card = Some (T "mat") /\ nth_error card 1 = Some (T "1") /\ ~ In (T "uo2") card.
Proof.
  exists pre89, PropSerpentIn.fuel_mat, show102. destruct pre89_good as [GL NM].
  assert (GF : Forall PropSerpentIn.good_smat [PropSerpentIn.fuel_mat]) by exact (proj1 (proj2 (proj2 PropSerpentIn.C74_example))).
  split; [exact GL|]. split; [exact NM|]. split; [now inversion GF|]. split; [exact fuel_writable|]. split; [reflexivity|]. intros str no uo preserve quick.
  destruct (C89_serpent_partial str show102 no uo preserve quick pre89 [PropSerpentIn.fuel_mat] GL NM GF) as (N & t & mm & d & M & R & L & H).
  { constructor; [exact fuel_writable|constructor]. }
  destruct (H 0 _ eq_refl) as (card & q & ns & HC & (w & v & fs & -> & PF & _ & FF) & _ & _ & KN).
  destruct mm as [|c0 [|]]; [discriminate L| |discriminate L]. cbn [nth_error] in HC. injection HC as ->.
  eexists N, t, _, d. split; [exact M|]. split; [exact R|]. split; [reflexivity|]. split; [reflexivity|].
  assert (NF : forall u, py_float u <> None \/ get_fortran_formatted_number u <> None -> u <> T "uo2") by (intros u [X|X] ->; apply X; vm_compute; reflexivity).
  cbn [app]. intros [E|[E|[E|I]]]; [discriminate E|discriminate E| |].
  - apply (NF w); [left; congruence|exact E].
  - apply in_flat_map in I as (f & IF & [E|[E|[]]]).
    + destruct (PropMain.forall2_in_right _ _ _ f FF IF) as (e & IE & NE & _). assert (LI : lists (fst e) (PropSerpentIn.sm_entries PropSerpentIn.fuel_mat)) by (apply KN; now apply (in_map fst)).
      destruct (proj2 fuel89 _ LI) as [_ DG]. rewrite <- NE, E in DG. discriminate DG.
    + destruct (PropMain.forall2_in_right _ _ _ f FF IF) as (e & IE & _ & x & G & _). apply (NF (snd f)); [right; congruence|exact E].
Qed.
Print Assumptions C89_name_refuted.
