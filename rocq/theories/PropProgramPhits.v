(** C84: the whole program, from the characters of an MCNP file to the PHITS file (csg2csg/__main__.py 74-134,
    PhitsInput.py 25-77). *)
From Coq Require Import QArith Reals Lra Lia.
From Verif Require Import PyStr PyStrFacts PyInt PyIntFacts PyDict FortranNumber RegionSpec RegionFacts LexSpec CellModel CellProofs CellText CellWritersProofs
  CellWritersOut SurfModel GeomSpec SurfSpec SurfWritersProofs SurfTargets FlattenModel NotsModel BoundaryModel MaterialModel MaterialProofs PropMaterial
  PropMaterialOut PropMaterialTargets KeywordModel DeckScan FileModel FileProofs PropKeyword PropDeck ProcessModel PropProcess PropRead ConvertModel LayoutProofs
  MainModel PropPlace PropMain PropCards PropProgram PropTexts.
From Verif Require PropPhitsFile PropProgramSerpent.
Open Scope nat_scope.
Open Scope list_scope.

(** What is asked of the materials for PHITS: nuclide numbers of digits, libraries without the signs that PHITS gives a
    meaning; no material cards if no cell has a material. *)
Definition phits_nuclides (cells : list cell_says) (ds : list data_says) : Prop :=
  forall n es, last_for n (mats_of ds) es -> (exists c, In c cells /\ cs_mat c <> None) /\ (forall z, lists z es -> zaid z) /\
    forall z l, library z es l -> nonspace l /\ PropPhitsFile.bare_word l.

(** The words in the parentheses after FILL place a universe as MCNP and PHITS read them; without them it stays. *)
Definition placed (str : R -> text) (place : list text) (m : motion) : Prop :=
  (place = [] /\ m = still) \/ exists vals, Forall2 (PropMain.shows str) place vals /\ (length vals = 3 \/ length vals = 12) /\ tr_means false vals m.

(** The card for a cell is what its MCNP card says: number, universe, region [r], the universe that fills it and where, the
    material and the density. *)
Definition phits_cell_said (str : R -> text) (ds : list data_says) (mats : list material) (c : cell_says) (r : region) (card : list text) : Prop :=
  exists n dens u fill place, PropPhitsFile.cell_card card (cs_id c) n dens u fill place r /\
    ((exists v, has_kw (KU v) (cs_keys c) /\ u = Some v) \/ ((forall v, ~ has_kw (KU v) (cs_keys c)) /\ u = None)) /\
    ((exists star v tr m, has_kw (KFill star v tr) (cs_keys c) /\ fill_means (trs_of ds) star tr m /\ fill = Some v /\ placed str place m) \/
     ((forall star v tr, ~ has_kw (KFill star v tr) (cs_keys c)) /\ fill = None)) /\
    match cs_mat c with
    | None => n = 0%Z
    | Some (m, q) => (0 < n)%Z /\ (exists v, py_float dens = Some v /\ (v == q)%Q) /\ exists a, In a mats /\ m_num a = str_Z n /\
        forall es, last_for (str_Z m) (mats_of ds) es -> made_of es (m_comp a) /\ libraries es (m_xs a)
    end.

Lemma some_nuclide es : good_entries es -> exists z, lists z es.
Proof.
  intro G. assert (S := ge_sum es G). clear G. induction es as [|[w|w f] es IH]; cbn [map total fraction] in S.
  - elim S. reflexivity.
  - destruct IH as (z & w' & f' & I & B); [intro H; apply S; rewrite H; reflexivity|]. exists z, w', f'. split; [now right|exact B].
  - exists (before_dot w), w, f. split; [now left|reflexivity].
Qed.
Lemma made_some es c : good_entries es -> made_of es c -> c <> [].
Proof.
  intros G (_ & k & _ & H1 & H2 & _) ->. destruct (some_nuclide es G) as (z & L). destruct (ge_zaid es G z L) as (n & E & P).
  destruct (Z.eq_dec (n mod 1000) 0) as [M|M]; [|destruct (H1 z n L E M) as (v & D & _); discriminate].
  assert (E' : py_int z = Some (1000 * (n / 1000))%Z) by (rewrite E; f_equal; pose proof (Z.div_mod n 1000); lia).
  destruct (ge_elem es G z _ L E') as [NI _]. destruct (isotopes (n / 1000)) as [|[i a] l] eqn:EI; [now elim NI|].
  destruct (H2 z _ i a L E') as (v & D & _); [rewrite EI; now left|discriminate].
Qed.

Lemma deck_for_phits str show cells ss ds d : (forall x, numeral (str x)) -> (forall q, numeral (show q)) -> deck_means str show cells (map snd ss) ds d ->
  deck_prints show cells ds d -> (forall x, In x (d_surfs d) -> ~ sheeted (fst x)) ->
  printable show cells ss ds -> (forall c, In c cells -> (0 < cs_id c)%Z) -> Forall (fun c => Forall good_entry (cs_keys c)) cells ->
  (forall c star v tr, In c cells -> has_kw (KFill star v tr) (cs_keys c) -> exists m, fill_means (trs_of ds) star tr m) ->
  phits_nuclides cells ds -> (forall n es, last_for n (mats_of ds) es -> good_entries es) -> PropPhitsFile.phits_deck str show d.
Proof.
  intros NS NQ D DP UC PR POS GE GF SN GM. split; [|split].
  - apply Forall_forall. intros x I. destruct (dm_surfs _ _ _ _ _ _ D x I) as (P & sn & E). exists sn. split; [exact E|]. split; [now apply UC|]. split.
    { destruct (dm_bc _ _ _ _ _ _ D x I) as [-> | ->]; discriminate. }
    split; [|apply Forall_forall; intros; apply NS]. apply Nat.le_trans with 41; [|lia]. apply big_length. pose proof (dp_ids _ _ _ _ DP x I). lia.
  - apply Forall_forall. intros g I. apply In_nth_error in I as (k & HG). destruct (nth_there _ _ k g (dm_count _ _ _ _ _ _ D) HG) as (c & HC).
    destruct (cell_printed str show cells (map snd ss) ss ds d k c g) as (L1 & L2 & GG); auto.
    destruct (cm_region _ _ _ _ _ _ _ _ _ (dm_cells _ _ _ _ _ _ D k c g HC HG)) as (r & E & _). exists r. now apply GG.
  - apply Forall_forall. intros [k a] I. cbn [snd]. destruct (dm_mats _ _ _ _ _ _ D k a I) as (MN & n & es & L & MO). destruct (SN n es L) as (EX & ZK & LK).
    destruct (MO EX) as [MA [LB1 LB2]]. split; [rewrite MN; now apply (dp_keys _ _ _ _ DP k a I)|]. split; [exact (made_some es _ (GM n es L) MA)|].
    destruct MA as (_ & _ & _ & _ & _ & KS). apply Forall_forall. intros [t q] IT. cbn [fst snd].
    destruct (KS t) as [(LT & i & EI & NE)|(z & y & i & b & LZ & EZ & II & ->)]; [unfold keys; apply in_map_iff; now exists (t, q)| |].
    + split; [now apply ZK|]. split; [apply NQ|]. destruct (library_exists t es LT) as (l & HL). exists l. split; [now apply (LB1 t i)|]. now apply (LK t).
    + split; [destruct (isotope_key y i b II) as (y1 & b1 & H); unfold nuclide_key in H; destruct H as [H HB]; rewrite H; apply str_zaid; lia|]. split; [apply NQ|].
      exists []. split; [now apply (LB2 z y i b)|]. split; reflexivity.
Qed.

(** C84, PHITS: the program is given the characters of an MCNP file and asked for PHITS.  It ends, and the file it writes,
    read as PHITS reads a file, holds the model the MCNP file describes: in the cell section the cells in their order, each
    with its number, universe, region, material and density and the universe that fills it with its place; in the
    importance section the importances of MCNP; in the material section compositions with the fractions and the libraries
    of the cards.  (Missing, because false or not modelled: what C78 and C83 leave out, above all the outer region, see
    [C78_outside_refuted].) *)
Theorem C84_phits_partial str show nuclide_order universe_order quick s cells ss ds rank :
  describes s cells ss ds -> good_cards cells (map snd ss) ds rank -> fine_cards quick (trs_of ds) ss -> uncut_cards ss ->
  printable show cells ss ds -> phits_nuclides cells ds -> (forall x, numeral (str x)) -> (forall q, numeral (show q)) ->
  exists N t d srfs mats sc cc ii mm,
    (forall fuel, N <= fuel -> program str show fuel nuclide_order universe_order quick [PHITS] s = Done ([(PHITS, File t)], Some d)) /\
    PropPhitsFile.phits_reads t = PropPhitsFile.Rd [] [] [(T "[TITLE]", [words (T "This PHITS file was produced automatically by csg2csg")]);
      (T "[PARAMETERS]", [map T ["icntl"; "="; "11"]; map T ["maxbch"; "="; "10"]; map T ["maxcas"; "="; "1000000"]]%string);
      (T "[SURFACE]", sc); (T "[CELL]", cc); (T "[IMPORTANCE]", map T ["reg"; "imp"]%string :: ii); (T "[MATERIAL]", mm)] /\
    Forall2 (fun x card => exists b, (b = TRANSMISSION \/ b = VACUUM) /\ PropPhitsFile.surf_card str card (fst x) b (snd x)) srfs sc /\ NoDup (map fst srfs) /\
    Forall2 (fun a card => PropPhitsFile.mat_card show card a) mats mm /\ NoDup (map m_num mats) /\
    Forall (fun a => exists n es, last_for n (mats_of ds) es /\ made_of es (m_comp a) /\ libraries es (m_xs a)) mats /\
    (length ii = length cells /\ forall k c e, nth_error cells k = Some c -> nth_error ii k = Some e -> exists q, importance ds k c q /\ e = [str_Z (cs_id c); show q]) /\
    Forall2 (fun c card => exists r, phits_cell_said str ds mats c r card /\
      forall p env incell, means_at cells (map snd ss) (trs_of ds) p env incell ->
      forall sense, (forall x, In x srfs -> (sense (fst x) = true <-> pos (snd x) p)) ->
      holds (zenv sense) r = incell (str_Z (cs_id c))) cells cc.
Proof.
  intros DS G FW UCC PR SN NS NQ.
  destruct (read_deck str show quick s cells ss ds rank DS G FW) as (N & d & L & D & UC & _). specialize (UC UCC).
  assert (POS : forall c, In c cells -> (0 < cs_id c)%Z) by (intros c I; now apply (gc_cells _ _ _ _ G c)).
  destruct (deck_printed str show quick s cells ss ds d N DS PR) as [DP GE]; [|exact (gc_pos _ _ _ _ G)|exact L|].
  { intros c m q IC EC. apply numeral_newline. now apply (pr_dens _ _ _ _ PR c m q). }
  assert (SD := deck_for_phits str show cells ss ds d NS NQ D DP UC PR POS GE (gc_fill _ _ _ _ G) SN (gc_mats _ _ _ _ G)).
  destruct (PropPhitsFile.C78_phits_file_partial str show d SD) as (t & sc & cc & mm & (K & LT) & RD & FS & FC & FM).
  destruct (choices (fun s y => surf_sense (fst s) = Some (snd y) /\ fst y = s_id (fst s)) (d_surfs d)) as (srfs & FR).
  { intros x I. destruct (dm_surfs _ _ _ _ _ _ D x I) as (_ & sn & E). now exists (s_id (fst x), sn). }
  set (mats := map snd (d_mats d)).
  exists (max N K), t, d, srfs, mats, sc, cc, (map (fun c => [str_Z (g_id c); show (g_imp c)]) (d_cells d)), mm. split.
  { intros fuel HF. unfold program. rewrite L by lia. cbn [run write_code]. rewrite LT by lia. reflexivity. }
  split; [exact RD|]. split.
  { assert (FB : Forall2 (fun s card => exists b, (b = TRANSMISSION \/ b = VACUUM) /\ forall sn, surf_sense (fst s) = Some sn -> PropPhitsFile.surf_card str card (s_id (fst s)) b sn) (d_surfs d) sc).
    { assert (B := dm_bc _ _ _ _ _ _ D). clear - FS B. induction FS as [|x card l l' H F IH]; constructor; [exists (s_bc (fst x)); split; [apply B; now left|exact H]|apply IH; intros y I; apply B; now right]. }
    apply forall2_same_left with (1 := FR) (2 := FB). intros x y c (E1 & E2) (b & HB & H). exists b. split; [exact HB|]. rewrite E2. now apply H. }
  split.
  { assert (IDS : map fst srfs = map (fun s => s_id (fst s)) (d_surfs d)) by (clear - FR; induction FR as [|x y l l' (_ & E) F IH]; cbn [map]; [reflexivity|]; now rewrite E, IH).
    rewrite IDS. apply (dm_ids _ _ _ _ _ _ D). }
  split.
  { unfold mats. clear - FM. induction FM as [|e card l l' H F IH]; cbn [map]; constructor; assumption. }
  split.
  { unfold mats. rewrite map_map. rewrite (map_ext_in _ fst); [apply (dm_keys _ _ _ _ _ _ D)|]. intros [k a] I. cbn [fst snd]. now apply (dm_mats _ _ _ _ _ _ D k a). }
  split.
  { unfold mats. apply Forall_map. apply Forall_forall. intros [k a] I. cbn [fst snd]. destruct (dm_mats _ _ _ _ _ _ D k a I) as (_ & n & es & LE & MO).
    exists n, es. split; [exact LE|]. apply MO. now apply (SN n es). }
  split.
  { split; [rewrite map_length; apply (dm_count _ _ _ _ _ _ D)|]. intros k c e HC HE. destruct (nth_there _ _ k c (eq_sym (dm_count _ _ _ _ _ _ D)) HC) as (g & HG).
    assert (M := dm_cells _ _ _ _ _ _ D k c g HC HG). exists (g_imp g). split; [exact (cm_imp _ _ _ _ _ _ _ _ _ M)|].
    rewrite (map_nth_error _ k (d_cells d) HG) in HE. injection HE as <-. now rewrite (cm_id _ _ _ _ _ _ _ _ _ M). }
  apply nth_forall2; [rewrite <- (dm_count _ _ _ _ _ _ D); exact (forall2_len _ _ _ FC)|].
  intros k c card HC HCS. destruct (nth_there _ _ k c (eq_sym (dm_count _ _ _ _ _ _ D)) HC) as (g & HG).
  assert (M := dm_cells _ _ _ _ _ _ D k c g HC HG). assert (IC := nth_error_In _ _ HC).
  destruct (cm_region _ _ _ _ _ _ _ _ _ M) as (r & EX & HR). exists r. split.
  2:{ intros p env incell MA sense SE. apply (HR p env incell MA). intros s0 sn IS ES. destruct (forall2_in_left _ _ _ s0 FR IS) as (y & IY & Y1 & Y2).
      rewrite Y1 in ES. injection ES as <-. rewrite <- Y2. now apply SE. }
  assert (CC := forall2_nth _ _ _ FC k g card HG HCS r EX). cbv beta in CC. rewrite (cm_id _ _ _ _ _ _ _ _ _ M) in CC.
  exists (g_mat g), (g_dens g), (g_univ g), (g_fill g), (placement (g_offset g) (g_rot g)). split; [exact CC|]. split.
  { destruct (has_univ c) as [(v & H)|NU]; [left; exists v; split; [exact H|]; now apply (cm_univ _ _ _ _ _ _ _ _ _ M v)|right].
    split; [exact NU|exact (cm_nouniv _ _ _ _ _ _ _ _ _ M NU)]. }
  split.
  { destruct (has_fill c) as [(star & v & tr & H)|NF]; [left|right; split; [exact NF|exact (proj1 (cm_nofill _ _ _ _ _ _ _ _ _ M NF))]].
    destruct (gc_fill _ _ _ _ G c star v tr IC H) as (m & FMN). destruct (cm_fill _ _ _ _ _ _ _ _ _ M star v tr m H FMN) as [FL [M1 M2]].
    exists star, v, tr, m. split; [exact H|]. split; [exact FMN|]. split; [exact FL|]. unfold placed, placement.
    assert (Z0 : PropMain.shows str (T "0") 0%R) by (left; now apply whole_float).
    destruct m as [[x y z] [a1 a2 a3] [b1 b2 b3] [e1 e2 e3]]. cbn [mo r1 r2 r3 GeomSpec.px GeomSpec.py GeomSpec.pz flat_map app] in M1, M2.
    destruct (g_offset g) as [o|], (g_rot g) as [a|].
    - right. exists ([x; y; z] ++ [a1; a2; a3; b1; b2; b3; e1; e2; e3]). split; [now apply Forall2_app|]. split; [now right|]. exact (tr12 false x y z a1 a2 a3 b1 b2 b3 e1 e2 e3).
    - right. exists [x; y; z]. rewrite app_nil_r. split; [exact M1|]. split; [now left|]. destruct M2 as (-> & -> & ->). apply tr3.
    - right. exists ([x; y; z] ++ [a1; a2; a3; b1; b2; b3; e1; e2; e3]). split; [|split; [now right|exact (tr12 false x y z a1 a2 a3 b1 b2 b3 e1 e2 e3)]]. apply Forall2_app; [|exact M2].
      injection M1 as -> -> ->. repeat (constructor; [exact Z0|]). constructor.
    - left. split; [reflexivity|]. destruct M2 as (-> & -> & ->). now rewrite M1. }
  destruct (cs_mat c) as [[m q]|] eqn:EM; [|exact (cm_void _ _ _ _ _ _ _ _ _ M EM)].
  destruct (cm_mat _ _ _ _ _ _ _ _ _ M m q EM) as (-> & PM & a & A1 & A2 & A3 & A4). split; [exact PM|]. split; [apply (pr_dens _ _ _ _ PR c m q IC EM)|].
  exists a. split; [unfold mats; apply in_map_iff; exists (str_Z (g_mat g), a); split; [reflexivity|now apply dget_some_in]|]. now split.
Qed.
Print Assumptions C84_phits_partial.

Lemma show84_numeral q : numeral (PropProgramSerpent.show84 q).
Proof.
  unfold PropProgramSerpent.show84. destruct (Qeq_bool q (-78 # 10)); [|destruct (Qeq_bool q (-25 # 10)); [|destruct (Qeq_bool q 0)]];
    (split; [discriminate|]); (split; [cbn; lia|reflexivity]).
Qed.
Lemma phits_nuclides84 : phits_nuclides (map snd cells83) (map snd data83).
Proof.
  intros n es L. destruct (mats83 n es L) as [_ ->]. split; [eexists; split; [left; reflexivity|discriminate]|].
  split; [intros z LZ; destruct (lists83 z LZ) as [-> | ->]; (split; [discriminate|reflexivity])|].
  intros z l (a & w & f & b & E & _ & <- & _). assert (I : In (Nuclide w f) [Nuclide (T "8000") (T "0.5"); Nuclide (T "1001.70c") (T "1.5")]) by (rewrite E; apply in_elt).
  destruct I as [I|[I|[]]]; injection I as <- <-; split; reflexivity.
Qed.

(** The file of the example of C83 for PHITS: the third cell is filled with universe 3, moved by 5 along z; (1/2, 1/2, 6) is
    in cells 2 and 3 only; hydrogen keeps its library 70c. *)
Example C84_phits_example str nuclide_order universe_order quick : (forall x, numeral (str x)) ->
  exists N t d srfs mats head sc card1 card2 card3 card4 mm place r1 r2 r3 r4 n2 dens a fill4 u4 place4 u3 dens4,
    (forall fuel, N <= fuel -> program str PropProgramSerpent.show84 fuel nuclide_order universe_order quick [PHITS] file83 = Done ([(PHITS, File t)], Some d)) /\
    PropPhitsFile.phits_reads t = PropPhitsFile.Rd [] [] (head ++ [(T "[SURFACE]", sc); (T "[CELL]", [card1; card2; card3; card4]);
      (T "[IMPORTANCE]", map (map T) [["reg"; "imp"]; ["1"; "1"]; ["2"; "1"]; ["3"; "1"]; ["4"; "0"]]%string); (T "[MATERIAL]", mm)]) /\
    (exists place2, PropPhitsFile.cell_card card2 2 n2 dens (Some (T "3")) None place2 r2) /\ In a mats /\ m_num a = str_Z n2 /\ (exists v, py_float dens = Some v /\ v == -25 # 10)%Q /\
    made_of [Nuclide (T "8000") (T "0.5"); Nuclide (T "1001.70c") (T "1.5")] (m_comp a) /\ dget (T "1001") (m_xs a) = Some (T "70c") /\
    (exists dens3, PropPhitsFile.cell_card card3 3 0 dens3 u3 (Some (T "3")) place r3) /\ u3 = None /\
    Forall2 (PropMain.shows str) (firstn 3 place) [0; 0; 5]%R /\
    PropPhitsFile.cell_card card4 4 0 dens4 u4 fill4 place4 r4 /\ fill4 = None /\
    forall sense, (forall x, In x srfs -> (sense (fst x) = true <-> pos (snd x) (Pt (1/2) (1/2) 6))) ->
      map (holds (zenv sense)) [r1; r2; r3; r4] = [false; true; true; false].
Proof.
  intro W. destruct (C84_phits_partial str PropProgramSerpent.show84 nuclide_order universe_order quick file83 _ surfs83 _ Z.to_nat describes83 good_cards83 (fine_cards83 quick) uncut_cards83
    PropProgramSerpent.printable84 phits_nuclides84 W show84_numeral) as (N & t & d & srfs & mats & sc & cc & ii & mm & L & RD & _ & _ & _ & _ & _ & (LI & II) & F).
  assert (EI : ii = map (map T) [["1"; "1"]; ["2"; "1"]; ["3"; "1"]; ["4"; "0"]]%string).
  { assert (LP : last_imp (map snd data83) [T "1"; T "1"; T "1"; T "0"]).
    { exists []. eexists. split; [reflexivity|]. intros ws I. cbn [In] in I. intuition discriminate. }
    destruct ii as [|i1 [|i2 [|i3 [|i4 [|i5 ii]]]]]; try discriminate LI.
    assert (G : forall k c q, k < 4 -> importance (map snd data83) k c q -> exists v, nth_error [T "1"; T "1"; T "1"; T "0"] k = Some v /\ py_float v = Some q).
    { intros k c q K [(vs & v & LV & NV & PF)|[LV _]]; [|specialize (LV _ LP); cbn [length] in LV; lia]. rewrite (last_imp83 vs LV) in NV. now exists v. }
    destruct (II 0 _ i1 eq_refl eq_refl) as (q1 & Q1 & ->), (II 1 _ i2 eq_refl eq_refl) as (q2 & Q2 & ->), (II 2 _ i3 eq_refl eq_refl) as (q3 & Q3 & ->), (II 3 _ i4 eq_refl eq_refl) as (q4 & Q4 & ->).
    apply G in Q1 as (v1 & E1 & P1); [|lia]. apply G in Q2 as (v2 & E2 & P2); [|lia]. apply G in Q3 as (v3 & E3 & P3); [|lia]. apply G in Q4 as (v4 & E4 & P4); [|lia].
    cbn [nth_error] in E1, E2, E3, E4. injection E1 as <-. injection E2 as <-. injection E3 as <-. injection E4 as <-.
    vm_compute in P1, P2, P3, P4. injection P1 as <-. injection P2 as <-. injection P3 as <-. injection P4 as <-. vm_compute. reflexivity. }
  subst ii. clear II LI.
  assert (LN := forall2_len _ _ _ F). destruct cc as [|c1 [|c2 [|c3 [|c4 [|c5 cc]]]]]; try discriminate LN. cbn [map cells83 snd] in F.
  inversion F as [|? ? ? ? (r1 & S1 & H1) F1]; subst. clear F. inversion F1 as [|? ? ? ? (r2 & S2 & H2) F2]; subst. clear F1.
  inversion F2 as [|? ? ? ? (r3 & S3 & H3) F3]; subst. clear F2. inversion F3 as [|? ? ? ? (r4 & S4 & H4) F4]; subst. clear F3 F4 LN.
  destruct S2 as (n2 & dens & u2 & fill2 & place2 & CC2 & U2 & FL2 & _ & DQ & a & IA & NA & MA).
  destruct U2 as [(v & [U2|[]] & ->)|[NU _]]; [|elim (NU (T "3")); now left]. injection U2 as <-.
  destruct FL2 as [(star & v & tr & m & [K|[]] & _)|(_ & ->)]; [discriminate K|].
  destruct S4 as (n4 & dens4 & u4 & fill4 & place4 & CC4 & _ & [(star & v & tr & m & [] & _)|(_ & ->)] & ->).
  destruct S3 as (n3 & dens3 & u3 & fill3 & place3 & CC3 & U3 & [(star & v & tr & m & [K|[]] & FM & -> & PL)|(NK & _)] & ->); [|elim (NK false (T "3") (Some (T " ", T "7"))); now left].
  injection K as <- <- <-. destruct U3 as [(v & [U3|[]] & _)|[_ ->]]; [discriminate U3|].
  cbn [fill_means] in FM. revert FM. set (w := words _). vm_compute in w. subst w. cbv iota. intros [_ FM].
  assert (E : m = motion7).
  { destruct FM as (x & y & E & _). change (trs_of (map snd data83)) with [(T "7", motion7)] in E. destruct x as [|? x]; [now injection E as <- _|]. injection E as _ E. destruct x; discriminate. }
  subst m. destruct (MA [Nuclide (T "8000") (T "0.5"); Nuclide (T "1001.70c") (T "1.5")]) as [MO [LB _]]; [exists [], []; split; [reflexivity|intros []]|].
  exists N, t, d, srfs, mats, (firstn 2 (PropPhitsFile.sections (PropPhitsFile.phits_reads t))), sc, c1, c2, c3, c4, mm, place3, r1, r2, r3, r4, n2, dens, a, None, u4, place4, None, dens4.
  split; [exact L|]. split; [rewrite RD; reflexivity|]. split; [now exists place2|]. split; [exact IA|]. split; [exact NA|]. split; [exact DQ|].
  split; [exact MO|]. split.
  { apply (LB (T "1001") 1001%Z); [|vm_compute; reflexivity|discriminate]. exists [Nuclide (T "8000") (T "0.5")], (T "1001.70c"), (T "1.5"), []. split; [reflexivity|]. split; [reflexivity|]. split; [reflexivity|].
    intros (? & ? & [] & _). }
  split; [now exists dens3|]. split; [reflexivity|]. split.
  { destruct PL as [[_ E]|(vals & SV & LV & TM)]; [apply (f_equal (fun m => GeomSpec.pz (mo m))) in E; cbn in E; lra|].
    assert (E3 : firstn 3 vals = [0; 0; 5]%R) by (unfold motion7 in TM; inversion TM; subst; try reflexivity; destruct LV as [LV|LV]; discriminate LV).
    rewrite <- E3. clear - SV. destruct SV as [|? ? ? ? H1 [|? ? ? ? H2 [|? ? ? ? H3 ?]]]; cbn [firstn]; repeat (apply Forall2_cons; [assumption|]); apply Forall2_nil. }
  split; [exact CC4|]. split; [reflexivity|].
  intros sense SE. cbn [map]. rewrite (H1 _ _ _ means83 sense SE), (H2 _ _ _ means83 sense SE), (H3 _ _ _ means83 sense SE), (H4 _ _ _ means83 sense SE). vm_compute. reflexivity.
Qed.
