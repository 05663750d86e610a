(** C84: the whole program, from the characters of an MCNP file to the Serpent file (csg2csg/__main__.py 74-134,
    SerpentInput.py 104-131). *)
From Coq Require Import QArith Reals Lra Lia.
From Verif Require Import PyStr PyStrFacts PyInt PyIntFacts PyDict FortranNumber RegionSpec RegionFacts LexSpec CellModel CellProofs CellWritersProofs CellWritersOut
  SurfModel GeomSpec SurfSpec SurfWritersProofs SurfTargets FlattenModel NotsModel BoundaryModel MaterialModel MaterialProofs PropMaterial PropMaterialOut PropMaterialTargets
  KeywordModel DeckScan FileModel FileProofs PropKeyword PropDeck ProcessModel PropProcess PropRead ConvertModel LayoutProofs MainModel PropPlace PropMain
  PropCards PropProgram PropTexts.
From Verif Require PropSerpentFile.
Open Scope nat_scope.
Open Scope list_scope.

(** What is asked of the materials for Serpent: nuclide numbers of digits; no material cards if no cell has a material; the
    density 0 of a material without cells is printed as a number. *)
Definition serpent_nuclides (show : Q -> text) (cells : list cell_says) (ds : list data_says) : Prop :=
  forall n es, last_for n (mats_of ds) es -> (exists c, In c cells /\ cs_mat c <> None) /\ density_shown show 0 /\ forall z, lists z es -> zaid z.

(** The cards for a cell are what its card says: number, universe, region [r], and the universe that fills it with the card
    that moves it, or the material, or nothing.  [mats]: name, density and nuclides of the materials written. *)
Definition serp_cell_said (str : R -> text) (ds : list data_says) (mats : list (text * Q * dict Q)) (c : cell_says) (r : region) (cs : list (list text)) : Prop :=
  exists card u k, PropSerpentFile.cell_card card (cs_id c) u k r /\
    (has_kw (KU u) (cs_keys c) \/ ((forall v, ~ has_kw (KU v) (cs_keys c)) /\ u = T "0")) /\
    ((exists star v tr m, has_kw (KFill star v tr) (cs_keys c) /\ fill_means (trs_of ds) star tr m /\ k = PropSerpentFile.Universe v /\
        ((cs = [card] /\ m = still) \/
         exists p t a, cs = [card; p] /\ PropSerpentFile.fill_card p (cs_id c) t a /\
           Forall2 (PropMain.shows str) t [GeomSpec.px (mo m); GeomSpec.py (mo m); GeomSpec.pz (mo m)] /\
           Forall2 (PropMain.shows str) a (flat_map (fun r => [GeomSpec.px r; GeomSpec.py r; GeomSpec.pz r]) [r1 m; r2 m; r3 m]))) \/
     ((forall star v tr, ~ has_kw (KFill star v tr) (cs_keys c)) /\ cs = [card] /\
      match cs_mat c with
      | None => k = PropSerpentFile.Void
      | Some (m, q) => exists n dens nuclides, k = PropSerpentFile.Filled (str_Z n) /\ In (str_Z n, dens, nuclides) mats /\ (dens == q)%Q /\
          forall es, last_for (str_Z m) (mats_of ds) es -> made_of es nuclides
      end)).

Lemma deck_for_serpent str show cells ss ds d : (forall x, numeral (str x)) -> deck_means str show cells (map snd ss) ds d -> deck_prints show cells ds d ->
  (forall x, In x (d_surfs d) -> few_digits (fst x)) -> printable show cells ss ds -> (forall c, In c cells -> (0 < cs_id c)%Z) -> Forall (fun c => Forall good_entry (cs_keys c)) cells ->
  (forall c star v tr, In c cells -> has_kw (KFill star v tr) (cs_keys c) -> exists m, fill_means (trs_of ds) star tr m) ->
  serpent_nuclides show cells ds -> (forall n es, last_for n (mats_of ds) es -> good_entries es) -> PropSerpentFile.serp_deck str show d.
Proof.
  intros NS D DP FW PR POS GE GF SN GM. split; [exact NS|]. split; [|split].
  - apply Forall_forall. intros x I. destruct (dm_surfs _ _ _ _ _ _ D x I) as (_ & sn & E). exists sn. split; [exact E|]. intro FP. now apply (FW x I).
  - apply Forall_forall. intros g I. apply In_nth_error in I as (k & HG). destruct (nth_there _ _ k g (dm_count _ _ _ _ _ _ D) HG) as (c & HC).
    destruct (cell_printed str show cells (map snd ss) ss ds d k c g) as (L1 & L2 & GG); auto.
    destruct (cm_region _ _ _ _ _ _ _ _ _ (dm_cells _ _ _ _ _ _ D k c g HC HG)) as (r & E & _). split; [lia|]. split; [lia|]. exists r. now apply GG.
  - apply Forall_forall. intros [k a] I. cbn [snd]. destruct (dm_mats _ _ _ _ _ _ D k a I) as (MN & n & es & L & MO). destruct (SN n es L) as (EX & D0 & ZK).
    destruct (proj1 (MO EX)) as (ND & _ & _ & _ & _ & KS). destruct (dp_keys _ _ _ _ DP k a I) as (ZN & _ & NL & NC & DD).
    assert (DS : density_shown show (m_dens a)) by (destruct DD as [-> |(c & m & IC & EC)]; [exact D0|now apply (pr_dens _ _ _ _ PR c m)]).
    destruct DS as (DS1 & _ & _ & v & DS2 & DS3). split; [|split; [exact DS1|intros c E; congruence]].
    split; [now rewrite MN|]. split; [exact NL|]. split; [now apply numeral_wordy|]. split; [now exists v|]. split; [intros c E; congruence|]. split; [exact ND|].
    apply Forall_forall. intros [t q] IT. cbn [fst]. destruct (KS t) as [(LT & _)|(z & y & i & b & _ & _ & II & ->)]; [unfold keys; apply in_map_iff; now exists (t, q)|now apply ZK|].
    destruct (isotope_key y i b II) as (y1 & b1 & H). unfold nuclide_key in H. destruct H as [H HB]. rewrite H. apply str_zaid. lia.
Qed.

(** C84, Serpent: the program is given the characters of an MCNP file and asked for Serpent.  It ends, and the file it
    writes, read as Serpent reads a file, holds the model the MCNP file describes: the cards of the cells are there in their
    order, each with its number, universe, material (composition and density) or the universe that fills it with its motion,
    and its region contains exactly the points its card says, wherever numbers are printed exactly.  (Missing, because false
    or not modelled: what C77 and C83 leave out, above all that nothing marks the outside, see [C77_outside_refuted].) *)
Theorem C84_serpent_partial str show nuclide_order universe_order quick s cells ss ds rank :
  describes s cells ss ds -> good_cards cells (map snd ss) ds rank -> fine_cards quick (trs_of ds) ss ->
  six_digits ss -> printable show cells ss ds -> serpent_nuclides show cells ds -> (forall x, numeral (str x)) ->
  exists N t d srfs mats sc cc mm,
    (forall fuel, N <= fuel -> program str show fuel nuclide_order universe_order quick [SERPENT] s = Done ([(SERPENT, File t)], Some d)) /\
    PropSerpentFile.serpent_reads t = ([], sc ++ concat cc ++ mm) /\
    Forall2 (fun x card => PropSerpentFile.surf_card str card (fst x) (snd x)) srfs sc /\ NoDup (map fst srfs) /\
    Forall2 (fun x card => PropSerpentFile.mat_card card (fst (fst x)) (snd (fst x)) None (snd x)) mats mm /\ NoDup (map (fun x => fst (fst x)) mats) /\
    Forall (fun x => exists n es, last_for n (mats_of ds) es /\ made_of es (snd x)) mats /\
    Forall2 (fun c cs => exists r, serp_cell_said str ds mats c r cs /\
      forall p env incell, means_at cells (map snd ss) (trs_of ds) p env incell ->
      forall sense, (forall x, In x srfs -> (sense (fst x) = true <-> pos (snd x) p)) ->
      holds (zenv sense) r = incell (str_Z (cs_id c))) cells cc.
Proof.
  intros DS G FW S6 PR SN NS.
  destruct (read_deck str show quick s cells ss ds rank DS G FW) as (N & d & L & D & _ & _).
  assert (POS : forall c, In c cells -> (0 < cs_id c)%Z) by (intros c I; now apply (gc_cells _ _ _ _ G c)).
  destruct (deck_printed str show quick s cells ss ds d N DS PR) as [DP GE]; [|exact (gc_pos _ _ _ _ G)|exact L|].
  { intros c m q IC EC. apply numeral_newline. now apply (pr_dens _ _ _ _ PR c m q). }
  assert (SD := deck_for_serpent str show cells ss ds d NS D DP (deck_few str show quick s cells ss ds d N DS S6 L) PR POS GE (gc_fill _ _ _ _ G) SN (gc_mats _ _ _ _ G)).
  destruct (PropSerpentFile.C77_serpent_file_partial str show d SD) as (t & sc & cc & mm & (K & LT) & RD & FS & FC & FM).
  destruct (choices (fun s y => surf_sense (fst s) = Some (snd y) /\ fst y = s_id (fst s)) (d_surfs d)) as (srfs & FR).
  { intros x I. destruct (dm_surfs _ _ _ _ _ _ D x I) as (_ & sn & E). now exists (s_id (fst x), sn). }
  set (mats := map (fun e : text * material => (m_num (snd e), m_dens (snd e), m_comp (snd e))) (d_mats d)).
  exists (max N K), t, d, srfs, mats, sc, cc, mm. split.
  { intros fuel HF. unfold program. rewrite L by lia. cbn [run write_code]. rewrite LT by lia. reflexivity. }
  split; [exact RD|]. split.
  { apply forall2_same_left with (1 := FR) (2 := FS). intros x y c (E1 & E2) H. rewrite E2. now apply H. }
  split.
  { assert (IDS : map fst srfs = map (fun s => s_id (fst s)) (d_surfs d)) by (clear - FR; induction FR as [|x y l l' (_ & E) F IH]; cbn [map]; [reflexivity|]; now rewrite E, IH).
    rewrite IDS. apply (dm_ids _ _ _ _ _ _ D). }
  split.
  { unfold mats. assert (CN : Forall (fun e => m_colour (snd e) = None) (d_mats d)) by (apply Forall_forall; intros [k a] I; apply (dp_keys _ _ _ _ DP k a I)).
    clear - FM CN. revert CN. induction FM as [|e card l l' H F IH]; cbn [map]; intro CN; constructor; inversion CN as [|? ? C CN']; subst; [|now apply IH].
    cbn [fst snd]. rewrite C in H. exact H. }
  split.
  { unfold mats. rewrite map_map. cbn [fst]. rewrite (map_ext_in _ fst); [apply (dm_keys _ _ _ _ _ _ D)|]. intros [k a] I. cbn [fst snd]. now apply (dm_mats _ _ _ _ _ _ D k a). }
  split.
  { unfold mats. apply Forall_map. apply Forall_forall. intros [k a] I. cbn [fst snd]. destruct (dm_mats _ _ _ _ _ _ D k a I) as (_ & n & es & LE & MO).
    exists n, es. split; [exact LE|]. apply (proj1 (MO (proj1 (SN n es LE)))). }
  apply nth_forall2; [rewrite <- (dm_count _ _ _ _ _ _ D); exact (forall2_len _ _ _ FC)|].
  intros k c cs HC HCS. destruct (nth_there _ _ k c (eq_sym (dm_count _ _ _ _ _ _ D)) HC) as (g & HG).
  assert (M := dm_cells _ _ _ _ _ _ D k c g HC HG). assert (IC := nth_error_In _ _ HC).
  destruct (cm_region _ _ _ _ _ _ _ _ _ M) as (r & EX & HR). exists r. split.
  2:{ intros p env incell MA sense SE. apply (HR p env incell MA). intros s0 sn IS ES. destruct (forall2_in_left _ _ _ s0 FR IS) as (y & IY & Y1 & Y2).
      rewrite Y1 in ES. injection ES as <-. rewrite <- Y2. now apply SE. }
  destruct (forall2_nth _ _ _ FC k g cs HG HCS r EX) as (card & rest & -> & CC & PL). rewrite (cm_id _ _ _ _ _ _ _ _ _ M) in CC, PL.
  exists card, (PropSerpentFile.universe_of g), (PropSerpentFile.inside_of g). split; [exact CC|]. split.
  { unfold PropSerpentFile.universe_of. destruct (has_univ c) as [(v & H)|NU]; [left|right].
    - now rewrite (cm_univ _ _ _ _ _ _ _ _ _ M v H).
    - now rewrite (cm_nouniv _ _ _ _ _ _ _ _ _ M NU). }
  unfold PropSerpentFile.inside_of, PropSerpentFile.place_of in *. destruct (has_fill c) as [(star & v & tr & H)|NF].
  - left. destruct (gc_fill _ _ _ _ G c star v tr IC H) as (m & FMN). destruct (cm_fill _ _ _ _ _ _ _ _ _ M star v tr m H FMN) as [FL [M1 M2]].
    rewrite FL in *. exists star, v, tr, m. do 3 (split; [first [exact H|exact FMN|reflexivity]|]).
    assert (Z0 : PropMain.shows str (T "0") 0%R) by (left; now apply whole_float). assert (Z1 : PropMain.shows str (T "1") 1%R) by (left; now apply whole_float).
    destruct (g_offset g) as [o|], (g_rot g) as [a|].
    + right. destruct PL as (p & -> & PF). exists p, o, a. auto.
    + right. destruct PL as (p & -> & PF). eexists p, o, _. split; [reflexivity|]. split; [exact PF|]. split; [exact M1|]. destruct M2 as (-> & -> & ->).
      cbn [flat_map app map GeomSpec.px GeomSpec.py GeomSpec.pz]. repeat (constructor; [first [exact Z0|exact Z1]|]). constructor.
    + right. destruct PL as (p & -> & PF). eexists p, _, a. split; [reflexivity|]. split; [exact PF|]. split; [|exact M2]. rewrite M1.
      cbn [GeomSpec.px GeomSpec.py GeomSpec.pz]. repeat (constructor; [exact Z0|]). constructor.
    + left. subst rest. split; [reflexivity|]. destruct m as [o a b e]. cbn [mo r1 r2 r3] in M1, M2. destruct M2 as (-> & -> & ->). subst o. reflexivity.
  - right. destruct (cm_nofill _ _ _ _ _ _ _ _ _ M NF) as (FL & _). rewrite FL in *. split; [exact NF|]. split; [now rewrite PL|].
    destruct (cs_mat c) as [[m q]|] eqn:EM.
    + destruct (cm_mat _ _ _ _ _ _ _ _ _ M m q EM) as (_ & PM & a & A1 & A2 & A3 & A4). destruct (Z.eqb_spec (g_mat g) 0) as [Q|_]; [lia|].
      exists (g_mat g), (m_dens a), (m_comp a). split; [reflexivity|]. split; [|split; [exact A3|intros es LE; exact (proj1 (A4 es LE))]]. unfold mats. apply in_map_iff. exists (str_Z (g_mat g), a).
      cbn [snd]. split; [now rewrite A2|now apply dget_some_in].
    + rewrite (cm_void _ _ _ _ _ _ _ _ _ M EM). reflexivity.
Qed.
Print Assumptions C84_serpent_partial.

(** Texts for the numbers of the example. *)
Definition show84 (q : Q) : text := if Qeq_bool q (-78 # 10) then T "-7.8" else if Qeq_bool q (-25 # 10) then T "-2.5" else if Qeq_bool q 0 then T "0" else T "1".
Lemma six_digits83 : PropTexts.six_digits surfs83.
Proof. apply Forall_forall. intros x I m vals S C. destruct (spells83 x m vals I S) as [[-> _]| ->]; cbn [In] in C; repeat (destruct C as [C|C]; [discriminate C|]); destruct C. Qed.
Lemma densities84 q : (q == -78 # 10)%Q \/ (q == -25 # 10)%Q \/ (q == 0)%Q -> density_shown show84 q.
Proof.
  intro H. assert (E : show84 q = T "-7.8" /\ (q == -78 # 10)%Q \/ show84 q = T "-2.5" /\ (q == -25 # 10)%Q \/ show84 q = T "0" /\ (q == 0)%Q).
  { unfold show84. destruct H as [H|[H|H]]; [left|right; left|right; right]; (split; [|exact H]).
    - apply Qeq_bool_iff in H. now rewrite H.
    - replace (Qeq_bool q (-78 # 10)) with (Qeq_bool (-25 # 10) (-78 # 10)) by now rewrite H. apply Qeq_bool_iff in H. rewrite H. reflexivity.
    - replace (Qeq_bool q (-78 # 10)) with (Qeq_bool 0 (-78 # 10)) by now rewrite H. replace (Qeq_bool q (-25 # 10)) with (Qeq_bool 0 (-25 # 10)) by now rewrite H.
      apply Qeq_bool_iff in H. rewrite H. reflexivity. }
  assert (NU : forall t, t = T "-7.8" \/ t = T "-2.5" \/ t = T "0" -> numeral t /\ ~ In "+"%char t /\ get_fortran_formatted_number t <> None).
  { intros t D. split; [|split].
    - destruct D as [-> |[-> | ->]]; (split; [discriminate|]); (split; [cbn; lia|reflexivity]).
    - destruct D as [-> |[-> | ->]]; cbn; intuition discriminate.
    - destruct D as [-> |[-> | ->]]; vm_compute; discriminate. }
  unfold density_shown. destruct E as [[-> E]|[[-> E]|[-> E]]]; (split; [apply NU; auto|]); (split; [apply NU; auto|]); (split; [apply NU; auto|]); eexists;
    (split; [vm_compute; reflexivity|]); rewrite E; reflexivity.
Qed.
Lemma printable84 : printable show84 (map snd cells83) surfs83 (map snd data83).
Proof.
  split.
  - intros c I. cbn [map cells83 snd In] in I. destruct I as [<-|[<-|[<-|[<-|[]]]]]; vm_compute; reflexivity.
  - intros s I. cbn [surfs83 In] in I. destruct I as [<-|[<-|[]]]; vm_compute; reflexivity.
  - vm_compute; reflexivity.
  - change (mats_of (map snd data83)) with [(T "1", [Nuclide (T "8000") (T "0.5"); Nuclide (T "1001.70c") (T "1.5")])]. intros n [<-|[]]. cbn. lia.
  - intros c m q I E. apply densities84. cbn [map cells83 snd In] in I. destruct I as [<-|[<-|[<-|[<-|[]]]]]; cbn [cs_mat] in E; try discriminate; injection E as <- <-; auto using Qeq_refl.
  - intros k c q HC HI. assert (LI : last_imp (map snd data83) [T "1"; T "1"; T "1"; T "0"]).
    { exists []. eexists. split; [reflexivity|]. intros ws I. cbn [In] in I. intuition discriminate. }
    assert (K : k < 4) by (change 4 with (length (map snd cells83)); apply nth_error_Some; congruence).
    destruct HI as [(vs & v & L & NV & PF)|[L _]]; [|specialize (L _ LI); cbn [length] in L; lia]. rewrite (last_imp83 vs L) in NV.
    destruct k as [|[|[|[|k]]]]; cbn [nth_error] in NV; [| | | |lia]; injection NV as <-; vm_compute in PF; injection PF as <-;
      (split; [|split; [vm_compute; lia|]]);
      try (eexists []; (exists (T "1") + exists (T "0")); exists []; (split; [vm_compute; reflexivity|]); (split; [now left|]); (split; [vm_compute; reflexivity|]); (split; [now left|discriminate])); eexists; (split; [vm_compute; reflexivity|reflexivity]).
  - intros c v I H. cbn [map cells83 snd In] in I. destruct I as [<-|[<-|[<-|[<-|[]]]]]; cbn in H; try contradiction; (destruct H as [H|H]; [|contradiction]); try discriminate H; injection H as <-; cbn; lia.
  - intros c star v tr I H. cbn [map cells83 snd In] in I. destruct I as [<-|[<-|[<-|[<-|[]]]]]; cbn in H; try contradiction; (destruct H as [H|H]; [|contradiction]); try discriminate H.
    injection H as <- <- <-. split; [cbn; lia|]. set (w := words _). vm_compute in w. subst w. constructor; [|constructor]. split; [discriminate|]. split; [cbn; lia|reflexivity].
Qed.
Lemma nuclides84 : serpent_nuclides show84 (map snd cells83) (map snd data83).
Proof.
  intros n es L. destruct (mats83 n es L) as [_ ->]. split; [eexists; split; [left; reflexivity|discriminate]|]. split; [apply densities84; auto using Qeq_refl|].
  intros z LZ. destruct (lists83 z LZ) as [-> | ->]; (split; [discriminate|reflexivity]).
Qed.

(** The file of the example of C83 for Serpent: the third cell is filled with universe 3, moved by 5 along z; (1/2, 1/2, 6) is in cells 2 and 3 only. *)
Example C84_serpent_example str nuclide_order universe_order quick : (forall x, numeral (str x)) ->
  exists N t d srfs mats sc card1 card2 card3 p card4 mm k3 r1 r2 r3 r4 n2 dens nuclides,
    (forall fuel, N <= fuel -> program str show84 fuel nuclide_order universe_order quick [SERPENT] file83 = Done ([(SERPENT, File t)], Some d)) /\
    PropSerpentFile.serpent_reads t = ([], sc ++ [card1; card2; card3; p; card4] ++ mm) /\
    PropSerpentFile.cell_card card2 2 (T "3") (PropSerpentFile.Filled (str_Z n2)) r2 /\ In (str_Z n2, dens, nuclides) mats /\ (dens == -25 # 10)%Q /\
    made_of [Nuclide (T "8000") (T "0.5"); Nuclide (T "1001.70c") (T "1.5")] nuclides /\
    PropSerpentFile.cell_card card3 3 (T "0") k3 r3 /\ k3 = PropSerpentFile.Universe (T "3") /\
    (exists tr a, PropSerpentFile.fill_card p 3 tr a /\ Forall2 (PropMain.shows str) tr [0; 0; 5]%R) /\
    (exists u, PropSerpentFile.cell_card card4 4 u PropSerpentFile.Void r4) /\
    forall sense, (forall x, In x srfs -> (sense (fst x) = true <-> pos (snd x) (Pt (1/2) (1/2) 6))) ->
      map (holds (zenv sense)) [r1; r2; r3; r4] = [false; true; true; false].
Proof.
  intro W. destruct (C84_serpent_partial str show84 nuclide_order universe_order quick file83 _ surfs83 _ Z.to_nat describes83 good_cards83 (fine_cards83 quick) six_digits83 printable84 nuclides84 W)
    as (N & t & d & srfs & mats & sc & cc & mm & L & RD & _ & _ & _ & _ & _ & F).
  assert (LN := forall2_len _ _ _ F). destruct cc as [|c1 [|c2 [|c3 [|c4 [|c5 cc]]]]]; try discriminate LN. cbn [map cells83 snd] in F.
  inversion F as [|? ? ? ? (r1 & S1 & H1) F1]; subst. clear F. inversion F1 as [|? ? ? ? (r2 & S2 & H2) F2]; subst. clear F1.
  inversion F2 as [|? ? ? ? (r3 & S3 & H3) F3]; subst. clear F2. inversion F3 as [|? ? ? ? (r4 & S4 & H4) F4]; subst. clear F3 F4 LN.
  assert (NF : forall u, (exists star v tr, has_kw (KFill star v tr) [mkE (T " ") (KU u) false false]) -> False) by (intros u (? & ? & ? & [K|[]]); discriminate K).
  destruct S1 as (card1 & u1 & k1 & _ & _ & [(star & v & tr & m & K & _)|(_ & -> & _)]); [elim (NF (T "3")); now exists star, v, tr|].
  destruct S2 as (card2 & u2 & k2 & CC2 & U2 & [(star & v & tr & m & K & _)|(_ & -> & n2 & dens & nuclides & -> & IM & DQ & MM)]); [elim (NF (T "3")); now exists star, v, tr|].
  destruct U2 as [[U2|[]]|[NU _]]; [|elim (NU (T "3")); now left]. injection U2 as <-.
  destruct S4 as (card4 & u4 & k4 & CC4 & _ & [(star & v & tr & m & [] & _)|(_ & -> & ->)]).
  destruct S3 as (card3 & u3 & k3 & CC3 & U3 & [(star & v & tr & m & [K|[]] & FM & -> & PL)|(NK & _)]); [|elim (NK false (T "3") (Some (T " ", T "7"))); now left].
  injection K as <- <- <-. destruct U3 as [[U3|[]]|[_ ->]]; [discriminate U3|].
  cbn [fill_means] in FM. revert FM. set (w := words _). vm_compute in w. subst w. cbv iota. intros [_ FM].
  assert (E : m = motion7).
  { destruct FM as (a & b & E & _). change (trs_of (map snd data83)) with [(T "7", motion7)] in E. destruct a as [|? a]; [now injection E as <- _|]. injection E as _ E. destruct a; discriminate. }
  subst m. destruct PL as [[_ E]|(p & tr & a & -> & PF & P1 & _)]; [apply (f_equal (fun m => GeomSpec.pz (mo m))) in E; cbn in E; lra|].
  exists N, t, d, srfs, mats, sc, card1, card2, card3, p, card4, mm, (PropSerpentFile.Universe (T "3")), r1, r2, r3, r4, n2, dens, nuclides.
  split; [exact L|]. split; [exact RD|]. split; [exact CC2|]. split; [exact IM|]. split; [exact DQ|]. split.
  { apply MM. exists [], []. split; [reflexivity|intros []]. }
  split; [exact CC3|]. split; [reflexivity|]. split; [exists tr, a; split; [exact PF|exact P1]|]. split; [now exists u4|].
  intros sense SE. cbn [map]. rewrite (H1 _ _ _ means83 sense SE), (H2 _ _ _ means83 sense SE), (H3 _ _ _ means83 sense SE), (H4 _ _ _ means83 sense SE). vm_compute. reflexivity.
Qed.
