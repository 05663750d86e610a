(** C91: converting the MCNP file that was written gives the model of the first file (csg2csg/__main__.py 74-134,
    MCNPInput.py 1303-1412). *)
From Coq Require Import QArith Qabs Reals Lra Lia Permutation.
From Verif Require Import PyStr PyStrFacts PyInt PyIntFacts PyDict FortranNumber RegionSpec RegionFacts LexSpec CellModel CellProofs CellText CellWriters CellWritersProofs
  CellWritersOut SurfModel GeomSpec SurfSpec SurfProofs PropSurf SurfWriters SurfWritersProofs SurfTargets FlattenModel NotsModel BoundaryModel MaterialModel MaterialProofs MaterialWriters PropMaterial
  PropMaterialOut PropMaterialTargets KeywordModel DeckScan FileModel FileProofs PropKeyword PropDeck ProcessModel PropProcess PropRead ConvertModel LayoutProofs
  MainModel PropPlace PropMain PropCards PropProgram PropTexts WrapProofs PropFile.
From Verif Require Import NamesModel MacroModel PropMacro FlattenProofs ProcessSpec ProcessProofs PropVacuum PropProgramMcnp AgainMat PropAgain.
From Verif Require PropProgramPhits.
Open Scope nat_scope.
Open Scope list_scope.

(* ------------------------------------------------------------------ *)
(** * The tori of the deck have a radius *)

Lemma new_torus n s x t : explode_macrobody n s = Some x -> In t (inherit s (x_surfs x)) -> torus_ok t.
Proof.
  assert (K : explode_macrobody n s = Some x -> Forall (fun t => is_torus (s_type t) = false) (x_surfs x)).
  { unfold explode_macrobody. generalize (s_coef s). intros l E. destruct (s_type s); try (injection E as <-; constructor);
      repeat (match type of E with match ?l with _ => _ end = _ => destruct l as [|? ?] end; try discriminate E);
      injection E as <-; cbn [x_surfs]; repeat (constructor; [reflexivity|]); constructor. }
  intros E I. specialize (K E). rewrite Forall_forall in K.
  assert (exists u, In u (x_surfs x) /\ s_type t = s_type u) as (u & IU & TY).
  { unfold inherit in I. destruct (s_tr s); [apply in_map_iff in I as (u & <- & I); exists u; auto|exists t; auto]. }
  unfold torus_ok. rewrite TY, (K u IU). discriminate.
Qed.

Lemma transform_torus cards s t : apply_transform cards s = Some t -> torus_ok s -> torus_ok t.
Proof.
  assert (G : forall s g, SurfModel.generalise s = Some g -> s_type g = GENERAL_QUADRATIC \/ g = s).
  { clear. intros s g. unfold SurfModel.generalise. destruct (s_type s) eqn:TS, (s_coef s) as [|? [|? [|? [|? [|? [|? [|? [|? [|? [|? ?]]]]]]]]]]; try discriminate;
      intro E; injection E as <-; auto. }
  unfold apply_transform. destruct (s_tr s) as [id|]; [|intro E; injection E as <-; auto]. destruct (is_macrobody s); [intro E; injection E as <-; auto|].
  destruct (SurfModel.generalise s) as [g|] eqn:EG; [|discriminate]. intros E OK.
  assert (SG : torus_ok g) by (destruct (G s g EG) as [TY| ->]; [unfold torus_ok; rewrite TY; discriminate|exact OK]).
  destruct (cards id) as [tr|]; [|injection E as <-; exact SG].
  destruct (transform g tr) as [m|] eqn:TR; [|discriminate].
  assert (M : torus_ok m).
  { clear - TR SG. unfold transform in TR. destruct (s_tr g); [|injection TR as <-; auto].
    destruct (s_coef g) as [|? [|? [|? [|? [|? [|? [|? [|? [|? [|? ?]]]]]]]]]]; try discriminate TR.
    destruct (t_shift tr) as [[? ?] ?], (t_v1 tr) as [[? ?] ?], (t_v2 tr) as [[? ?] ?], (t_v3 tr) as [[? ?] ?]. injection TR as <-.
    intro. cbn [set_tc s_coef app]. exact I. }
  revert E. unfold simplify. destruct (s_type m) eqn:TM; try (intro E; injection E as <-; exact M).
  destruct (forallb _ (firstn 5 _)); [|destruct (forallb _ (firstn 7 _))].
  - destruct (s_coef m) as [|? [|? [|? [|? [|? [|? [|? [|? [|? [|? ?]]]]]]]]]]; try discriminate. intro E. injection E as <-. intro. cbn [set_tc s_coef]. exact I.
  - destruct (s_coef m) as [|? [|? [|? [|? [|? [|? [|? [|? [|? [|? ?]]]]]]]]]]; try discriminate. intro E. injection E as <-. intro. cbn [set_tc s_coef]. exact I.
  - intro E. injection E as <-. exact M.
Qed.

Lemma deck_tori str show s cells ss ds rank d N : describes s cells ss ds -> good_cards cells (map snd ss) ds rank -> fine_cards false (trs_of ds) ss ->
  (forall fuel, N <= fuel -> load str show fuel false s = Done d) -> forall x, In x (d_surfs d) -> torus_ok (fst x).
Proof.
  intros (title & noisy & cs & b1 & b2 & dd & H1 & H2 & H3 & H4 & H5 & H6 & H7 & SC & SS & SD & -> & ->) G M L.
  destruct (file_read s title noisy cs b1 ss b2 dd) as (p & R & _ & _ & FS & _ & TG & _); auto.
  destruct (cards_memory false ss _ p SS M FS TG) as [_ [Q|MF]]; [discriminate|].
  apply (load_surfaces str show torus_ok (S N) false s p d).
  - intros n x y t _ E I. now apply (new_torus n x y t).
  - exact transform_torus.
  - intros x H. exact H.
  - apply R.
  - apply Forall_forall. intros y I. now apply MF.
  - apply L. lia.
Qed.

(* ------------------------------------------------------------------ *)
(** * The second file *)

(** The numbers that place the universes are printed so that the reader gets them back. *)
Definition exact_motions (str : R -> text) (cells : list cell_says) (ds : list data_says) : Prop :=
  forall c star v tr m x, In c cells -> has_kw (KFill star v tr) (cs_keys c) -> fill_means (trs_of ds) star tr m ->
    In x (flat_map (fun r => [GeomSpec.px r; GeomSpec.py r; GeomSpec.pz r]) [mo m; r1 m; r2 m; r3 m]) -> to_float (str x) = Some x.

Lemma shown_reads str l vs : (forall x, In x vs -> to_float (str x) = Some x) -> Forall2 (PropMain.shows str) l vs -> reads l vs.
Proof.
  intros H F. unfold reads. induction F as [|w v l vs [E|E] F IH]; constructor; try (apply IH; intros; apply H; now right); [exact E|].
  subst w. apply H. now left.
Qed.

Lemma zero_float : to_float (T "0") = Some 0%R.
Proof. now apply whole_float. Qed.

Lemma fill_entries sep inner ws v1 v2 vals m : words inner = ws -> reads ws (v1 :: v2 :: vals) -> tr_means false (v1 :: v2 :: vals) m -> fill_means [] false (Some (sep, inner)) m.
Proof.
  intros EW R M. unfold fill_means. rewrite EW. clear EW. destruct ws as [|w1 [|w2 l]]; [inversion R|inversion R as [|? ? ? ? ? F]; inversion F|].
  exists (v1 :: v2 :: vals). split; [exact R|exact M].
Qed.

(** What the card that is written says about the universe that fills the cell. *)
Lemma fill_again str g m v tr2 :
  motion_shown str g m -> (forall x, In x (flat_map (fun r => [GeomSpec.px r; GeomSpec.py r; GeomSpec.pz r]) [mo m; r1 m; r2 m; r3 m]) -> to_float (str x) = Some x) ->
  g_fill g = Some v ->
  match tr2 with
  | None => placement (g_offset g) (g_rot g) = []
  | Some (_, inner) => placement (g_offset g) (g_rot g) <> [] /\ words inner = placement (g_offset g) (g_rot g)
  end -> fill_means [] false tr2 m.
Proof.
  intros [M1 M2] EX F H. destruct m as [[x y z] [a1 a2 a3] [b1 b2 b3] [e1 e2 e3]]. cbn [mo r1 r2 r3 GeomSpec.px GeomSpec.py GeomSpec.pz flat_map app] in M1, M2, EX.
  assert (R2 : forall l, g_rot g = Some l -> reads l [a1; a2; a3; b1; b2; b3; e1; e2; e3]).
  { intros l E. rewrite E in M2. apply (shown_reads str); [|exact M2]. intros u I. apply EX. right; right; right; exact I. }
  assert (R1 : forall l, g_offset g = Some l -> reads l [x; y; z]).
  { intros l E. rewrite E in M1. apply (shown_reads str); [|exact M1]. intros u I. apply EX. cbn [In] in I |- *. intuition. }
  unfold placement in H. destruct (g_offset g) as [o|], (g_rot g) as [a|].
  - specialize (R1 o eq_refl). specialize (R2 a eq_refl). assert (RR : reads (o ++ a) ([x; y; z] ++ [a1; a2; a3; b1; b2; b3; e1; e2; e3])) by (unfold reads in *; now apply Forall2_app).
    destruct tr2 as [[sep inner]|]; [destruct H as [_ H]|rewrite H in RR; inversion RR].
    apply (fill_entries sep inner _ _ _ _ _ H RR). exact (tr12 false x y z a1 a2 a3 b1 b2 b3 e1 e2 e3).
  - specialize (R1 o eq_refl). rewrite app_nil_r in H. destruct tr2 as [[sep inner]|]; [destruct H as [_ H]|subst o; inversion R1].
    apply (fill_entries sep inner _ _ _ _ _ H R1). destruct M2 as (-> & -> & ->). apply tr3.
  - specialize (R2 a eq_refl). injection M1 as -> -> ->. destruct tr2 as [[sep inner]|]; [destruct H as [_ H]|discriminate H].
    apply (fill_entries sep inner _ 0%R 0%R ([0%R] ++ [a1; a2; a3; b1; b2; b3; e1; e2; e3]) _ H); [|exact (tr12 false 0 0 0 a1 a2 a3 b1 b2 b3 e1 e2 e3)].
    unfold reads. cbn [app]. repeat (constructor; [exact zero_float|]). exact R2.
  - destruct tr2 as [[sep inner]|]; [destruct H as [H _]; now elim H|]. destruct M2 as (-> & -> & ->). now rewrite M1.
Qed.

Lemma kw_univ show c tr v : In (KU v) (kinds_of show c tr) <-> g_univ c = Some v.
Proof.
  unfold kinds_of. rewrite !in_app_iff. destruct (g_univ c) as [u|], (g_fill c) as [f|]; cbn [In]; split; intro H.
  all: try (intuition congruence). 
  all: try (injection H as <-; tauto).
Qed.
Lemma kw_fill show c tr star v tr' : In (KFill star v tr') (kinds_of show c tr) <-> g_fill c = Some v /\ star = false /\ tr' = tr.
Proof.
  unfold kinds_of. rewrite !in_app_iff. destruct (g_univ c) as [u|], (g_fill c) as [f|]; cbn [In]; split; intro H.
  all: try (intuition congruence).
  all: try (destruct H as (H & -> & ->); injection H as <-; tauto).
Qed.
Lemma kw_imp show c tr v : In (KImp v) (kinds_of show c tr) <-> v = show (g_imp c).
Proof.
  unfold kinds_of. rewrite !in_app_iff. destruct (g_univ c) as [u|], (g_fill c) as [f|]; cbn [In]; split; intro H.
  all: try (intuition congruence).
  all: try (subst v; tauto).
Qed.

Lemma no_trs show l : trs_of (map (fun m => DMat (m_num m) (mat_entries show m)) l) = [].
Proof. induction l as [|m l IH]; [reflexivity|exact IH]. Qed.
Lemma mats_again show l : mats_of (map (fun m => DMat (m_num m) (mat_entries show m)) l) = map (fun m => (m_num m, mat_entries show m)) l.
Proof. induction l as [|m l IH]; [reflexivity|]. cbn [map]. now rewrite <- IH. Qed.
Lemma no_imps show l p vs : ~ In (DImp p vs) (map (fun m => DMat (m_num m) (mat_entries show m)) l).
Proof. intro I. apply in_map_iff in I as (m & E & _). discriminate. Qed.

Lemma canon_mentions l z : In (Str (str_Z z)) l -> CellProofs.mentions l (Z.abs z).
Proof. intro I. exists (str_Z z), z. split; [exact I|]. split; [apply py_int_str_Z|reflexivity]. Qed.

(** An atom of the region of a cell of the deck is the number of a surface. *)
Lemma atom_again g r w : canon (g_items g) -> expr (toks (g_items g)) r -> In w (atoms r) -> exists z, w = str_Z z /\ CellProofs.mentions (g_items g) (Z.abs z).
Proof.
  intros CN EX I. rewrite <- (proj1 expr_atoms _ _ EX) in I. unfold tok_atoms in I. apply in_flat_map in I as (tk & IT & I).
  unfold toks in IT. apply in_flat_map in IT as (i & IG & IT). destruct i as [[| |]|s]; cbn [item_toks In] in IT; try (destruct IT as [<-|[]]; destruct I); [destruct IT|].
  destruct IT as [<-|[]]. unfold str_tok in I. destruct (text_eqb s (T "(")) eqn:E1; [destruct I|]. destruct (text_eqb s (T ")")) eqn:E2; [destruct I|]. destruct I as [<-|[]].
  destruct (CN s IG) as (z & ->); [unfold is_word; now rewrite E1, E2|]. exists z. split; [reflexivity|now apply canon_mentions].
Qed.

Lemma pick_sense {B} (P : surface -> bool -> Prop) (l : list (surface * B)) : NoDup (map (fun s => s_id (fst s)) l) -> (forall s, In s l -> exists b, P (fst s) b) ->
  exists sense : Z -> bool, forall s, In s l -> P (fst s) (sense (s_id (fst s))).
Proof.
  induction l as [|s l IH]; intros ND H; [exists (fun _ => false); intros s []|]. cbn [map] in ND. inversion ND as [|? ? N ND']; subst.
  destruct IH as (f & F); [exact ND'|intros; apply H; now right|]. destruct (H s (or_introl eq_refl)) as (b & HB).
  exists (fun z => if (z =? s_id (fst s))%Z then b else f z). intros x [<-|I]; [now rewrite Z.eqb_refl|].
  destruct (Z.eqb_spec (s_id (fst x)) (s_id (fst s))) as [E|_]; [|now apply F]. elim N. rewrite <- E. apply in_map_iff. now exists x.
Qed.

Section Second.
Context (str : R -> text) (show : Q -> text) (cells : list cell_says) (surfs : list surf_says) (ds : list data_says) (d : ConvertModel.deck).
Context (D : deck_means str show cells surfs ds d) (SD : good_deck str show d) (ED : exact_deck str show cells d) (EM : exact_motions str cells ds) (MN : mcnp_nuclides cells ds).
Context (GF : forall c star v tr, In c cells -> has_kw (KFill star v tr) (cs_keys c) -> exists m, fill_means (trs_of ds) star tr m).
Context (GM : forall n es, last_for n (mats_of ds) es -> good_entries es).
Context (GP : forall c, In c cells -> (0 < cs_id c)%Z).
Context (cells2 : list cell_says) (ss2 : list (card * surf_says)) (l : list material).
Context (FC : Forall2 (cell_said show) (d_cells d) cells2) (FS : Forall2 (fun s => surf_said (fst s)) (d_surfs d) ss2)
  (NL : NoDup (map m_num l)) (LI : forall k m, In (k, m) (d_mats d) <-> In m l /\ k = m_num m).
Let ds2 := map (fun m => DMat (m_num m) (mat_entries show m)) l.

Lemma surf_back s2 : In s2 (map snd ss2) -> exists s sn sn', In s (d_surfs d) /\ ss_id s2 = s_id (fst s) /\ ss_tr s2 = None /\
  surf_sense (fst s) = Some sn /\ ss_shape s2 = Plain sn' /\ same_sense sn' sn.
Proof.
  intro I. apply in_map_iff in I as (x & <- & I). destruct (forall2_pick _ _ _ _ FS I) as (s & IS & E1 & E2 & (sn & sn' & E3 & E4 & E5) & _).
  exists s, sn, sn'. auto 10.
Qed.

Lemma ids_again : map ss_id (map snd ss2) = map (fun s => s_id (fst s)) (d_surfs d).
Proof. clear - FS. induction FS as [|s x a b (E & _) F IH]; [reflexivity|]. cbn [map]. now rewrite E, IH. Qed.

(** A cell of the second file, the cell of the deck and that of the first file. *)
Lemma cell_back k c2 : nth_error cells2 k = Some c2 -> exists c g, nth_error cells k = Some c /\ nth_error (d_cells d) k = Some g /\
  cell_means str show cells surfs ds d k c g /\ cell_said show g c2 /\ exists r, good_gcell show g r.
Proof.
  intro E. assert (L2 := forall2_len _ _ _ FC). destruct (nth_there _ _ k c2 (eq_sym L2) E) as (g & EG).
  destruct (nth_there _ _ k g (dm_count _ _ _ _ _ _ D) EG) as (c & EC). exists c, g. split; [exact EC|]. split; [exact EG|].
  split; [exact (dm_cells _ _ _ _ _ _ D k c g EC EG)|]. split; [exact (forall2_nth _ _ _ FC k g c2 EG E)|].
  destruct SD as (GC & _). rewrite Forall_forall in GC. apply GC. now apply nth_error_In in EG.
Qed.

Lemma mat_back n es2 : last_for n (mats_of ds2) es2 -> exists a, In a l /\ n = m_num a /\ es2 = comp_entries show (m_comp a).
Proof.
  unfold ds2. rewrite mats_again. intros (x & y & E & _). assert (I : In (n, es2) (map (fun m => (m_num m, mat_entries show m)) l)) by (rewrite E, in_app_iff; right; now left).
  apply in_map_iff in I as (a & H & I). injection H as <- <-. now exists a.
Qed.

Lemma mat_made a : In a l -> exists n es, last_for n (mats_of ds) es /\ good_entries es /\ made_of es (m_comp a) /\ forall e, In e (m_comp a) -> printed_well show (snd e).
Proof.
  intro I. assert (IA : In (m_num a, a) (d_mats d)) by (apply LI; now split). destruct (dm_mats _ _ _ _ _ _ D _ _ IA) as (_ & n & es & LE & H).
  exists n, es. split; [exact LE|]. split; [now apply (GM n)|]. split; [apply H; now apply (MN n es)|]. intros e J. destruct ED as (_ & E2 & _). now apply (E2 (m_num a) a).
Qed.

Lemma mat_last a : In a l -> last_for (m_num a) (mats_of ds2) (comp_entries show (m_comp a)).
Proof.
  intro I. unfold ds2. rewrite mats_again. apply in_split in I as (x & y & E). exists (map (fun m => (m_num m, mat_entries show m)) x), (map (fun m => (m_num m, mat_entries show m)) y).
  split; [rewrite E, map_app; reflexivity|]. rewrite map_map. cbn [fst]. rewrite E, map_app in NL. cbn [map] in NL. apply NoDup_remove_2 in NL. intro J. apply NL. rewrite in_app_iff. now right.
Qed.

Lemma fill_back k c g c2 star v tr : nth_error cells k = Some c -> cell_means str show cells surfs ds d k c g -> cell_said show g c2 ->
  has_kw (KFill star v tr) (cs_keys c2) ->
  exists star1 tr1 m, star = false /\ has_kw (KFill star1 v tr1) (cs_keys c) /\ fill_means (trs_of ds) star1 tr1 m /\ fill_means (trs_of ds2) false tr m.
Proof.
  intros EC M (_ & _ & _ & tr2 & KK & PL) H. unfold has_kw in H. rewrite KK in H. apply kw_fill in H as (GFL & -> & ->).
  assert (IC := nth_error_In _ _ EC). destruct (has_fill c) as [(star1 & v1 & tr1 & H)|NF].
  2:{ destruct (cm_nofill _ _ _ _ _ _ _ _ _ M NF) as (X & _). congruence. }
  destruct (GF c star1 v1 tr1 IC H) as (m & FM). destruct (cm_fill _ _ _ _ _ _ _ _ _ M star1 v1 tr1 m H FM) as [FL MS]. assert (v1 = v) by congruence. subst v1.
  exists star1, tr1, m. split; [reflexivity|]. split; [exact H|]. split; [exact FM|]. unfold ds2. rewrite no_trs. apply (fill_again str g m v tr2); auto.
  intros x I. exact (EM c star1 v tr1 m x IC H FM I).
Qed.

Lemma cards_again : good_cards cells2 (map snd ss2) ds2 (fun _ => 0).
Proof.
  split.
  - rewrite ids_again. exact (dm_ids _ _ _ _ _ _ D).
  - intros s I. destruct (surf_back s I) as (x & sn & sn' & IX & -> & _). now apply (dm_surfs _ _ _ _ _ _ D).
  - intros s t f i f' i' u I _ H. destruct (surf_back s I) as (x & sn & sn' & _ & _ & _ & _ & E & _). congruence.
  - intros s id I H. destruct (surf_back s I) as (x & sn & sn' & _ & _ & E & _). congruence.
  - intros c2 I. apply In_nth_error in I as (k & E). destruct (cell_back k c2 E) as (c & g & EC & EG & M & (S1 & _ & S3 & _) & _).
    split; [rewrite S1, (cm_id _ _ _ _ _ _ _ _ _ M); apply GP; now apply nth_error_In in EC|].
    intros w I. destruct (atom_again g _ w (proj2 (cm_laid _ _ _ _ _ _ _ _ _ M)) S3 I) as (z & -> & MZ). left.
    assert (IZ := cm_surfs _ _ _ _ _ _ _ _ _ M _ MZ). rewrite <- ids_again in IZ. apply in_map_iff in IZ as (s & ES & IS).
    assert (P : (0 < ss_id s)%Z) by (destruct (surf_back s IS) as (x & sn & sn' & IX & -> & _); now apply (dm_surfs _ _ _ _ _ _ D)).
    exists s, (z <? 0)%Z. split; [exact IS|]. rewrite ES. destruct (Z.ltb_spec z 0) as [N|N].
    + change (signed_word true (Z.abs z)) with (MacroText.minus (sid (Z.abs z))). rewrite minus_sid by lia. f_equal. lia.
    + change (signed_word false (Z.abs z)) with (str_Z (Z.abs z)). f_equal. lia.
  - intros c2 star v tr I H. apply In_nth_error in I as (k & E). destruct (cell_back k c2 E) as (c & g & EC & EG & M & S & _).
    destruct (fill_back k c g c2 star v tr EC M S H) as (_ & _ & m & -> & _ & _ & FM). now exists m.
  - split.
    + intros p vs v I. elim (no_imps _ _ _ _ I).
    + intros (p & vs & I). elim (no_imps _ _ _ _ I).
  - intros k c q s f i w _ _ _ I H. destruct (surf_back s I) as (x & sn & sn' & _ & _ & _ & _ & E & _). congruence.
  - intros n es2 L. destruct (mat_back n es2 L) as (a & IA & _ & ->). destruct (mat_made a IA) as (n1 & es & _ & G & M & P). now apply (entries_again show es).
  - intros c2 m q I H. apply In_nth_error in I as (k & E). destruct (cell_back k c2 E) as (c & g & EC & EG & M & (_ & S2 & _) & _).
    destruct (Z.eqb_spec (g_mat g) 0) as [Z0|NZ]; [congruence|]. destruct S2 as (q' & S2 & _). rewrite H in S2. injection S2 as -> _.
    destruct (cs_mat c) as [[m1 q1]|] eqn:EM1; [|elim NZ; exact (cm_void _ _ _ _ _ _ _ _ _ M EM1)].
    destruct (cm_mat _ _ _ _ _ _ _ _ _ M m1 q1 EM1) as (_ & _ & a & A1 & A2 & _). apply dget_some_in in A1. apply LI in A1 as [IA EA].
    unfold ds2. rewrite mats_again, map_map. cbn [fst]. rewrite EA. apply in_map_iff. now exists a.
Qed.

Lemma fine_again quick : (quick = true \/ forall x, In x (d_surfs d) -> torus_ok (fst x)) -> fine_cards quick (trs_of ds2) ss2.
Proof.
  intro T. unfold fine_cards. apply Forall_forall. intros x I. destruct (forall2_pick _ _ _ _ FS I) as (s & IS & E1 & E2 & (sn & sn' & E3 & _) & H).
  intros m vals SP. rewrite E2 in *. split; [intros id mo Q; discriminate|]. destruct T as [T|T]; [now left|right]. destruct (H m vals SP) as [NC TC]. split; [exact NC|].
  intro TCm. destruct (TC TCm) as [TY ->]. specialize (T s IS TY). clear - T TY E3. unfold surf_sense in E3.
  destruct (s_type (fst s)); try discriminate TY; destruct (s_coef (fst s)) as [|? [|? [|? [|? [|? [|? [|? ?]]]]]]]; try discriminate E3; exact T.
Qed.

Lemma uncut_again : uncut_cards ss2.
Proof.
  apply Forall_forall. intros x I. destruct (forall2_pick _ _ _ _ FS I) as (s & IS & E1 & E2 & _ & H). intros m vals SP. rewrite E2 in SP. now apply (H m vals).
Qed.

(** The words of the second file at a point of which the first tells on which side it is. *)
Lemma means_again p env incell : means_at cells surfs (trs_of ds) p env incell ->
  exists env2, means_at cells2 (map snd ss2) (trs_of ds2) p env2 incell.
Proof.
  intro MA. assert (OFF := dm_off _ _ _ _ _ _ D p env incell MA). destruct (pick_sense (fun s b => forall sn, surf_sense s = Some sn -> side sn p b) (d_surfs d)) as (sense & SE).
  { exact (dm_ids _ _ _ _ _ _ D). }
  { intros s I. destruct (dm_surfs _ _ _ _ _ _ D s I) as (_ & sn & E). destruct (OFF s sn I E) as (b & B). exists b. intros sn' E'. rewrite E in E'. now injection E' as <-. }
  set (env2 := fun w : text => match w with c :: r => if Ascii.eqb c "#" then negb (incell r) else zenv sense w | [] => zenv sense w end).
  assert (EZ : forall z, env2 (str_Z z) = zenv sense (str_Z z)).
  { intro z. unfold env2. destruct (str_Z z) as [|c r] eqn:E; [reflexivity|]. destruct (Ascii.eqb_spec c "#") as [->|]; [|reflexivity].
    exfalso. assert (I : In "#"%char (str_Z z)) by (rewrite E; now left). apply (int_word_chars _ (int_word_str z)) in I as [I|I]; discriminate. }
  exists env2. split.
  - intros s2 sn2 q I SH PL. destruct (surf_back s2 I) as (s & sn & sn' & IS & E1 & E2 & E3 & E4 & SS). rewrite E2 in PL. inversion PL; subst.
    rewrite SH in E4. injection E4 as ->. assert (P := proj1 (dm_surfs _ _ _ _ _ _ D s IS)). exists (sense (s_id (fst s))). rewrite E1. split; [|split].
    + apply (PropMain.side_same sn); [|now apply (SE s IS)]. intro r. destruct (SS r). split; symmetry; assumption.
    + unfold sid. rewrite EZ. now apply zenv_sid.
    + rewrite minus_sid by exact P. rewrite EZ, <- minus_sid by exact P. now apply zenv_minus.
  - intros s2 f i q I SH. destruct (surf_back s2 I) as (s & sn & sn' & _ & _ & _ & _ & E4 & _). congruence.
  - intros c _. reflexivity.
  - intros c2 I. apply In_nth_error in I as (k & E). destruct (cell_back k c2 E) as (c & g & EC & EG & M & (S1 & _ & S3 & _) & _).
    destruct (cm_region _ _ _ _ _ _ _ _ _ M) as (r & EX & H). assert (cs_region c2 = r) by exact (expr_unique _ _ _ S3 EX). subst r.
    rewrite S1, (cm_id _ _ _ _ _ _ _ _ _ M), <- (H p env incell MA sense).
    + apply holds_ext_atoms. intros w J. destruct (atom_again g _ w (proj2 (cm_laid _ _ _ _ _ _ _ _ _ M)) S3 J) as (z & -> & _). apply EZ.
    + intros s sn IS ES. assert (B := SE s IS sn ES). destruct (sense (s_id (fst s))) eqn:EB; [split; [intros _; exact B|reflexivity]|].
      split; [discriminate|]. intro PS. now apply (side_det (fst s) sn p false true ES B).
Qed.

(** ** The second deck *)
Context (d2 : ConvertModel.deck) (D2 : deck_means str show cells2 (map snd ss2) ds2 d2).

(** A cell of the second deck is the one of the first file. *)
Record cell_again (k : nat) (c : cell_says) (g : gcell) : Prop := {
  ca_id : g_id g = cs_id c;
  ca_imp : exists q, importance ds k c q /\ (g_imp g == q)%Q;
  ca_void : cs_mat c = None -> g_mat g = 0%Z;
  ca_mat : forall m q, cs_mat c = Some (m, q) -> (0 < g_mat g)%Z /\ (exists v, g_dens g = show v /\ (v == q)%Q) /\
    exists a, dget (str_Z (g_mat g)) (d_mats d2) = Some a /\ (m_dens a == q)%Q /\ forall es, last_for (str_Z m) (mats_of ds) es -> made_of es (m_comp a);
  ca_univ : forall v, has_kw (KU v) (cs_keys c) -> g_univ g = Some v;
  ca_nouniv : (forall v, ~ has_kw (KU v) (cs_keys c)) -> g_univ g = None;
  ca_fill : forall star v tr m, has_kw (KFill star v tr) (cs_keys c) -> fill_means (trs_of ds) star tr m -> g_fill g = Some v /\ motion_shown str g m;
  ca_nofill : (forall star v tr, ~ has_kw (KFill star v tr) (cs_keys c)) -> g_fill g = None;
  ca_region : exists r, expr (toks (g_items g)) r /\
    forall p env incell, means_at cells surfs (trs_of ds) p env incell ->
    forall sense, (forall s sn, In s (d_surfs d2) -> surf_sense (fst s) = Some sn -> (sense (s_id (fst s)) = true <-> pos sn p)) ->
    holds (zenv sense) r = incell (str_Z (cs_id c)) }.

Lemma cells_again k c g2 : nth_error cells k = Some c -> nth_error (d_cells d2) k = Some g2 -> cell_again k c g2.
Proof.
  intros EC EG2. destruct (nth_there _ _ k g2 (dm_count _ _ _ _ _ _ D2) EG2) as (c2 & EC2). destruct (cell_back k c2 EC2) as (c' & g & EC' & EG & M & S & rg & GG).
  assert (c' = c) by congruence. subst c'. clear EC'. assert (M2 := dm_cells _ _ _ _ _ _ D2 k c2 g2 EC2 EG2). assert (IC := nth_error_In _ _ EC).
  assert (S' := S). destruct S' as (S1 & S2 & S3 & tr2 & KK & PL). split.
  - rewrite (cm_id _ _ _ _ _ _ _ _ _ M2), S1. exact (cm_id _ _ _ _ _ _ _ _ _ M).
  - exists (g_imp g). split; [exact (cm_imp _ _ _ _ _ _ _ _ _ M)|]. destruct GG as (_ & _ & _ & _ & _ & _ & _ & _ & _ & _ & _ & _ & _ & q & Q1 & Q2).
    destruct (cm_imp _ _ _ _ _ _ _ _ _ M2) as [(vs & v & (a & b & E & _) & _)|(_ & [(v & HK & PF)|(NK & _)])].
    + elim (no_imps show l NEUTRON vs). fold ds2. rewrite E, in_app_iff. right. now left.
    + unfold has_kw in HK. rewrite KK in HK. apply kw_imp in HK. subst v. rewrite Q1 in PF. injection PF as <-. exact Q2.
    + elim (NK (show (g_imp g))). unfold has_kw. rewrite KK. now apply kw_imp.
  - intro V. assert (V1 := cm_void _ _ _ _ _ _ _ _ _ M V). rewrite V1 in S2. exact (cm_void _ _ _ _ _ _ _ _ _ M2 S2).
  - intros m q EMT. destruct (cm_mat _ _ _ _ _ _ _ _ _ M m q EMT) as (E1 & PM & a & A1 & A2 & A3 & A4).
    destruct (Z.eqb_spec (g_mat g) 0) as [Z0|NZ]; [lia|]. destruct S2 as (q' & S2 & S2').
    destruct ED as (_ & _ & E3). destruct (E3 c m q IC EMT) as (v & V1 & V2). rewrite E1, V1 in S2'. injection S2' as <-.
    destruct (cm_mat _ _ _ _ _ _ _ _ _ M2 _ _ S2) as (F1 & PM2 & a2 & B1 & B2 & B3 & B4). split; [exact PM2|]. split; [now exists v|].
    exists a2. split; [exact B1|]. split; [now rewrite B3|]. intros es LE. apply dget_some_in in A1. apply LI in A1 as [IA EA].
    destruct (B4 (comp_entries show (m_comp a))) as [MA2 _]; [rewrite EA; now apply mat_last|].
    destruct (mat_made a IA) as (_ & _ & _ & _ & _ & P). apply (made_again show es (m_comp a)); [now apply (GM (str_Z m))|now apply A4|exact P|exact MA2].
  - intros v H. apply (cm_univ _ _ _ _ _ _ _ _ _ M2). unfold has_kw. rewrite KK. apply kw_univ. exact (cm_univ _ _ _ _ _ _ _ _ _ M v H).
  - intros NU. apply (cm_nouniv _ _ _ _ _ _ _ _ _ M2). intros v H. unfold has_kw in H. rewrite KK in H. apply kw_univ in H.
    rewrite (cm_nouniv _ _ _ _ _ _ _ _ _ M NU) in H. discriminate.
  - intros star v tr m H FM. destruct (cm_fill _ _ _ _ _ _ _ _ _ M star v tr m H FM) as [FL MS].
    apply (cm_fill _ _ _ _ _ _ _ _ _ M2 false v tr2 m).
    + unfold has_kw. rewrite KK. apply kw_fill. auto.
    + unfold ds2. rewrite no_trs. apply (fill_again str g m v tr2); auto. intros x I. exact (EM c star v tr m x IC H FM I).
  - intro NF. apply (cm_nofill _ _ _ _ _ _ _ _ _ M2). intros star v tr H. unfold has_kw in H. rewrite KK in H. apply kw_fill in H as (H & _).
    rewrite (proj1 (cm_nofill _ _ _ _ _ _ _ _ _ M NF)) in H. discriminate.
  - destruct (cm_region _ _ _ _ _ _ _ _ _ M2) as (r & EX & H). exists r. split; [exact EX|]. intros p env incell MA sense SE.
    destruct (means_again p env incell MA) as (env2 & MA2). rewrite (H p env2 incell MA2 sense SE), S1. now rewrite (cm_id _ _ _ _ _ _ _ _ _ M).
Qed.
End Second.

(* ------------------------------------------------------------------ *)
(** * The program, twice *)

(** C91: an MCNP file becomes an MCNP file that meets again every condition of C83 and C84, so that it can be converted to every
    format, and the deck that is made of it is the one the first file describes: as many cells, each with the number, the
    importance, the universe, the universe that fills it and its place, the material (the composition of the first file's
    card: normalising twice is normalising once), the density and the region of the first file's card, at every point of which the cards of the first
    file tell on which side it is.  A torus needs a radius, which the quick mode does not ask of the first file.
    (Missing, because false or not modelled: what C84 leaves out for MCNP; cross-section libraries, see C88; a file without
    material; files that the reader understands without being of the form that is described.) *)
Theorem C91_again_partial str show nuclide_order universe_order quick s cells ss ds rank :
  describes s cells ss ds -> good_cards cells (map snd ss) ds rank -> fine_cards quick (trs_of ds) ss -> uncut_cards ss ->
  printable show cells ss ds -> mcnp_nuclides cells ds -> (forall x, numeral (str x)) -> (forall q, numeral (show q)) ->
  (exists c, In c cells /\ cs_mat c <> None) -> exact_motions str cells ds ->
  exists N0 d, (forall fuel, N0 <= fuel -> load str show fuel quick s = Done d) /\ (exact_deck str show cells d ->
  exists N t cells2 ss2 ds2,
    (forall fuel, N <= fuel -> program str show fuel nuclide_order universe_order quick [MCNP] s = Done ([(MCNP, File t)], Some d)) /\
    describes t cells2 ss2 ds2 /\ good_cards cells2 (map snd ss2) ds2 (fun _ => 0) /\ uncut_cards ss2 /\
    forall quick2, quick2 = true \/ quick = false -> fine_cards quick2 (trs_of ds2) ss2 /\
    exists N2 d2, (forall fuel, N2 <= fuel -> load str show fuel quick2 t = Done d2) /\ length (d_cells d2) = length cells /\
      forall k c g, nth_error cells k = Some c -> nth_error (d_cells d2) k = Some g -> cell_again str show cells (map snd ss) ds d2 k c g).
Proof.
  intros DS G FW UCC PR SN NS NQ WM EM.
  destruct (read_deck str show quick s cells ss ds rank DS G FW) as (N & d & L & D & UC & _). specialize (UC UCC).
  exists N, d. split; [exact L|]. intro EXD.
  assert (POS : forall c, In c cells -> (0 < cs_id c)%Z) by (intros c I; now apply (gc_cells _ _ _ _ G c)).
  destruct (deck_printed str show quick s cells ss ds d N DS PR) as [DP GE]; [|exact (gc_pos _ _ _ _ G)|exact L|].
  { intros c m q IC EC. apply numeral_newline. now apply (pr_dens _ _ _ _ PR c m q). }
  assert (SD := deck_for_mcnp str show cells ss ds d NS NQ D DP UC PR POS GE (gc_fill _ _ _ _ G) SN (gc_mats _ _ _ _ G) EXD).
  assert (NM : d_mats d <> []).
  { destruct WM as (c & IC & NC). apply In_nth_error in IC as (k & EC). destruct (nth_there _ _ k c (eq_sym (dm_count _ _ _ _ _ _ D)) EC) as (g & EG).
    destruct (cs_mat c) as [[m q]|] eqn:ECM; [|tauto]. destruct (cm_mat _ _ _ _ _ _ _ _ _ (dm_cells _ _ _ _ _ _ D k c g EC EG) m q ECM) as (_ & _ & a & A & _).
    intro E. rewrite E in A. discriminate. }
  destruct (C91_file_partial str show d SD) as (K & t & cells2 & ss2 & l & W & DS2 & FC & FS & NL & LI); [|exact NM|].
  { apply Forall_forall. intros x I. now apply (dm_bc _ _ _ _ _ _ D). }
  assert (G2 : good_cards cells2 (map snd ss2) (map (fun m => DMat (m_num m) (mat_entries show m)) l) (fun _ => 0)).
  { apply (cards_again str show cells (map snd ss) ds d); auto; apply G. }
  exists (Nat.max N K), t, cells2, ss2, (map (fun m => DMat (m_num m) (mat_entries show m)) l). split; [|split; [exact DS2|split; [exact G2|split]]].
  - intros fuel HF. unfold program. rewrite L by lia. cbn [run write_code]. rewrite W by lia. reflexivity.
  - now apply (uncut_again d).
  - intros quick2 HQ. assert (F2 : fine_cards quick2 (trs_of (map (fun m => DMat (m_num m) (mat_entries show m)) l)) ss2).
    { apply (fine_again show d ss2 l FS). destruct HQ as [HQ|HQ]; [now left|right]. subst quick. now apply (deck_tori str show s cells ss ds rank d N). }
    split; [exact F2|]. destruct (read_deck str show quick2 t cells2 ss2 _ _ DS2 G2 F2) as (N2 & d2 & L2 & D2 & _). exists N2, d2. split; [exact L2|]. split.
    + rewrite (dm_count _ _ _ _ _ _ D2), <- (forall2_len _ _ _ FC). exact (dm_count _ _ _ _ _ _ D).
    + intros k c g EC EG. apply (cells_again str show cells (map snd ss) ds d) with (cells2 := cells2) (ss2 := ss2) (l := l); auto; apply G.
Qed.
Print Assumptions C91_again_partial.

(* ------------------------------------------------------------------ *)
(** * An example *)

(** The file of C84 for MCNP: a ball in a universe that fills a larger one, moved by 1 along x, and the outside. *)
Lemma exact_motions88 : exact_motions str88 (map snd cells88) (map snd data88).
Proof.
  intros c star v tr m x [<-|[<-|[<-|[]]]]; intros H FM IX; cbn in H; try contradiction; (destruct H as [H|H]; [|contradiction]); try discriminate H.
  injection H as <- <- <-. cbn [fill_means] in FM. revert FM. set (w := words _). vm_compute in w. subst w. cbv iota. intros (vals & RD & TM).
  assert (E : vals = [1; 0; 0]%R).
  { apply (reads_once [T "1"; T "0"; T "0"]); [exact RD|]. repeat (constructor; [now apply whole_float|]). constructor. }
  subst vals. inversion TM; subst. cbn [mo r1 r2 r3 GeomSpec.px GeomSpec.py GeomSpec.pz flat_map app In] in IX.
  assert (O : to_float (str88 1) = Some 1%R).
  { unfold str88. repeat (destruct (Req_EM_T _ _) as [?|?]; [try (exfalso; lra)|try (exfalso; lra)]). 
    unfold to_float. match goal with |- context [py_float ?t] => let v := eval vm_compute in (py_float t) in change (py_float t) with v end. cbn [option_map]. f_equal. unfold Q2R. cbn. lra. }
  assert (Z : to_float (str88 0) = Some 0%R) by (apply str88_exact; now left).
  destruct IX as [<-|[<-|[<-|[<-|[<-|[<-|[<-|[<-|[<-|[<-|[<-|[<-|[]]]]]]]]]]]]]; assumption.
Qed.

(** Converted twice: three cells; the first in universe 3, with uranium alone and the density -18.5; the second is filled with
    universe 3 moved by 1 along x; the third has importance 0; the point (0, 0, 11/2) is in the second only. *)
Example C91_again_example nuclide_order universe_order quick : exists N t d N2 d2 g1 g2 g3 a v r1 r2 r3,
  (forall fuel, N <= fuel -> program str88 show88 fuel nuclide_order universe_order quick [MCNP] file88 = Done ([(MCNP, File t)], Some d)) /\
  (forall fuel, N2 <= fuel -> load str88 show88 fuel quick t = Done d2) /\ d_cells d2 = [g1; g2; g3] /\
  g_univ g1 = Some (T "3") /\ dget (str_Z (g_mat g1)) (d_mats d2) = Some a /\ (m_dens a == -185 # 10)%Q /\ dget (T "92235") (m_comp a) = Some v /\ (v == 1)%Q /\
  g_fill g2 = Some (T "3") /\ motion_shown str88 g2 motion88 /\ (g_imp g3 == 0)%Q /\
  expr (toks (g_items g1)) r1 /\ expr (toks (g_items g2)) r2 /\ expr (toks (g_items g3)) r3 /\
  forall sense, (forall s sn, In s (d_surfs d2) -> surf_sense (fst s) = Some sn -> (sense (s_id (fst s)) = true <-> pos sn (Pt 0 0 (11 / 2)))) ->
    map (holds (zenv sense)) [r1; r2; r3] = [false; true; false].
Proof.
  destruct (C91_again_partial str88 show88 nuclide_order universe_order quick file88 _ surfs86 _ Z.to_nat describes88 good_cards88 (fine_cards88 quick) uncut_cards86 printable88
    nuclides88 str88_numeral show88_numeral) as (N0 & d & L & H).
  { eexists. split; [left; reflexivity|discriminate]. }
  { exact exact_motions88. }
  destruct H as (N & t & cells2 & ss2 & ds2 & PG & _ & _ & _ & H).
  { destruct (read_deck str88 show88 quick file88 _ surfs86 _ Z.to_nat describes88 good_cards88 (fine_cards88 quick)) as (N1 & d1 & L1 & D & _).
    assert (E : d1 = d) by (assert (A := L (max N0 N1)); assert (B := L1 (max N0 N1)); rewrite A in B by lia; specialize (B ltac:(lia)); now injection B). subst d1.
    exact (exact88 d N0 quick L D). }
  destruct (H quick) as (_ & N2 & d2 & L2 & LC & C); [destruct quick; [now left|now right]|]. cbn [map cells88 length] in LC.
  destruct (d_cells d2) as [|g1 [|g2 [|g3 [|g4 l]]]] eqn:EC; try discriminate LC.
  assert (C1 := C 0 _ g1 eq_refl eq_refl). assert (C2 := C 1 _ g2 eq_refl eq_refl). assert (C3 := C 2 _ g3 eq_refl eq_refl).
  destruct (ca_mat _ _ _ _ _ _ _ _ _ C1 1%Z (-185 # 10)%Q eq_refl) as (_ & _ & a & GA & DA & MA).
  assert (LM : last_for (str_Z 1) (mats_of (map snd data88)) [Nuclide (T "92235.70c") (T "2")]) by (exists [], []; split; [reflexivity|intros []]).
  specialize (MA _ LM). assert (MA' := MA). destruct MA' as (ND & k & _ & K1 & _). destruct (K1 (T "92235") 92235%Z) as (v & GV & _).
  { exists (T "92235.70c"), (T "2"). split; [now left|reflexivity]. }
  { vm_compute; reflexivity. }
  { vm_compute; discriminate. }
  destruct (ca_region _ _ _ _ _ _ _ _ _ C1) as (r1 & X1 & H1). destruct (ca_region _ _ _ _ _ _ _ _ _ C2) as (r2 & X2 & H2). destruct (ca_region _ _ _ _ _ _ _ _ _ C3) as (r3 & X3 & H3).
  exists N, t, d, N2, d2, g1, g2, g3, a, v, r1, r2, r3. split; [exact PG|]. split; [exact L2|]. split; [exact EC|].
  split; [apply (ca_univ _ _ _ _ _ _ _ _ _ C1); now left|]. split; [exact GA|]. split; [exact DA|]. split; [exact GV|]. assert (IV := dget_some_in _ _ _ GV). split; [exact (proj2 (made88 _ MA _ IV))|].
  assert (FM : fill_means (trs_of (map snd data88)) false (Some (T " ", T "1 0 0")) motion88).
  { cbn [fill_means]. set (w := words _). vm_compute in w. subst w. cbv iota. exists [1; 0; 0]%R. split; [repeat (constructor; [now apply whole_float|]); constructor|]. apply tr3. }
  destruct (ca_fill _ _ _ _ _ _ _ _ _ C2 false (T "3") (Some (T " ", T "1 0 0")) motion88) as [F1 F2]; [now left|exact FM|].
  split; [exact F1|]. split; [exact F2|]. split.
  { destruct (ca_imp _ _ _ _ _ _ _ _ _ C3) as (q & I3 & Q). rewrite Q. destruct I3 as [(vs & w & L3 & NV & PF)|[L3 _]]; [|specialize (L3 _ imp88); cbn [length] in L3; lia].
    rewrite (last_imp88 vs L3) in NV. injection NV as <-. vm_compute in PF. injection PF as <-. reflexivity. }
  split; [exact X1|]. split; [exact X2|]. split; [exact X3|]. intros sense SE. cbn [map].
  rewrite (H1 _ _ _ means88 sense SE), (H2 _ _ _ means88 sense SE), (H3 _ _ _ means88 sense SE). vm_compute. reflexivity.
Qed.
