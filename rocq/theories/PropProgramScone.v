(** C84: the whole program, from the characters of an MCNP file to the SCONE file (csg2csg/__main__.py 74-134,
    SCONEInput.py 21-102, UniverseCard.py 40-131). *)
From Coq Require Import QArith Reals Lra Lia.
From Coq Require Lqa.
From Verif Require Import PyStr PyStrFacts PyInt PyIntFacts PyDict FortranNumber RegionSpec RegionFacts LexSpec CellModel CellProofs CellText CellWritersProofs
  CellWritersOut SurfModel GeomSpec SurfSpec SurfWritersProofs SurfTargets MacroModel FlattenModel FlattenProofs FlattenDeck NotsModel BoundaryModel DedupeModel NuclideData MaterialModel MaterialProofs PropMaterial
  PropMaterialOut PropMaterialTargets KeywordModel DeckScan FileModel FileProofs PropKeyword PropDeck ProcessModel ProcessSpec PropProcess PropRead ConvertModel LayoutProofs
  UniverseModel PropUniverse MainModel PropPlace PropMain PropCards PropProgram PropTexts PropCellText.
From Verif Require SurfProofs DedupeProofs PropSconeFile PropProgramPhits PropDedupe PropBoundary SurfScone PropVacuum PropProgramMcnp.
Open Scope nat_scope.
Open Scope list_scope.

(** ** The surfaces *)

(** What is asked of the cards: no tori (see C79); cones with a slope that is a square, and with numbers of at most six
    digits behind the point (they are written with that many). *)
Definition scone_cards (ss : list (card * surf_says)) : Prop :=
  six_digits ss /\ Forall (fun x => forall m vals, spells (card_words (fst x)) (ss_tr (snd x)) m vals -> ~ torus_card m /\
    (In m ["k/x"; "k/y"; "k/z"]%string -> 0 <= nth 3 vals 0)%R /\ (In m ["kx"; "ky"; "kz"]%string -> 0 <= nth 1 vals 0)%R) ss.

Definition cone_ready (s : surface) : Prop := fixed_point (s_type s) = true -> length (s_coef s) <= 6 /\ is_torus (s_type s) = false /\
  match s_coef s with x :: y :: z :: t2 :: _ => (0 <= t2)%R /\ fine6 x /\ fine6 y /\ fine6 z | _ => False end.
Lemma ready_new n s x t : explode_macrobody n s = Some x -> In t (inherit s (x_surfs x)) -> cone_ready t.
Proof.
  assert (K : explode_macrobody n s = Some x -> Forall (fun t => fixed_point (s_type t) = false) (x_surfs x)).
  { unfold explode_macrobody. generalize (s_coef s). intros l E. destruct (s_type s); try (injection E as <-; constructor);
      repeat (match type of E with match ?l with _ => _ end = _ => destruct l as [|? ?] end; try discriminate E);
      injection E as <-; cbn [x_surfs]; repeat (constructor; [reflexivity|]); constructor. }
  intros E I. specialize (K E). rewrite Forall_forall in K. unfold cone_ready, inherit in *. destruct (s_tr s); [apply in_map_iff in I as (u & <- & I); cbn [s_type]|]; now rewrite (K _ I).
Qed.
Lemma ready_moved cards s t : apply_transform cards s = Some t -> cone_ready s -> cone_ready t.
Proof.
  intros E F. unfold apply_transform in E. destruct (s_tr s) as [id|]; [|now injection E as <-]. destruct (is_macrobody s); [now injection E as <-|].
  assert (G : forall g, SurfModel.generalise s = Some g -> cone_ready g).
  { clear - F. intros g. unfold SurfModel.generalise. destruct (s_type s) eqn:TS, (s_coef s) as [|? [|? [|? [|? [|? [|? [|? [|? [|? [|? ?]]]]]]]]]] eqn:CS; try discriminate;
      intro E; injection E as <-; first [exact F|unfold cone_ready; cbn; discriminate]. }
  destruct (SurfModel.generalise s) as [g|]; [|discriminate]. specialize (G g eq_refl).
  destruct (cards id) as [tr|]; [|now injection E as <-]. destruct (transform g tr) as [m|] eqn:TR; [|discriminate].
  assert (M : cone_ready m).
  { clear - TR G. unfold transform in TR. destruct (s_tr g); [|now injection TR as <-].
    destruct (s_coef g) as [|? [|? [|? [|? [|? [|? [|? [|? [|? [|? ?]]]]]]]]]] eqn:CG; try discriminate TR.
    destruct (t_shift tr) as [[? ?] ?], (t_v1 tr) as [[? ?] ?], (t_v2 tr) as [[? ?] ?], (t_v3 tr) as [[? ?] ?]. injection TR as <-.
    intro H. exfalso. cbn [set_tc s_type] in H. destruct (G H) as [L _]. rewrite CG in L. cbn [length] in L. lia. }
  clear - M E. unfold simplify in E. destruct (s_type m) eqn:TM; try (now injection E as <-).
  destruct (forallb _ (firstn 5 _)); [|destruct (forallb _ (firstn 7 _)); [|now injection E as <-]].
  - destruct (s_coef m) as [|? [|? [|? [|? [|? [|? [|? [|? [|? [|? ?]]]]]]]]]]; try discriminate. injection E as <-. intro H. discriminate.
  - destruct (s_coef m) as [|? [|? [|? [|? [|? [|? [|? [|? [|? [|? ?]]]]]]]]]]; try discriminate. injection E as <-. intro H. discriminate.
Qed.
Lemma cards_ready ss fs : says_surfs ss -> scone_cards ss ->
  Forall2 (fun x y => surf_got (snd x) y /\ read_surface (PropDeck.card_text (fst x)) = Some y) ss fs -> Forall cone_ready fs.
Proof.
  intros SS [SD SC] FS. unfold says_surfs in SS. unfold six_digits in SD. rewrite Forall_forall in SS, SD, SC. apply Forall_forall. intros y I.
  destruct (forall2_pick _ _ _ _ FS I) as (x & IX & SG & RS). destruct (SS x IX) as [GC SY].
  destruct (got_stored x y GC SY SG RS) as (m & vals & SP & [H|ST]).
  - unfold is_macrobody, cone_ready in *. destruct (s_type y); discriminate.
  - intro FP. assert (Z0 : fine6 0) by (exists 0%Z; lra). destruct (SC x IX m vals SP) as (NT & K1 & K2).
    assert (V : In m ["k/x"; "k/y"; "k/z"; "kx"; "ky"; "kz"; "tx"; "ty"; "tz"]%string -> Forall fine6 vals) by (now apply (SD x IX)).
    revert V FP NT K1 K2. clear - Z0 ST. destruct ST; intros V FP NT K1 K2; try discriminate FP; try (elim NT; unfold torus_card; tauto);
      (match type of V with In ?n _ -> _ => assert (V' : Forall fine6 _) by (apply V; cbn [In]; tauto) end);
      (first [assert (P : (0 <= nth 3 _ 0)%R) by (apply K1; cbn [In]; tauto)|assert (P : (0 <= nth 1 _ 0)%R) by (apply K2; cbn [In]; tauto)]); cbn [nth] in P;
      repeat (match goal with H : Forall _ (_ :: _) |- _ => inversion H; subst; clear H end); (split; [cbn [length]; lia|]); (split; [reflexivity|]); (split; [exact P|]); now repeat split.
Qed.
Lemma deck_ready str show quick s cells ss ds d N : describes s cells ss ds -> scone_cards ss ->
  (forall fuel, N <= fuel -> load str show fuel quick s = Done d) -> forall x sn, In x (d_surfs d) -> surf_sense (fst x) = Some sn -> PropSconeFile.scone_surface (fst x) sn.
Proof.
  intros (title & noisy & cs & b1 & b2 & dd & H1 & H2 & H3 & H4 & H5 & H6 & H7 & SC & SS & SD & -> & ->) S6 L x sn I E.
  destruct (file_read s title noisy cs b1 ss b2 dd) as (p & R & _ & FC & FS & _); auto.
  assert (P : cone_ready (fst x)).
  { revert x I E. intros x I _. revert x I. apply (load_surfaces str show cone_ready (S N) quick s p d); [intros n x y t _; apply ready_new|apply ready_moved|intros y H; exact H|apply R|now apply (cards_ready ss)|apply L; lia]. }
  split; [exact E|]. unfold cone_ready in P. revert P. clear. destruct (s_type (fst x)); cbn [fixed_point is_torus SurfScone.is_cone]; intro P;
    try (split; [reflexivity|]; intro H; discriminate H); (destruct (P eq_refl) as (_ & P1 & P2)); try discriminate P1; (split; [reflexivity|]); intros _; exact P2.
Qed.

(** ** The materials *)

(** What is asked of the material cards: as for PHITS, without conditions on the libraries (SCONE is given .03 for all of
    them), and atom fractions (see [C56_scone_mass_refuted]). *)
Definition scone_nuclides (cells : list cell_says) (ds : list data_says) : Prop :=
  forall n es, last_for n (mats_of ds) es -> (exists c, In c cells /\ cs_mat c <> None) /\ (forall z, lists z es -> zaid z) /\
    forall w f, In (Nuclide w f) es -> (0 < fraction (Nuclide w f))%Q.

(** The atom densities [c] of a composition of density [q]: an atom density is shared out; a mass density gives as many
    atoms as the mean mass number says, Avogadro's number being 0.602214 in the units of SCONE. *)
Definition atom_densities (q : Q) (comp c : dict Q) : Prop :=
  exists k, Forall2 (fun e x => fst x = fst e /\ (snd x == k * snd e)%Q) comp c /\ ((0 < q -> k == q)%Q /\
    ((q < 0)%Q -> (0 < k)%Q /\ exists l, Forall2 (fun e p => py_int (fst e) = Some (fst p) /\ snd e = snd p) comp l /\
      (total (map snd c) == - q * (602214 # 1000000) / mean_mass l)%Q)).

Lemma isotope_positive z i a : In (i, a) (isotopes z) -> (0 < a)%Q /\ (0 < i mod 1000)%Z.
Proof.
  assert (TB : forallb (fun e : Z * (Q * Q) => negb (Qle_bool (fst (snd e)) 0) && (0 <? fst e / 10000 mod 1000)%Z) nuclide_table = true) by (vm_compute; reflexivity).
  unfold isotopes. rewrite in_map_iff. intros (e & E & I). injection E as <- <-. apply filter_In in I as [I _]. rewrite forallb_forall in TB.
  specialize (TB e I). apply andb_prop in TB as [H1 H2]. split; [|now apply Z.ltb_lt].
  apply Qnot_le_lt. intro L. apply Qle_bool_iff in L. rewrite L in H1. discriminate.
Qed.
Lemma listed_positive z es : (forall w f, In (Nuclide w f) es -> (0 < fraction (Nuclide w f))%Q) -> (0 <= total (map (listed z) es))%Q /\ (lists z es -> 0 < total (map (listed z) es))%Q.
Proof.
  induction es as [|e es IH]; intro P; cbn [map total].
  - split; [discriminate|]. intros (w & f & [] & _).
  - destruct IH as [IH1 IH2]; [intros w f I; apply P; now right|].
    assert (H : (0 <= listed z e)%Q /\ ((exists w f, e = Nuclide w f /\ before_dot w = z) -> 0 < listed z e)%Q).
    { destruct e as [w|w f]; cbn [listed].
      - split; [discriminate|]. intros (w' & f & Q & _). discriminate.
      - assert (PF := P w f (or_introl eq_refl)). cbn [fraction] in PF. destruct (text_eqb_spec (before_dot w) z) as [E|NE].
        + split; [apply Qlt_le_weak; exact PF|intros _; exact PF].
        + split; [discriminate|]. intros (w' & f' & Q & B). injection Q as <- <-. contradiction. }
    destruct H as [H1 H2]. split; [|intros (w & f & [Q|I] & B)].
    + Lqa.lra.
    + assert (H3 : (0 < listed z e)%Q) by (apply H2; now exists w, f). Lqa.lra.
    + assert (H3 : (0 < total (map (listed z) es))%Q) by (apply IH2; now exists w, f). Lqa.lra.
Qed.
Lemma made_positive es c : made_of es c -> good_entries es -> (forall w f, In (Nuclide w f) es -> (0 < fraction (Nuclide w f))%Q) ->
  forall t q, In (t, q) c -> exists n, py_int t = Some n /\ (0 < n mod 1000)%Z /\ (0 < q)%Q.
Proof.
  intros (ND & k & (PK & _) & H1 & H2 & H3) G P t q I. assert (IT : In t (keys c)) by (unfold keys; apply in_map_iff; now exists (t, q)).
  destruct (H3 t IT) as [(L & n & EN & M)|(z & y & i & a & L & EZ & II & E)].
  - exists n. split; [exact EN|]. split; [pose proof (Z.mod_pos_bound n 1000); lia|]. destruct (H1 t n L EN M) as (v & D & V). rewrite (in_dget t q c ND I) in D. injection D as <-.
    rewrite V. apply Qmult_lt_0_compat; [exact PK|]. now apply listed_positive.
  - subst t. destruct (isotope_positive y i a II) as [PA PI]. exists i. split; [apply py_int_str_Z|]. split; [exact PI|].
    destruct (H2 z y i a L EZ II) as (v & D & V). rewrite (in_dget _ q c ND I) in D. injection D as <-. rewrite V.
    apply Qmult_lt_0_compat; [apply Qmult_lt_0_compat; [exact PK|now apply listed_positive]|]. unfold Qdiv. apply Qmult_lt_0_compat; [exact PA|reflexivity].
Qed.

Lemma made_densities es comp q : made_of es comp -> good_entries es -> (forall w f, In (Nuclide w f) es -> (0 < fraction (Nuclide w f))%Q) ->
  exists c, scone_densities q comp = Some c /\ atom_densities q comp c.
Proof.
  intros M G P. assert (PO := made_positive es comp M G P). assert (NE := PropProgramPhits.made_some es comp G M).
  destruct (choices (fun (e : text * Q) (p : Z * Q) => py_int (fst e) = Some (fst p) /\ snd e = snd p) comp) as (l & F).
  { intros [t v] I. destruct (PO t v I) as (n & E & _). now exists (n, v). }
  assert (PL : Forall (fun p => 0 < snd p /\ 0 < inject_Z (fst p mod 1000))%Q l).
  { clear - F PO. induction F as [|[t v] [n v'] a b [E1 E2] F IH]; cbn [fst snd] in *; constructor.
    - subst v'. destruct (PO t v (or_introl eq_refl)) as (m & E & P1 & P2). rewrite E in E1. injection E1 as <-. cbn [fst snd]. split; [exact P2|]. unfold Qlt. cbn. lia.
    - apply IH. intros t' q I. apply PO. now right. }
  assert (NL : l <> []) by (intros ->; inversion F; subst; now apply NE).
  destruct (Qlt_le_dec 0 q) as [PQ|NQ].
  { destruct (C56_scone_atom_density_partial q comp PQ) as (c & E & F2 & _). exists c. split; [exact E|]. exists q. split; [exact F2|]. split; [intros _; reflexivity|].
    intro L. exfalso. apply (Qlt_irrefl 0). now apply Qlt_trans with q. }
  destruct (Qlt_le_dec q 0) as [LQ|GQ].
  { destruct (C56_scone_atoms_partial q comp l LQ F PL NL) as (c & k & E & F2 & K & TT). exists c. split; [exact E|]. exists k. split; [exact F2|]. split.
    - intro L. exfalso. apply (Qlt_irrefl 0). now apply Qlt_trans with q.
    - intros _. split; [exact K|]. exists l. now split. }
  (* density zero: nothing of it *)
  assert (Z0 : (q == 0)%Q) by now apply Qle_antisym. unfold scone_densities. assert (B : Qle_bool q 0 = true) by now apply Qle_bool_iff. rewrite B. cbn [negb].
  assert (ZS : zaids comp = Some (map fst l)).
  { clear -F. induction F as [|[k f] [z g] c l [E _] F2 IH]; [reflexivity|]. cbn [zaids fst map] in *. now rewrite E, IH. }
  rewrite ZS. cbv zeta. set (m := sum_q _).
  assert (PM : (0 < m)%Q).
  { unfold m. rewrite sum_q_total. clear - F PL NL. assert (G : forall c l, Forall2 (fun (e : text * Q) (p : Z * Q) => py_int (fst e) = Some (fst p) /\ snd e = snd p) c l ->
      Forall (fun p => 0 < snd p /\ 0 < inject_Z (fst p mod 1000))%Q l -> (0 <= total (map (fun p : text * Q * Z => snd (fst p) * inject_Z (snd p mod 1000)) (combine c (map fst l))))%Q /\
      (l <> [] -> 0 < total (map (fun p : text * Q * Z => snd (fst p) * inject_Z (snd p mod 1000)) (combine c (map fst l))))%Q).
    { clear. induction 1 as [|[t v] [n v'] c l [_ E] F IH]; intro PL; [split; [discriminate|tauto]|]. cbn [snd] in E. subst v'. inversion PL as [|? ? [P1 P2] PL']; subst. cbn [fst snd] in *.
      destruct (IH PL') as [IH1 _]. cbn [map combine total fst snd]. assert (H : (0 < v * inject_Z (n mod 1000))%Q) by now apply Qmult_lt_0_compat.
      assert (S : (0 < v * inject_Z (n mod 1000) + total (map (fun p : text * Q * Z => snd (fst p) * inject_Z (snd p mod 1000)) (combine c (map fst l))))%Q) by Lqa.lra.
      split; [now apply Qlt_le_weak|intros _; exact S]. }
    now apply G. }
  destruct (Qeq_bool m 0) eqn:EM; [apply Qeq_bool_iff in EM; rewrite EM in PM; elim (Qlt_irrefl _ PM)|].
  eexists. split; [reflexivity|]. exists (- q * (602214 # 1000000) / m)%Q. split.
  - clearbody m. clear. induction comp as [|e c IH]; cbn [map]; [constructor|]. constructor; [|exact IH]. cbn [fst snd]. split; [reflexivity|]. ring.
  - split; intro L; exfalso; rewrite Z0 in L; now apply (Qlt_irrefl 0).
Qed.

(** ** The universe cards *)

Lemma other_border uni cells : uni <> 0%Z -> forall u v, build_loop uni u cells = Some v -> u_border v = u_border u.
Proof.
  intro NZ. induction cells as [|c cells IH]; intros u v H; [now injection H as <-|]. cbn [build_loop] in H. destruct (build_step uni u c) as [w|] eqn:S; [|discriminate].
  rewrite (IH w v H). unfold build_step in S. destruct (uc_number c) as [n|]; [|discriminate]. destruct (n =? uni)%Z.
  - destruct (halfspaces (uc_text c)) as [hs|]; [|discriminate]. cbv zeta in S.
    assert (Z : (uni =? 0)%Z = false) by now apply Z.eqb_neq. rewrite Z in S. cbn [andb] in S.
    destruct (fill_equals (uc_fill c) uni); injection S as <-; cbn [u_border]; destruct hs as [|? [|? ?]]; reflexivity.
  - destruct (fill_equals (uc_fill c) uni); injection S as <-; reflexivity.
Qed.

(** The cards of a deck with cells in universe 0. *)
Lemma created ids cells us : universe_ids ids cells -> Forall read_cell cells -> (exists c, In c cells /\ uc_number c = Some 0%Z) -> create_universes ids cells [] = Some us ->
  let new := (max_id ids + 1)%Z in let card n := mkU n (members n cells) None None None false 0 in
  exists a b bd, us = map card a ++ mkU 0 [] (Some new) None None true bd :: map card b ++ [mkU new (members 0 cells) None None None false 0] /\
    ids = a ++ 0%Z :: b /\ ~ In new ids.
Proof.
  intros (ND & NS & IDS) F (c0 & I0 & U0) C new card. destruct (build_all_ok cells F NS ids) as (l & B & P).
  assert (I0S : In 0%Z ids) by (apply IDS; eauto).
  assert (M0 : members 0 cells <> []).
  { unfold members. assert (J : In c0 (filter (member 0) cells)) by (apply filter_In; split; [exact I0|]; unfold member; rewrite U0; apply Z.eqb_refl).
    intro E. apply map_eq_nil in E. rewrite E in J. destruct J. }
  assert (PB : Forall2 (fun v n => plain_card cells v n /\ (n <> 0%Z -> u_border v = 0%Z)) l ids).
  { clear - B P. revert l B P. induction ids as [|i ids IH]; intros l B P; cbn [build_all] in B; [injection B as <-; constructor|].
    destruct (build_universe cells i) as [v|] eqn:BV; [|discriminate]. destruct (build_all cells ids) as [l'|]; [|discriminate]. injection B as <-.
    inversion P; subst. constructor; [|now apply IH]. split; [assumption|]. intro NZ. unfold build_universe in BV. now apply other_border in BV. }
  assert (CD : forall l ids, Forall2 (fun v n => plain_card cells v n /\ (n <> 0%Z -> u_border v = 0%Z)) l ids -> ~ In 0%Z ids -> l = map card ids).
  { clear. induction 1 as [|v n l ids [(P1 & P2 & P3 & P4 & P5 & P6) PB] F IH]; intro N; [reflexivity|]. cbn [map]. rewrite <- IH by (intro I; apply N; now right). f_equal.
    assert (NZ : n <> 0%Z) by (intro E; apply N; now left). assert (Z : (n =? 0)%Z = false) by now apply Z.eqb_neq. rewrite Z in P6. specialize (PB NZ).
    destruct v as [v1 v2 v3 v4 v5 v6 v7]. cbn [u_id u_cells u_fill u_offset u_rot u_root u_border] in *. unfold card. congruence. }
  apply in_split in I0S as (a & b & EI). assert (NN : ~ In 0%Z (a ++ b)) by (rewrite EI in ND; now apply NoDup_remove_2).
  rewrite EI in PB. apply Forall2_app_inv_r in PB as (l1 & l2' & F1 & F2 & EL). inversion F2 as [|u ? l2 ? [PU _] F3]; subst l2'. subst.
  apply CD in F1; [|intro I; apply NN; apply in_or_app; now left]. apply CD in F3; [|intro I; apply NN; apply in_or_app; now right]. subst l1 l2.
  exists a, b, (u_border u). split; [|split; [reflexivity|apply max_id_new]].
  unfold create_universes in C. rewrite B in C. fold new in C.
  assert (SP : forall ns rest, split_roots new (map card ns ++ rest) = (map card ns ++ fst (split_roots new rest), snd (split_roots new rest))).
  { induction ns as [|n ns IH]; intro rest; cbn [map app]; [now destruct (split_roots new rest)|]. cbn [split_roots]. rewrite IH. reflexivity. }
  assert (SN : split_roots new (map card b) = (map card b, [])) by (rewrite <- (app_nil_r (map card b)), SP; cbn [split_roots fst snd]; now rewrite app_nil_r).
  cbn [app] in C. rewrite SP in C. cbn [split_roots] in C. rewrite SN in C. destruct PU as (P1 & P2 & P3 & P4 & P5 & P6). rewrite P2, P6, P1, P3, P4, P5 in C. cbn [Z.eqb andb negb] in C.
  destruct (members 0 cells) as [|m ms]; [tauto|]. cbn [negb fst snd] in C. injection C as <-. rewrite <- app_assoc. reflexivity.
Qed.

(** ** Universes and the border *)

(** The universe of a cell: the number after U, else 0. *)
Fixpoint u_word (ks : list kwd) : option text := match ks with [] => None | KU v :: _ => Some v | _ :: r => u_word r end.
Definition number_of (c : cell_says) : option Z := match u_word (map e_kw (cs_keys c)) with Some v => py_int v | None => Some 0%Z end.
Lemma u_word_some ks v : u_word ks = Some v -> In (KU v) ks.
Proof. induction ks as [|k ks IH]; [discriminate|]. destruct k; cbn [u_word]; intro E; [injection E as ->; now left|right; auto..]. Qed.
Lemma u_word_none ks : u_word ks = None -> forall v, ~ In (KU v) ks.
Proof. induction ks as [|k ks IH]; intros E v I; [destruct I|]. destruct k; cbn [u_word] in E; try discriminate; (destruct I as [I|I]; [discriminate|now apply (IH E v)]). Qed.
Lemma number_spec c n : once c -> (number_of c = Some n <-> in_universe c n).
Proof.
  intro O. unfold number_of. destruct (u_word (map e_kw (cs_keys c))) as [v|] eqn:E.
  - apply u_word_some in E. split; [intro P; left; now exists v|]. intros [(v' & H & P)|[N _]]; [|now elim (N v)].
    apply in_map_iff in E as (e1 & E1 & I1). apply in_map_iff in H as (e2 & E2 & I2).
    assert (EQ : e1 = e2) by (apply (kinds_once (cs_keys c)); auto; unfold kind; now rewrite E1, E2). subst e2. rewrite E1 in E2. injection E2 as ->. exact P.
  - assert (N := u_word_none _ E). split; [intro Q; injection Q as <-; right; split; [exact N|reflexivity]|]. intros [(v & H & _)|[_ ->]]; [now elim (N v)|reflexivity].
Qed.

Lemma numeric_dot t : numeric t = true -> ~ In "."%char t.
Proof.
  unfold numeric. induction t as [|a t IH]; [discriminate|]. cbn [lstrip_minus]. destruct (Ascii.eqb_spec a "-") as [->|].
  - intros H [I|I]; [discriminate|now apply IH].
  - intros H I. rewrite forallb_forall in H. specialize (H _ I). discriminate.
Qed.

(** Universe numbers of at most 37 digits. *)
Definition small_universes (cells : list cell_says) : Prop :=
  forall c, In c cells -> (forall u, in_universe c u -> (Z.abs u < 10 ^ 37)%Z) /\
    (forall star v tr f, has_kw (KFill star v tr) (cs_keys c) -> py_int v = Some f -> (Z.abs f < 10 ^ 37)%Z).

(** One surface, not a macrobody, is the border: a cell of universe 0 is all that lies on its positive side.  Every other
    cell of universe 0 lies on the negative side of such a surface, or names two of them with their positive sides, or names
    no positive side and no macrobody. *)
Definition plain_number (surfs : list surf_says) (n : Z) : Prop := exists y sn, In y surfs /\ ss_id y = n /\ ss_shape y = Plain sn.
Definition outer (cells : list cell_says) (surfs : list surf_says) (n : Z) : Prop :=
  plain_number surfs n /\ (exists c, In c cells /\ in_universe c 0 /\ cs_region c = RAtom (str_Z n)) /\
  forall c, In c cells -> in_universe c 0 -> cs_region c = RAtom (str_Z n) \/
    (exists j, plain_number surfs j /\ In (T "-" ++ str_Z j) (atoms (cs_region c))) \/
    (exists i j, i <> j /\ plain_number surfs i /\ plain_number surfs j /\ In (str_Z i) (atoms (cs_region c)) /\ In (str_Z j) (atoms (cs_region c))) \/
    ((forall y f i w, In y surfs -> ss_shape y = Body f i -> In w (atoms (cs_region c)) -> ~ names (ss_id y) w) /\
     forall y, In y surfs -> ~ In (str_Z (ss_id y)) (atoms (cs_region c))).

Section Texts.
Context (cells : list cell_says) (surfs : list surf_says) (rank : Z -> nat) (c : cell_says) (g : gcell).
Context (ND : NoDup (map ss_id surfs)) (POS : forall s, In s surfs -> (0 < ss_id s)%Z).
Context (AL : forall w, In w (atoms (cs_region c)) -> atom_allowed cells surfs rank c w).
Context (P1 : forall w r, In w (g_text g) -> w <> "-"%char :: "-"%char :: r).
Context (P2 : forall sg y sn, In (signed_word sg (ss_id y)) (atoms (cs_region c)) -> In y surfs -> ss_shape y = Plain sn -> In (signed_word sg (ss_id y)) (g_text g)).
Context (P3 : (forall w y f i, In w (atoms (cs_region c)) -> In y surfs -> ss_shape y = Body f i -> ~ names (ss_id y) w) -> tok_atoms (map word_tok (g_text g)) = atoms (cs_region c)).

Lemma outer_text n : plain_number surfs n -> cs_region c = RAtom (str_Z n) -> halfspaces (g_text g) = Some [n].
Proof.
  intros (z & sn & IZ & EZ & SZ) R. assert (PN : (0 < n)%Z) by (rewrite <- EZ; now apply POS).
  rewrite halfspaces_atoms, P3.
  - rewrite R. cbn [atoms halfspaces]. destruct (signed_numeric false n) as [E1 E2]; [lia|]. change (signed_word false n) with (str_Z n) in E1, E2. now rewrite E1, E2.
  - intros w y f i I IY SY. rewrite R in I. cbn [atoms In] in I. destruct I as [<-|[]]. change (str_Z n) with (signed_word false n).
    apply names_signed; [pose proof (POS y IY); lia|lia|]. intro E. assert (y = z) by (apply (PropDedupe.nodup_map_inj ss_id surfs); auto; congruence). congruence.
Qed.
Lemma other_text n s : (cs_region c = RAtom (str_Z n) \/
    (exists j, plain_number surfs j /\ In (T "-" ++ str_Z j) (atoms (cs_region c))) \/
    (exists i j, i <> j /\ plain_number surfs i /\ plain_number surfs j /\ In (str_Z i) (atoms (cs_region c)) /\ In (str_Z j) (atoms (cs_region c))) \/
    ((forall y f i w, In y surfs -> ss_shape y = Body f i -> In w (atoms (cs_region c)) -> ~ names (ss_id y) w) /\
     forall y, In y surfs -> ~ In (str_Z (ss_id y)) (atoms (cs_region c)))) ->
  plain_number surfs n -> halfspaces (g_text g) = Some [s] -> (0 < s)%Z -> s = n.
Proof.
  intros [R|[(j & (y & sn & IY & EY & SY) & IJ)|[(i & j & NE & (y & sn & IY & EY & SY) & (z & sn' & IZ & EZ & SZ) & II & IJ)|(NB & NP)]]] PN HS PS.
  - rewrite (outer_text n PN R) in HS. now injection HS.
  - exfalso. subst j. assert (PY := POS y IY). assert (A := halfspaces_in _ _ true (ss_id y) HS ltac:(lia) (P2 true y sn IJ IY SY)). cbn [In] in A. lia.
  - exfalso. subst i j. assert (PY := POS y IY). assert (PZ := POS z IZ).
    assert (A := halfspaces_in _ _ false (ss_id y) HS ltac:(lia) (P2 false y sn II IY SY)). assert (B := halfspaces_in _ _ false (ss_id z) HS ltac:(lia) (P2 false z sn' IJ IZ SZ)).
    cbn [In] in A, B. lia.
  - exfalso. rewrite halfspaces_atoms, P3 in HS by (intros w y f i I IY SY; now apply (NB y f i w)).
    assert (H : forall l hs, halfspaces l = Some hs -> forall h, In h hs -> exists t, In t l /\ numeric t = true /\ py_int t = Some h).
    { clear. induction l as [|t l IH]; intros hs E h I; cbn [halfspaces] in E; [injection E as <-; destruct I|]. destruct (numeric t) eqn:N.
      - destruct (py_int t) as [z|] eqn:P; [|discriminate]. destruct (halfspaces l) as [hs'|]; [|discriminate]. injection E as <-. destruct I as [<-|I]; [exists t; repeat split; auto; now left|].
        destruct (IH hs' eq_refl h I) as (t' & I' & H). exists t'. split; [now right|exact H].
      - destruct (IH hs E h I) as (t' & I' & H). exists t'. split; [now right|exact H]. }
    destruct (H _ _ HS s (or_introl eq_refl)) as (t & IT & NT & PT).
    destruct (AL t IT) as [(y & sg & IY & ->)|[(y & fs & ins & sg & k & IY & SY & _ & _ & ->)|(e & _ & -> & _)]].
    + destruct sg; [|now apply (NP y IY)]. destruct (signed_numeric true (ss_id y)) as [_ E]; [pose proof (POS y IY); lia|]. rewrite E in PT. injection PT as <-. pose proof (POS y IY). lia.
    + apply (numeric_dot _ NT). unfold facet_word. apply in_or_app. right. apply in_or_app. right. now left.
    + discriminate NT.
Qed.
End Texts.

(** ** The deck *)

Lemma max_in l m : fold_left Z.max l m = m \/ In (fold_left Z.max l m) l.
Proof.
  revert m. induction l as [|x l IH]; intro m; cbn [fold_left]; [now left|]. destruct (IH (Z.max m x)) as [E|I]; [|right; now right].
  rewrite E. destruct (Z.max_spec m x) as [[_ ->]|[_ ->]]; [right; now left|now left].
Qed.
Lemma max_bound ids b : (0 < b)%Z -> (forall n, In n ids -> (Z.abs n < b)%Z) -> (Z.abs (max_id ids) < b)%Z.
Proof.
  intros PB H. unfold max_id. destruct (max_in ids (hd 0%Z ids)) as [E|I]; [|now apply H]. rewrite E. destruct ids as [|i ids]; [cbn; lia|]. cbn [hd]. apply H. now left.
Qed.

Section Deck.
Context (str : R -> text) (show : Q -> text) (quick : bool) (s : text) (cells : list cell_says) (ss : list (card * surf_says)) (ds : list data_says) (rank : Z -> nat).
Context (universe_order : list ucell -> list Z) (d : ConvertModel.deck) (N : nat) (n : Z).
Context (DS : describes s cells ss ds) (G : good_cards cells (map snd ss) ds rank) (FW : fine_cards quick (trs_of ds) ss) (PR : printable show cells ss ds).
Context (SC : scone_cards ss) (SN : scone_nuclides cells ds) (WU : whole_universes cells) (SU : small_universes cells) (OU : outer cells (map snd ss) n).
Context (UO : forall l, (forall c, In c l -> uc_number c <> None) -> universe_ids (universe_order l) l).
Context (NS : forall x, numeral (str x)) (NQ : forall q, numeral (show q)).
Context (L : forall fuel, N <= fuel -> load str show fuel quick s = Done d) (D : deck_means str show cells (map snd ss) ds d) (ON : Forall once cells).

Lemma cells_aligned : Forall2 (fun c g => g_id g = cs_id c /\ uc_number (to_u g) = number_of c) cells (d_cells d).
Proof.
  apply nth_forall2; [symmetry; apply (dm_count _ _ _ _ _ _ D)|]. intros k c g HC HG. assert (M := dm_cells _ _ _ _ _ _ D k c g HC HG).
  split; [exact (cm_id _ _ _ _ _ _ _ _ _ M)|]. unfold uc_number, number_of. cbn [to_u uc_univ]. destruct (u_word (map e_kw (cs_keys c))) as [v|] eqn:E.
  - rewrite (cm_univ _ _ _ _ _ _ _ _ _ M v); [reflexivity|now apply u_word_some in E].
  - rewrite (cm_nouniv _ _ _ _ _ _ _ _ _ M); [reflexivity|now apply u_word_none].
Qed.
Lemma numbers_there c : In c (map to_u (d_cells d)) -> uc_number c <> None.
Proof.
  intro I. apply in_map_iff in I as (g & <- & I). destruct (forall2_pick _ _ _ _ cells_aligned I) as (c & IC & _ & E). rewrite E. unfold number_of.
  destruct (u_word (map e_kw (cs_keys c))) as [v|] eqn:U; [|discriminate]. apply u_word_some in U. now apply (proj1 (WU c IC) v).
Qed.
Lemma order_ids : universe_ids (universe_order (map to_u (d_cells d))) (map to_u (d_cells d)).
Proof. apply UO. exact numbers_there. Qed.
Lemma ids_spec u : In u (universe_order (map to_u (d_cells d))) <-> exists c, In c cells /\ in_universe c u.
Proof.
  destruct order_ids as (_ & _ & IDS). rewrite IDS. assert (ON' := ON). rewrite Forall_forall in ON'. split.
  - intros (x & I & E). apply in_map_iff in I as (g & <- & I). destruct (forall2_pick _ _ _ _ cells_aligned I) as (c & IC & _ & E2). exists c. split; [exact IC|].
    apply number_spec; [now apply ON'|congruence].
  - intros (c & IC & U). destruct (forall2_take _ _ _ _ cells_aligned IC) as (g & IG & _ & E). exists (to_u g). split; [now apply in_map|]. rewrite E. apply number_spec; [now apply ON'|exact U].
Qed.
Lemma members_spec u : exists sel, (forall c, In c cells -> (sel c = true <-> in_universe c u)) /\ members u (map to_u (d_cells d)) = map cs_id (filter sel cells).
Proof.
  exists (fun c => match number_of c with Some m => (m =? u)%Z | None => false end). assert (ON' := ON). rewrite Forall_forall in ON'. split.
  - intros c I. rewrite <- (number_spec c u) by now apply ON'. destruct (number_of c) as [m|]; [|split; discriminate]. rewrite Z.eqb_eq. split; [now intros ->|intro E; now injection E].
  - unfold members. assert (F := cells_aligned). clear - F. induction F as [|c g l l' [E1 E2] F IH]; [reflexivity|]. cbn [map filter]. unfold member at 1. rewrite E2.
    destruct (number_of c) as [m|]; [|exact IH]. destruct (m =? u)%Z; [|exact IH]. cbn [map to_u uc_id]. now rewrite IH, E1.
Qed.
Lemma texts_of k c g : nth_error cells k = Some c -> nth_error (d_cells d) k = Some g ->
  (forall w r, In w (g_text g) -> w <> "-"%char :: "-"%char :: r) /\
  (forall sg y sn, In (signed_word sg (ss_id y)) (atoms (cs_region c)) -> In y (map snd ss) -> ss_shape y = Plain sn -> In (signed_word sg (ss_id y)) (g_text g)) /\
  ((forall w y f i, In w (atoms (cs_region c)) -> In y (map snd ss) -> ss_shape y = Body f i -> ~ names (ss_id y) w) -> tok_atoms (map word_tok (g_text g)) = atoms (cs_region c)).
Proof. exact (load_texts str show quick s cells ss ds rank d N DS G FW L k c g). Qed.
Lemma cell_of g : In g (d_cells d) -> exists k c, nth_error cells k = Some c /\ nth_error (d_cells d) k = Some g /\ In c cells /\ cell_means str show cells (map snd ss) ds d k c g.
Proof.
  intro I. apply In_nth_error in I as (k & HG). destruct (nth_there _ _ k g (dm_count _ _ _ _ _ _ D) HG) as (c & HC).
  exists k, c. split; [exact HC|]. split; [exact HG|]. split; [now apply nth_error_In in HC|]. exact (dm_cells _ _ _ _ _ _ D k c g HC HG).
Qed.
Lemma cells_read : Forall read_cell (map to_u (d_cells d)).
Proof.
  apply Forall_map, Forall_forall. intros g I. destruct (cell_of g I) as (k & c & HC & HG & IC & M). split; cbn [to_u uc_text uc_fill uc_offset uc_rot].
  - intros t r IT. apply (proj1 (texts_of k c g HC HG)). exact IT.
  - intro F. destruct (has_fill c) as [(star & v & tr & H)|NF].
    + destruct (gc_fill _ _ _ _ G c star v tr IC H) as (m & FM). destruct (cm_fill _ _ _ _ _ _ _ _ _ M star v tr m H FM) as [E _]. congruence.
    + apply (cm_nofill _ _ _ _ _ _ _ _ _ M NF).
Qed.
Lemma some_root : exists c, In c (map to_u (d_cells d)) /\ uc_number c = Some 0%Z.
Proof.
  destruct OU as (_ & (c & IC & U & _) & _). assert (ON' := ON). rewrite Forall_forall in ON'. destruct (forall2_take _ _ _ _ cells_aligned IC) as (g & IG & _ & E). exists (to_u g). split; [now apply in_map|].
  rewrite E. apply number_spec; [now apply ON'|exact U].
Qed.

(** The border is the surface. *)
Lemma root_border us root : create_universes (universe_order (map to_u (d_cells d))) (map to_u (d_cells d)) [] = Some us -> In root us -> u_root root = true -> u_border root = n.
Proof.
  intros CU IR UR. destruct OU as (PN & (c0 & IC0 & U0 & R0) & OT). assert (ON' := ON). rewrite Forall_forall in ON'.
  assert (POS := gc_pos _ _ _ _ G). assert (ND := gc_ids _ _ _ _ G).
  assert (BD : forall g h, In g (d_cells d) -> borders (to_u g) h -> h = n).
  { intros g h IG (B1 & B2 & B3). destruct (cell_of g IG) as (k & c & HC & HG & IC & M). destruct (texts_of k c g HC HG) as (P1 & P2 & P3).
    assert (U : in_universe c 0).
    { apply number_spec; [now apply ON'|]. rewrite <- B1. symmetry. now apply (forall2_nth _ _ _ cells_aligned k c g HC HG). }
    apply (other_text cells (map snd ss) rank c g ND POS (proj2 (gc_cells _ _ _ _ G c IC)) P2 P3 n h (OT c IC U) PN B2 B3). }
  assert (EX : exists c h, In c (map to_u (d_cells d)) /\ borders c h).
  { apply In_nth_error in IC0 as (k & HC). destruct (nth_there _ _ k c0 (eq_sym (dm_count _ _ _ _ _ _ D)) HC) as (g & HG). destruct (texts_of k c0 g HC HG) as (P1 & P2 & P3).
    exists (to_u g), n. split; [apply in_map; now apply nth_error_In in HG|]. split; [|split].
    - rewrite (proj2 (forall2_nth _ _ _ cells_aligned k c0 g HC HG)). apply number_spec; [apply ON'; now apply nth_error_In in HC|exact U0].
    - exact (outer_text (map snd ss) c0 g ND POS P2 P3 n PN R0).
    - destruct PN as (y & sn & IY & <- & _). now apply POS. }
  destruct (C71_border_partial _ _ order_ids cells_read EX) as (us' & root' & a & c & b & CU' & IR' & UR' & EC & BC & _). rewrite CU in CU'. injection CU' as <-.
  assert (IC : In c (map to_u (d_cells d))) by (rewrite EC; apply in_elt). apply in_map_iff in IC as (g & <- & IG).
  assert (E := BD g _ IG BC). destruct (created _ _ _ order_ids cells_read some_root CU) as (x & y & bd & EU & _ & _).
  assert (ONE : forall r, In r us -> u_root r = true -> u_border r = bd).
  { intros r I Q. rewrite EU in I. apply in_app_iff in I as [I|[<-|I]]; [apply in_map_iff in I as (z & <- & _); discriminate Q|reflexivity|].
    apply in_app_iff in I as [I|[<-|[]]]; [apply in_map_iff in I as (z & <- & _); discriminate Q|discriminate Q]. }
  rewrite (ONE root IR UR). now rewrite <- (ONE root' IR' UR').
Qed.

Lemma deck_for_scone : PropSconeFile.scone_deck str show universe_order d.
Proof.
  assert (POS : forall c, In c cells -> (0 < cs_id c)%Z) by (intros c I; now apply (gc_cells _ _ _ _ G c)).
  destruct (deck_printed str show quick s cells ss ds d N DS PR) as [DP GE]; [|exact (gc_pos _ _ _ _ G)|exact L|].
  { intros c m q IC EC. apply numeral_newline. now apply (pr_dens _ _ _ _ PR c m q). }
  assert (B37 : (10 ^ 37 + 2 < 10 ^ 38 /\ 0 < 10 ^ 37)%Z) by (split; reflexivity). set (b := (10 ^ 37)%Z) in *. set (b' := (10 ^ 38)%Z) in *.
  assert (LEN : forall z, (Z.abs z < b')%Z -> length (str_Z z) <= 39) by (intros z H; apply (str_length 37 z); exact H).
  assert (SU' : forall c, In c cells -> (forall u, in_universe c u -> (Z.abs u < b)%Z) /\
    (forall star v tr f, has_kw (KFill star v tr) (cs_keys c) -> py_int v = Some f -> (Z.abs f < b)%Z)) by exact SU.
  clearbody b b'.
  assert (LID : forall g, In g (d_cells d) -> length (str_Z (g_id g)) <= 41 /\ length (str_Z (g_mat g)) <= 41 /\ forall r, expr (toks (g_items g)) r -> good_gcell show g r).
  { intros g I. destruct (cell_of g I) as (k & c & HC & HG & _). now apply (cell_printed str show cells (map snd ss) ss ds d k c g NS D DP PR POS GE (gc_fill _ _ _ _ G)). }
  split; [exact NS|]. split; [|split; [|split; [|split; [|split; [|split]]]]].
  - apply Forall_forall. intros x I. destruct (dm_surfs _ _ _ _ _ _ D x I) as (_ & sn & E). exists sn. now apply (deck_ready str show quick s cells ss ds d N DS SC L).
  - apply Forall_forall. intros g I. destruct (LID g I) as (L1 & L2 & GG). destruct (cell_of g I) as (k & c & HC & HG & IC & M). split; [lia|]. split; [lia|]. split.
    + intros f EF. destruct (has_fill c) as [(star & v & tr & H)|NF]; [|rewrite (proj1 (cm_nofill _ _ _ _ _ _ _ _ _ M NF)) in EF; discriminate].
      destruct (gc_fill _ _ _ _ G c star v tr IC H) as (m & FM). destruct (cm_fill _ _ _ _ _ _ _ _ _ M star v tr m H FM) as [E _]. rewrite E in EF. injection EF as <-.
      destruct (py_int v) as [z|] eqn:PV; [|now elim (proj2 (WU c IC) star v tr H)]. exists z. split; [exact PV|]. apply Nat.le_trans with 39; [|lia]. apply LEN.
      pose proof (proj2 (SU' c IC) star v tr z H PV) as B. lia.
    + destruct (cm_region _ _ _ _ _ _ _ _ _ M) as (r & E & _). exists r. now apply GG.
  - apply Forall_forall. intros [k a] I. cbn [snd]. destruct (dm_mats _ _ _ _ _ _ D k a I) as (MN & m & es & LE & MO). destruct (SN m es LE) as (EX & ZK & FP).
    destruct (MO EX) as [MA _]. destruct (made_densities es (m_comp a) (m_dens a) MA (gc_mats _ _ _ _ G m es LE) FP) as (c & EC & _). exists c.
    destruct (dp_keys _ _ _ _ DP k a I) as (K1 & K2 & K3 & K4 & _). split; [exact EC|]. split; [now rewrite MN|]. split; [exact K3|]. split; [|rewrite K4; discriminate].
    destruct MA as (_ & _ & _ & _ & _ & KS). apply Forall_forall. intros [t q] IT. cbn [fst].
    destruct (KS t) as [(LT & _)|(z & y & i & v & LZ & EZ & II & ->)]; [unfold keys; apply in_map_iff; now exists (t, q)|now apply ZK|].
    destruct (isotope_key y i v II) as (y1 & b1 & H). unfold nuclide_key in H. destruct H as [H HB]. rewrite H. apply str_zaid. lia.
  - exact order_ids.
  - exact cells_read.
  - specialize (L (S N) ltac:(lia)). revert L. unfold load, in_memory. destruct (read_file _ _) as [p|]; [|discriminate]. destruct (process_importances (f_imps p)) as [imps|]; [|discriminate].
    destruct (process _ _) as [o| |]; try discriminate. destruct (mapM _ _) as [ps|]; [|discriminate].
    destruct (reorganise_materials show (f_mats p) _) as [[ms cs]|]; [|discriminate]. injection 1 as <-. reflexivity.
  - intros us CU. destruct (created _ _ _ order_ids cells_read some_root CU) as (x & y & bd & EU & EI & _). set (ids := universe_order (map to_u (d_cells d))) in *.
    assert (BI : forall i, In i ids -> (Z.abs i < b)%Z) by (intros i I; apply ids_spec in I as (c & IC & U); exact (proj1 (SU' c IC) i U)).
    assert (BM := max_bound ids b (proj2 B37) BI).
    assert (BB : length (str_Z bd) <= 50).
    { assert (RB : bd = n). { rewrite <- (root_border us (mkU 0 [] (Some (max_id ids + 1)%Z) None None true bd) CU); [reflexivity|rewrite EU; apply in_elt|reflexivity]. }
      rewrite RB. destruct OU as ((z & sn & IZ & <- & _) & _). apply Nat.le_trans with 41; [|lia]. apply big_length. pose proof (gc_pos _ _ _ _ G z IZ).
      apply in_map_iff in IZ as (w & <- & IW). pose proof (pr_surfs _ _ _ _ PR w IW). lia. }
    assert (MB : forall i, Forall (fun j => length (str_Z j) <= 50) (members i (map to_u (d_cells d)))).
    { intro i. apply Forall_forall. intros j I. unfold members in I. apply in_map_iff in I as (v & <- & I). apply filter_In in I as [I _]. apply in_map_iff in I as (g & <- & I).
      cbn [to_u uc_id]. pose proof (proj1 (LID g I)). lia. }
    assert (CB : forall i, In i ids -> PropSconeFile.small (mkU i (members i (map to_u (d_cells d))) None None None false 0)).
    { intros i I. specialize (BI i I). split; cbn [u_id u_border u_cells u_fill u_offset]; [apply Nat.le_trans with 39; [apply LEN; lia|lia]|]. split; [cbn; lia|]. split; [apply MB|]. split; discriminate. }
    rewrite EU. apply Forall_forall. intros u I. apply in_app_iff in I as [I|[<-|I]].
    + apply in_map_iff in I as (i & <- & I). apply CB. rewrite EI. apply in_or_app. now left.
    + split; cbn [u_id u_border u_cells u_fill u_offset]; [cbn; lia|]. split; [exact BB|]. split; [constructor|]. split; [|discriminate].
      injection 1 as <-. apply Nat.le_trans with 39; [apply LEN; lia|lia].
    + apply in_app_iff in I as [I|[<-|[]]].
      * apply in_map_iff in I as (i & <- & I). apply CB. rewrite EI. apply in_or_app. right. now right.
      * split; cbn [u_id u_border u_cells u_fill u_offset]; [apply Nat.le_trans with 39; [apply LEN; lia|lia]|]. split; [cbn; lia|]. split; [apply MB|]. split; discriminate.
Qed.
End Deck.

(** ** What the file says *)

(** The entry of a cell is what its card says: its number, the universe that fills it (all numbers of universes are one more
    than on the cards) or else its material with the density of the card, or void, and the region [r]. *)
Definition scone_cell_said (ds : list data_says) (mats : list material) (c : cell_says) (r : region) (e : PropSconeFile.node) : Prop :=
  exists k i what ws, e = PropSconeFile.Dict k ([PropSconeFile.Leaf (T "type") [T "unionCell"]; PropSconeFile.Leaf (T "id") [i]] ++ what ++
      [PropSconeFile.Leaf (T "surfaces") (T "[" :: ws ++ [T "]"])]) /\
    py_int k = Some (cs_id c) /\ py_int i = Some (cs_id c) /\ expr (flat_map (fun w => glex scone_delim w []) ws) r /\
    ((exists star v tr f u, has_kw (KFill star v tr) (cs_keys c) /\ py_int v = Some f /\
        what = [PropSconeFile.Leaf (T "filltype") [T "uni"]; PropSconeFile.Leaf (T "universe") [u]] /\ py_int u = Some (f + 1)%Z) \/
     ((forall star v tr, ~ has_kw (KFill star v tr) (cs_keys c)) /\ exists m, what = [PropSconeFile.Leaf (T "filltype") [T "mat"]; PropSconeFile.Leaf (T "material") [m]] /\
       match cs_mat c with
       | None => m = T "void"
       | Some (n, q) => exists w a, m = T "m" ++ w /\ In a mats /\ (exists z, py_int w = Some z /\ m_num a = str_Z z) /\ (m_dens a == q)%Q /\
           forall es, last_for (str_Z n) (mats_of ds) es -> made_of es (m_comp a)
       end)).

(** The entry of a universe, under number [l]: the cells whose cards put them in universe [u], in their order. *)
Definition lists_universe (cells : list cell_says) (u l : Z) (e : PropSconeFile.node) : Prop :=
  exists k i ws sel, e = PropSconeFile.Dict k [PropSconeFile.Leaf (T "type") [T "cellUniverse"]; PropSconeFile.Leaf (T "cells") (T "(" :: ws ++ [T ")"]); PropSconeFile.Leaf (T "id") [i]] /\
    py_int k = Some l /\ py_int i = Some l /\ (forall c, In c cells -> (sel c = true <-> in_universe c u)) /\
    Forall2 (fun w z => py_int w = Some z) ws (map cs_id (filter sel cells)).
(** The root: its border is surface [n], it is filled with universe [j]. *)
Definition root_said (n j : Z) (e : PropSconeFile.node) : Prop :=
  exists i b w, e = PropSconeFile.Dict (T "root") [PropSconeFile.Leaf (T "type") [T "rootUniverse"]; PropSconeFile.Leaf (T "border") [b];
      PropSconeFile.Leaf (T "fill") [T "u<" ++ w ++ T ">"]; PropSconeFile.Leaf (T "id") [i]] /\
    py_int i = Some 1%Z /\ py_int b = Some n /\ py_int w = Some j.

(** With --quick no surface that is not a macrobody is lost. *)
Lemma plain_kept str show s cells ss ds rank d N n : describes s cells ss ds -> good_cards cells (map snd ss) ds rank -> fine_cards true (trs_of ds) ss ->
  (forall fuel, N <= fuel -> load str show fuel true s = Done d) -> plain_number (map snd ss) n -> In n (map (fun x => s_id (fst x)) (d_surfs d)).
Proof.
  intros (title & noisy & cs & b1 & b2 & dd & H1 & H2 & H3 & H4 & H5 & H6 & H7 & SC & SS & SD & -> & ->) G FW L (y & sn & IY & <- & SY).
  destruct (choices (fun x g => says_geom (PropDeck.card_text (fst x)) (snd x) g) cs) as (geoms & GM).
  { intros x I. unfold says_cells in SC. rewrite Forall_forall in SC. destruct (SC x I) as [_ (head & tail & wid & wm & g & H)]. exists g, head, tail, wid, wm. exact H. }
  destruct (PropVacuum.C86_vacuum_partial str show true s title noisy cs b1 ss b2 dd rank geoms H1 H2 H3 H4 H5 H6 H7 SC SS SD G FW GM) as (N' & d' & L' & _ & K).
  assert (E : d' = d) by (assert (A := L (max N N')); assert (B := L' (max N N')); rewrite A in B by lia; specialize (B ltac:(lia)); now injection B). subst d'.
  apply in_map_iff in IY as (x & <- & IX). now apply (K eq_refl x sn).
Qed.

(** ** The program *)

(** C84 for SCONE: a file of cards as in C83 is converted, with or without --quick; the SCONE file is read back (C79) as
    dictionaries; every surface is the one of the deck near the origin of its cones; every cell has the number, the filling
    universe or the material and density of its card, and at every point its region holds exactly when the point is in the
    cell by the cards; every universe lists the cells whose cards put them in it; the root has the outermost surface as its
    border, which is in the file if no duplicates are removed, and it is filled with the cells of universe 0; the
    materials have the atom densities that the card and the density of the cell give.
    Missing: where a filling universe is placed, which is lost (C48); tori; cells whose text does not show the border
    (C71); surfaces the cards of which have more digits than SCONE files show; graveyards without a single bounding surface. *)
Theorem C84_scone_partial str show nuclide_order universe_order quick s cells ss ds rank n :
  describes s cells ss ds -> good_cards cells (map snd ss) ds rank -> fine_cards quick (trs_of ds) ss ->
  printable show cells ss ds -> scone_cards ss -> scone_nuclides cells ds -> whole_universes cells -> small_universes cells -> outer cells (map snd ss) n ->
  (forall l, (forall c, In c l -> uc_number c <> None) -> universe_ids (universe_order l) l) ->
  (forall x, numeral (str x)) -> (forall q, numeral (show q)) ->
  exists N t d srfs mats sd cd ud md,
    (forall fuel, N <= fuel -> program str show fuel nuclide_order universe_order quick [SCONE] s = Done ([(SCONE, File t)], Some d)) /\
    PropSconeFile.scone_reads t = Some (PropSconeFile.whole sd cd ud md) /\
    (Forall2 (fun x e => surf_sense (fst x) = Some (snd x) /\ PropSconeFile.surf_dict str (fst x) (snd x) e) srfs sd /\
     NoDup (map (fun x : surface * sense => s_id (fst x)) srfs) /\ (quick = true -> In n (map (fun x : surface * sense => s_id (fst x)) srfs))) /\
    Forall2 (fun c e => exists r, scone_cell_said ds mats c r e /\
      forall p env incell, means_at cells (map snd ss) (trs_of ds) p env incell ->
      forall sense, (forall x, In x srfs -> (sense (s_id (fst x)) = true <-> pos (snd x) p)) ->
      holds (zenv sense) r = incell (str_Z (cs_id c))) cells cd /\
    (exists ea root eb inner na nb j, ud = ea ++ root :: eb ++ [inner] /\
      Forall2 (fun u e => lists_universe cells u (u + 1) e) na ea /\ Forall2 (fun u e => lists_universe cells u (u + 1) e) nb eb /\
      root_said n j root /\ lists_universe cells 0 j inner /\
      NoDup (na ++ 0%Z :: nb) /\ (forall u, In u (na ++ 0%Z :: nb) <-> exists c, In c cells /\ in_universe c u) /\ ~ In (j - 1)%Z (na ++ 0%Z :: nb)) /\
    Forall2 (fun a e => exists c, atom_densities (m_dens a) (m_comp a) c /\ PropSconeFile.mat_dict a c e) mats md /\ NoDup (map m_num mats) /\
    Forall (fun a => exists m es, last_for m (mats_of ds) es /\ made_of es (m_comp a)) mats.
Proof.
  intros DS G FW PR SC SN WU SU OU UO NS NQ.
  destruct (read_deck str show quick s cells ss ds rank DS G FW) as (N & d & L & D & _ & ON).
  assert (SD := deck_for_scone str show quick s cells ss ds rank universe_order d N n DS G FW PR SC SN WU SU OU UO NS NQ L D ON).
  destruct (PropSconeFile.C79_scone_file_partial str show universe_order d SD) as (t & sd & cd & us & ud & md & CU & (K & LT) & RD & FS & FC & FU & FM).
  destruct (choices (fun (s : surface * list R) (y : surface * sense) => fst y = fst s /\ surf_sense (fst s) = Some (snd y)) (d_surfs d)) as (srfs & FR).
  { intros x I. destruct (dm_surfs _ _ _ _ _ _ D x I) as (_ & sn & E). now exists (fst x, sn). }
  assert (IDS : map (fun x : surface * sense => s_id (fst x)) srfs = map (fun x => s_id (fst x)) (d_surfs d)).
  { clear - FR. induction FR as [|x y l l' (E & _) F IH]; cbn [map]; [reflexivity|]. now rewrite E, IH. }
  set (mats := map snd (d_mats d)).
  exists (max N K), t, (mkDeck (d_surfs d) (d_cells d) (d_mats d) us), srfs, mats, sd, cd, ud, md. split.
  { intros fuel HF. unfold program. rewrite L by lia. cbn [run write_code]. rewrite LT by lia. reflexivity. }
  split; [exact RD|]. split.
  { split; [|split].
    - apply forall2_same_left with (1 := FR) (2 := FS). intros x y e (E1 & E2) H. rewrite E1. split; [exact E2|now apply H].
    - rewrite IDS. apply (dm_ids _ _ _ _ _ _ D).
    - intros ->. rewrite IDS. now apply (plain_kept str show s cells ss ds rank d N n DS G FW L (proj1 OU)). }
  split; [|split; [|split; [|split]]].
  - apply nth_forall2; [rewrite <- (dm_count _ _ _ _ _ _ D); exact (forall2_len _ _ _ FC)|].
    intros k c e HC HE. destruct (nth_there _ _ k c (eq_sym (dm_count _ _ _ _ _ _ D)) HC) as (g & HG).
    assert (M := dm_cells _ _ _ _ _ _ D k c g HC HG). assert (IC := nth_error_In _ _ HC).
    destruct (cm_region _ _ _ _ _ _ _ _ _ M) as (r & EX & HR). destruct (forall2_nth _ _ _ FC k g e HG HE r EX) as (kk & i & what & ws & r' & -> & NK & NI & W & EX' & HE').
    exists r'. split.
    2:{ intros p env incell MA sense SE. rewrite HE'. apply (HR p env incell MA). intros s0 sn IS ES. destruct (forall2_in_left _ _ _ s0 FR IS) as (y & IY & Y1 & Y2).
        rewrite Y2 in ES. injection ES as <-. rewrite <- Y1. now apply SE. }
    rewrite (cm_id _ _ _ _ _ _ _ _ _ M) in NK, NI. exists kk, i, what, ws. split; [reflexivity|]. split; [exact NK|]. split; [exact NI|]. split; [exact EX'|].
    destruct (has_fill c) as [(star & v & tr & H)|NF]; [left|right].
    + destruct (gc_fill _ _ _ _ G c star v tr IC H) as (m & FMN). destruct (cm_fill _ _ _ _ _ _ _ _ _ M star v tr m H FMN) as [FL _]. rewrite FL in W.
      destruct W as (u & f & E & NV & NU). exists star, v, tr, f, u. now repeat (split; [assumption|]).
    + split; [exact NF|]. rewrite (proj1 (cm_nofill _ _ _ _ _ _ _ _ _ M NF)) in W. destruct W as (m & E & W). exists m. split; [exact E|].
      destruct (cs_mat c) as [[m0 q]|] eqn:EM; [|rewrite (cm_void _ _ _ _ _ _ _ _ _ M EM) in W; exact W].
      destruct (cm_mat _ _ _ _ _ _ _ _ _ M m0 q EM) as (_ & PM & a & A1 & A2 & A3 & A4). assert (Z : (g_mat g =? 0)%Z = false) by (apply Z.eqb_neq; lia). rewrite Z in W.
      destruct W as (w & EW & NW). exists w, a. split; [exact EW|]. split; [unfold mats; apply in_map_iff; exists (str_Z (g_mat g), a); split; [reflexivity|now apply dget_some_in]|].
      split; [now exists (g_mat g)|]. split; [exact A3|]. intros es LE. now apply (A4 es).
  - destruct (created _ _ _ (order_ids str show cells ss ds universe_order d WU UO D) (cells_read str show quick s cells ss ds rank d N DS G FW L D)
      (some_root str show cells ss ds d n OU D ON) CU) as (na & nb & bd & EU & EI & NW).
    assert (BD : bd = n).
    { rewrite <- (root_border str show quick s cells ss ds rank universe_order d N n DS G FW WU OU UO L D ON us (mkU 0 [] (Some (max_id (universe_order (map to_u (d_cells d))) + 1)%Z) None None true bd) CU);
        [reflexivity|rewrite EU; apply in_elt|reflexivity]. }
    subst bd. set (new := (max_id (universe_order (map to_u (d_cells d))) + 1)%Z) in *. rewrite EU in FU.
    assert (ONE : forall l u e, PropSconeFile.univ_dict (mkU l (members u (map to_u (d_cells d))) None None None false 0) e -> lists_universe cells u (l + 1) e).
    { intros l u e (k & i & body & E & NI & H). cbn [u_id u_root u_offset] in *. destruct H as (NK & ws & -> & F).
      destruct (members_spec str show cells ss ds d D ON u) as (sel & S1 & S2). exists k, i, ws, sel. split; [exact E|]. split; [exact NK|]. split; [exact NI|]. split; [exact S1|].
      cbn [u_cells] in F. rewrite S2 in F. exact F. }
    assert (ALL : forall ns es, Forall2 PropSconeFile.univ_dict (map (fun u => mkU u (members u (map to_u (d_cells d))) None None None false 0) ns) es ->
      Forall2 (fun u e => lists_universe cells u (u + 1) e) ns es).
    { induction ns as [|u ns IH]; intros es F; inversion F; subst; constructor; [now apply ONE|now apply IH]. }
    apply Forall2_app_inv_l in FU as (ea & er & F1 & F2 & EE). inversion F2 as [|? root ? er' HR F3]; subst. apply Forall2_app_inv_l in F3 as (eb & el & F4 & F5 & EE).
    inversion F5 as [|? inner ? ? HI F6]; subst. inversion F6; subst.
    exists ea, root, eb, inner, na, nb, (new + 1)%Z. split; [reflexivity|]. split; [now apply ALL|]. split; [now apply ALL|]. split.
    { destruct HR as (k & i & body & E & NI & H). cbn [u_id u_root u_offset] in *. destruct H as (-> & b & fill & -> & NB & H). cbn [u_fill u_border] in *. destruct H as (w & -> & NWD).
      exists i, b, w. split; [exact E|]. split; [exact NI|]. split; [exact NB|exact NWD]. }
    split; [now apply ONE|]. rewrite <- EI. split; [apply (order_ids str show cells ss ds universe_order d WU UO D)|]. split; [exact (ids_spec str show cells ss ds universe_order d WU UO D ON)|].
    replace (new + 1 - 1)%Z with new by lia. exact NW.
  - unfold mats. assert (H : forall k a, In (k, a) (d_mats d) -> exists c, scone_densities (m_dens a) (m_comp a) = Some c /\ atom_densities (m_dens a) (m_comp a) c).
    { intros k a I. destruct (dm_mats _ _ _ _ _ _ D k a I) as (_ & m & es & LE & MO). destruct (SN m es LE) as (EX & _ & FP). destruct (MO EX) as [MA _].
      exact (made_densities es (m_comp a) (m_dens a) MA (gc_mats _ _ _ _ G m es LE) FP). }
    clear - FM H. induction FM as [|[k a] e l l' X F IH]; cbn [map]; constructor.
    + destruct (H k a (or_introl eq_refl)) as (c & E & AD). exists c. split; [exact AD|now apply X].
    + apply IH. intros k' a' I. apply (H k'). now right.
  - unfold mats. rewrite map_map. rewrite (map_ext_in _ fst); [apply (dm_keys _ _ _ _ _ _ D)|]. intros [k a] I. cbn [fst snd]. now apply (dm_mats _ _ _ _ _ _ D k a).
  - unfold mats. apply Forall_map. apply Forall_forall. intros [k a] I. cbn [snd]. destruct (dm_mats _ _ _ _ _ _ D k a I) as (_ & m & es & LE & MO).
    exists m, es. split; [exact LE|]. apply MO. now apply (SN m es).
Qed.
Print Assumptions C84_scone_partial.

(** ** An example *)

(** The numbers of the universes, each once: one of the orders that a set may have. *)
Definition order88 (l : list ucell) : list Z := nodup Z.eq_dec (flat_map (fun c => match uc_number c with Some n => [n] | None => [] end) l).
Lemma order88_ids l : (forall c, In c l -> uc_number c <> None) -> universe_ids (order88 l) l.
Proof.
  intro H. split; [apply NoDup_nodup|]. split; [exact H|]. intro n. unfold order88. rewrite nodup_In, in_flat_map. split; intros (c & I & E); exists c; (split; [exact I|]).
  - destruct (uc_number c) as [m|]; [|destruct E]. destruct E as [-> | []]. reflexivity.
  - rewrite E. now left.
Qed.
Lemma scone_cards88 : scone_cards PropVacuum.surfs86.
Proof.
  split; apply Forall_forall; intros x I m vals S; destruct (PropVacuum.spells86 x m vals I S) as [-> _].
  - intro C. cbn [In] in C. repeat (destruct C as [C|C]; [discriminate C|]). destruct C.
  - split; [intros [H|[H|H]]; discriminate H|]. split; intro C; cbn [In] in C; repeat (destruct C as [C|C]; [discriminate C|]); destruct C.
Qed.
Lemma scone_nuclides88 : scone_nuclides (map snd PropProgramMcnp.cells88) (map snd PropProgramMcnp.data88).
Proof.
  intros n es L. destruct (PropProgramMcnp.mats88 n es L) as [_ ->]. split; [eexists; split; [left; reflexivity|discriminate]|]. split.
  - intros z LZ. rewrite (PropProgramMcnp.lists88 z LZ). split; [discriminate|reflexivity].
  - intros w f [E|[]]. injection E as <- <-. vm_compute. reflexivity.
Qed.
Lemma universe88 c u : In c (map snd PropProgramMcnp.cells88) -> in_universe c u -> (cs_id c = 1%Z /\ u = 3%Z) \/ (cs_id c <> 1%Z /\ u = 0%Z).
Proof.
  cbn [map PropProgramMcnp.cells88 snd In]. intros [<-|[<-|[<-|[]]]] [(v & H & P)|[N ->]]; cbn [cs_id].
  - destruct H as [H|[]]. injection H as <-. vm_compute in P. injection P as <-. now left.
  - elim (N (T "3")). now left.
  - destruct H as [H|[]]. discriminate.
  - right. now split.
  - destruct H.
  - right. now split.
Qed.
Lemma whole88 : whole_universes (map snd PropProgramMcnp.cells88).
Proof.
  intros c I. cbn [map PropProgramMcnp.cells88 snd In] in I. split; [intros v H|intros star v tr H]; (destruct I as [<-|[<-|[<-|[]]]]; cbn in H; try contradiction; (destruct H as [H|H]; [|contradiction]); try discriminate H).
  - injection H as <-. vm_compute. discriminate.
  - injection H as _ <- _. vm_compute. discriminate.
Qed.
Lemma small88 : small_universes (map snd PropProgramMcnp.cells88).
Proof.
  intros c I. split.
  - intros u U. destruct (universe88 c u I U) as [[_ ->]|[_ ->]]; reflexivity.
  - intros star v tr f H P. cbn [map PropProgramMcnp.cells88 snd In] in I. destruct I as [<-|[<-|[<-|[]]]]; cbn in H; try contradiction; (destruct H as [H|H]; [|contradiction]); try discriminate H.
    injection H as _ <- _. vm_compute in P. injection P as <-. reflexivity.
Qed.
Lemma plain88 n : n = 1%Z \/ n = 2%Z -> plain_number (map snd PropVacuum.surfs86) n.
Proof. intros [-> | ->]; eexists _, _; [split; [left; reflexivity|split; reflexivity]|split; [right; left; reflexivity|split; reflexivity]]. Qed.
Lemma outer88 : outer (map snd PropProgramMcnp.cells88) (map snd PropVacuum.surfs86) 2.
Proof.
  split; [apply plain88; now right|]. split.
  - eexists. split; [right; right; left; reflexivity|]. split; [right; split; [intros v []|reflexivity]|reflexivity].
  - cbn [map PropProgramMcnp.cells88 snd In]. intros c [<-|[<-|[<-|[]]]] U.
    + right. left. exists 1%Z. split; [apply plain88; now left|]. left. reflexivity.
    + right. left. exists 2%Z. split; [apply plain88; now right|]. left. reflexivity.
    + left. reflexivity.
Qed.

(** The two balls of the example of C84 for MCNP: the SCONE file has the first cell in universe 4 (3 on the card), with
    uranium of as many atoms as 18.5 grams have; the second cell is filled with universe 4; the root has border 2 and is
    filled with a universe, neither 1 nor 4, of the cells 2 and 3; the point is in the second cell only. *)
Example C84_scone_example nuclide_order quick : exists N t d srfs sd e1 e2 e3 ud md r1 r2 r3 root u3 inner j k1 i1 w1 ws1 k2 i2 w2 ws2,
  (forall fuel, N <= fuel -> program PropProgramMcnp.str88 PropProgramMcnp.show88 fuel nuclide_order order88 quick [SCONE] PropProgramMcnp.file88 = Done ([(SCONE, File t)], Some d)) /\
  PropSconeFile.scone_reads t = Some (PropSconeFile.whole sd [e1; e2; e3] ud md) /\
  e1 = PropSconeFile.Dict k1 [PropSconeFile.Leaf (T "type") [T "unionCell"]; PropSconeFile.Leaf (T "id") [i1]; PropSconeFile.Leaf (T "filltype") [T "mat"];
         PropSconeFile.Leaf (T "material") [T "m" ++ w1]; PropSconeFile.Leaf (T "surfaces") (T "[" :: ws1 ++ [T "]"])] /\
  (exists a e c q, In e md /\ PropSconeFile.mat_dict a c e /\ c = [(T "92235", q)] /\ (q == (185 # 10) * (602214 # 1000000) / 235)%Q) /\
  e2 = PropSconeFile.Dict k2 [PropSconeFile.Leaf (T "type") [T "unionCell"]; PropSconeFile.Leaf (T "id") [i2]; PropSconeFile.Leaf (T "filltype") [T "uni"];
         PropSconeFile.Leaf (T "universe") [w2]; PropSconeFile.Leaf (T "surfaces") (T "[" :: ws2 ++ [T "]"])] /\ py_int w2 = Some 4%Z /\
  In root ud /\ root_said 2 j root /\ j <> 1%Z /\ j <> 4%Z /\
  In u3 ud /\ (exists k i ws, u3 = PropSconeFile.Dict k [PropSconeFile.Leaf (T "type") [T "cellUniverse"]; PropSconeFile.Leaf (T "cells") (T "(" :: ws ++ [T ")"]); PropSconeFile.Leaf (T "id") [i]] /\
    py_int i = Some 4%Z /\ map py_int ws = [Some 1%Z]) /\
  In inner ud /\ (exists k i ws, inner = PropSconeFile.Dict k [PropSconeFile.Leaf (T "type") [T "cellUniverse"]; PropSconeFile.Leaf (T "cells") (T "(" :: ws ++ [T ")"]); PropSconeFile.Leaf (T "id") [i]] /\
    py_int i = Some j /\ map py_int ws = [Some 2%Z; Some 3%Z]) /\
  forall sense, (forall x, In x srfs -> (sense (s_id (fst x)) = true <-> pos (snd x) (Pt 0 0 (11 / 2)))) ->
    map (holds (zenv sense)) [r1; r2; r3] = [false; true; false].
Proof.
  destruct (C84_scone_partial PropProgramMcnp.str88 PropProgramMcnp.show88 nuclide_order order88 quick PropProgramMcnp.file88 _ PropVacuum.surfs86 _ Z.to_nat 2
    PropProgramMcnp.describes88 PropProgramMcnp.good_cards88 (PropProgramMcnp.fine_cards88 quick) PropProgramMcnp.printable88 scone_cards88 scone_nuclides88 whole88 small88 outer88 order88_ids
    PropProgramMcnp.str88_numeral PropProgramMcnp.show88_numeral) as (N & t & d & srfs & mats & sd & cd & ud & md & L & RD & _ & FC & FU & FM & _ & MM).
  assert (LN := forall2_len _ _ _ FC). destruct cd as [|e1 [|e2 [|e3 [|e4 cd]]]]; try discriminate LN. cbn [map PropProgramMcnp.cells88 snd] in FC.
  inversion FC as [|? ? ? ? (r1 & S1 & H1) F1]; subst. clear FC. inversion F1 as [|? ? ? ? (r2 & S2 & H2) F2]; subst. clear F1.
  inversion F2 as [|? ? ? ? (r3 & S3 & H3) F3]; subst. clear F2 F3 LN.
  destruct FU as (ea & root & eb & inner & na & nb & j & EU & FA & FB & RS & IN & ND & ALL & NJ).
  assert (SEL : forall u l e ids, lists_universe (map snd PropProgramMcnp.cells88) u l e ->
    (forall sel, (forall c, In c (map snd PropProgramMcnp.cells88) -> (sel c = true <-> in_universe c u)) -> map cs_id (filter sel (map snd PropProgramMcnp.cells88)) = ids) ->
    exists k i ws, e = PropSconeFile.Dict k [PropSconeFile.Leaf (T "type") [T "cellUniverse"]; PropSconeFile.Leaf (T "cells") (T "(" :: ws ++ [T ")"]); PropSconeFile.Leaf (T "id") [i]] /\
      py_int i = Some l /\ map py_int ws = map Some ids).
  { intros u l e ids (k & i & ws & sel & E & _ & NI & SE & F) H. exists k, i, ws. split; [exact E|]. split; [exact NI|]. rewrite (H sel SE) in F.
    clear - F. induction F as [|w z l l' P F IH]; [reflexivity|]. cbn [map]. now rewrite P, IH. }
  assert (SIDE : forall sel u, (forall c, In c (map snd PropProgramMcnp.cells88) -> (sel c = true <-> in_universe c u)) ->
    forall c, In c (map snd PropProgramMcnp.cells88) -> sel c = match cs_id c with 1%Z => (u =? 3)%Z | _ => (u =? 0)%Z end).
  { intros sel u SE c I. specialize (SE c I). assert (U : in_universe c (match cs_id c with 1%Z => 3 | _ => 0 end)).
    { cbn [map PropProgramMcnp.cells88 snd In] in I. destruct I as [<-|[<-|[<-|[]]]]; cbn [cs_id].
      - left. exists (T "3"). split; [now left|vm_compute; reflexivity].
      - right. split; [intros v [H|[]]; discriminate H|reflexivity].
      - right. split; [intros v []|reflexivity]. }
    destruct (sel c) eqn:E.
    - assert (V := proj1 SE eq_refl). destruct (universe88 c u I V) as [[-> ->]|[NE ->]]; [reflexivity|]. cbn [map PropProgramMcnp.cells88 snd In] in I.
      destruct I as [<-|[<-|[<-|[]]]]; [now elim NE|reflexivity|reflexivity].
    - cbn [map PropProgramMcnp.cells88 snd In] in I. symmetry. destruct I as [<-|[<-|[<-|[]]]]; cbn [cs_id] in *; apply Z.eqb_neq; intros ->; apply SE in U; discriminate. }
  assert (IDS : forall sel u, (forall c, In c (map snd PropProgramMcnp.cells88) -> (sel c = true <-> in_universe c u)) ->
    map cs_id (filter sel (map snd PropProgramMcnp.cells88)) = (if (u =? 3)%Z then [1%Z] else []) ++ (if (u =? 0)%Z then [2%Z; 3%Z] else [])).
  { intros sel u SE. assert (X := SIDE sel u SE). cbn [map PropProgramMcnp.cells88 snd In] in X. cbn [map PropProgramMcnp.cells88 snd filter].
    rewrite (X _ (or_introl eq_refl)), (X _ (or_intror (or_introl eq_refl))), (X _ (or_intror (or_intror (or_introl eq_refl)))). cbn [cs_id].
    destruct (u =? 3)%Z, (u =? 0)%Z; reflexivity. }
  assert (IN3 : In 3%Z (na ++ nb)).
  { assert (I : In 3%Z (na ++ 0%Z :: nb)) by (apply ALL; eexists; split; [left; reflexivity|]; left; exists (T "3"); split; [now left|vm_compute; reflexivity]).
    apply in_app_iff in I as [I|[I|I]]; [apply in_or_app; now left|discriminate I|apply in_or_app; now right]. }
  assert (U3 : exists u3, In u3 ud /\ lists_universe (map snd PropProgramMcnp.cells88) 3 (3 + 1) u3).
  { apply in_app_iff in IN3 as [I|I].
    - destruct (forall2_take _ _ _ _ FA I) as (e & IE & H). exists e. split; [rewrite EU; apply in_or_app; now left|exact H].
    - destruct (forall2_take _ _ _ _ FB I) as (e & IE & H). exists e. split; [rewrite EU; apply in_or_app; right; right; apply in_or_app; now left|exact H]. }
  destruct U3 as (u3 & IU3 & LU3).
  destruct S1 as (k1 & i1 & what1 & ws1 & -> & _ & _ & _ & [(star & v & tr & f & u & [K|[]] & _)|(_ & m1 & -> & w1 & a & -> & IA & _ & DA & MA)]); [discriminate K|].
  destruct S2 as (k2 & i2 & what2 & ws2 & -> & _ & _ & _ & [(star & v & tr & f & u & [K|[]] & PV & -> & PU)|(NF & _)]); [|elim (NF false (T "3") (Some (T " ", T "1 0 0"))); now left].
  injection K as <- <- <-. vm_compute in PV. injection PV as <-.
  exists N, t, d, srfs, sd. eexists _, _, e3, ud, md, r1, r2, r3, root, u3, inner, j, k1, i1, w1, ws1, k2, i2, u, ws2.
  split; [exact L|]. split; [exact RD|]. split; [reflexivity|]. split.
  { destruct (forall2_take _ _ _ _ FM IA) as (e & IE & c & AD & MD).
    assert (MO : made_of [Nuclide (T "92235.70c") (T "2")] (m_comp a)) by (apply MA; exists [], []; split; [reflexivity|intros []]).
    assert (ONE : exists v, m_comp a = [(T "92235", v)] /\ (v == 1)%Q).
    { assert (X := PropProgramMcnp.made88 _ MO). destruct MO as (NDK & k0 & _ & K1 & _). destruct (K1 (T "92235") 92235%Z) as (v & GV & _);
        [exists (T "92235.70c"), (T "2"); split; [now left|reflexivity]|vm_compute; reflexivity|vm_compute; discriminate|].
      destruct (m_comp a) as [|[x y] l] eqn:EC; [discriminate GV|]. destruct (X (x, y) (or_introl eq_refl)) as [E1 E2]. cbn [fst snd] in E1, E2. clear GV. subst x. exists y. split; [|exact E2].
      destruct l as [|[x' y'] l]; [reflexivity|]. destruct (X (x', y') (or_intror (or_introl eq_refl))) as [E3 _]. cbn [fst] in E3. subst x'. cbn [keys map fst] in NDK. inversion NDK as [|? ? NI _]. elim NI. now left. }
    destruct ONE as (v & EV & V1). destruct AD as (k & FK & _ & NG). destruct NG as (_ & l & FL & TO); [rewrite DA; reflexivity|]. rewrite EV in FK, FL.
    inversion FK as [|? [x q] ? ? [X1 X2] FN]; subst. inversion FN; subst. inversion FL as [|? [z w] ? ? [P1 P2] FN2]; subst. inversion FN2; subst. cbn [fst snd] in *. subst x w.
    vm_compute in P1. injection P1 as <-. exists a, e, [(T "92235", q)], q. split; [exact IE|]. split; [exact MD|]. split; [reflexivity|].
    cbn [map snd total] in TO. assert (MM1 : (mean_mass [(92235%Z, v)] == 235)%Q). { unfold mean_mass. cbn [map fst snd total]. rewrite V1. vm_compute. reflexivity. }
    rewrite MM1, DA in TO. rewrite Qplus_0_r in TO. rewrite TO. reflexivity. }
  split; [reflexivity|]. split; [exact PU|]. split; [rewrite EU; apply in_elt|]. split; [exact RS|]. split.
  { intros ->. apply NJ. apply in_elt. }
  split.
  { intros ->. apply NJ. change (4 - 1)%Z with 3%Z. apply in_app_iff in IN3 as [I|I]; apply in_or_app; [now left|right; now right]. }
  split; [exact IU3|]. split; [exact (SEL 3%Z 4%Z u3 [1%Z] LU3 (fun sel SE => IDS sel 3%Z SE))|]. split.
  { rewrite EU. apply in_or_app. right. right. apply in_or_app. right. now left. }
  split; [exact (SEL 0%Z j inner [2%Z; 3%Z] IN (fun sel SE => IDS sel 0%Z SE))|].
  intros sense SE. cbn [map].
  rewrite (H1 _ _ _ PropProgramMcnp.means88 sense SE), (H2 _ _ _ PropProgramMcnp.means88 sense SE), (H3 _ _ _ PropProgramMcnp.means88 sense SE). vm_compute. reflexivity.
Qed.

(** ** A border that is not in the file *)

(** Two spheres that are the same: the first is removed from the file. *)
Definition twins : list surface := [mkS 1 None SPHERE_GENERAL [0; 0; 0; 5]%R TRANSMISSION; mkS 2 None SPHERE_GENERAL [0; 0; 0; 5]%R TRANSMISSION].
(** The cells "-2" and "1": the inside and the outside. *)
Definition twin_cells : list cell := [Cell 1 0 0 [T "-2"] [Str (T "-2")] [2%Z]; Cell 2 0 0 [T "1"] [Str (T "1")] [1%Z]].
Definition twin_u (c : cell) : ucell := mkUC (c_id c) (c_text c) None None None None.
Lemma twins_dups : exists a b, entries 0 twins = Some [a; b] /\ find_dups [a; b] = [(a, (b, false))] /\
  e_org a = mkS 1 None SPHERE_GENERAL [0; 0; 0; 5]%R TRANSMISSION /\ e_org b = mkS 2 None SPHERE_GENERAL [0; 0; 0; 5]%R TRANSMISSION /\
  keep (find_dups [a; b]) [a; b] = [e_org b].
Proof.
  do 2 eexists. split; [reflexivity|].
  match goal with |- find_dups [?x; ?y] = _ /\ _ => set (a := x); set (b := y) end.
  assert (S : DedupeProofs.sameb b a = Some false).
  { unfold DedupeProofs.sameb, diff_gen. change (negb (stype_beq (s_type (e_gen a)) (s_type (e_gen b)))) with false. cbv iota.
    assert (E : list_Reqb (s_coef (e_gen a)) (s_coef (e_gen b)) = true) by (apply SurfProofs.list_Reqb_true; reflexivity). rewrite E. reflexivity. }
  assert (F : find_dups [a; b] = [(a, (b, false))]).
  { unfold find_dups. assert (G : groups [a; b] = [(GENERAL_QUADRATIC, [a; b])]) by reflexivity.
    rewrite G. cbn [fold_left snd scan app]. rewrite !DedupeProofs.compare_one_eq, S. reflexivity. }
  rewrite F. repeat split; reflexivity.
Qed.

(** The text of a cell, from which the border is taken, still names the surface that is gone: the file has surface 2 only,
    the region of the outer cell is "2", and the border of the root is 1. *)
Theorem C71_merged_refuted : exists surfs cells surfs' cells' us root c, NoDup (map s_id surfs) /\
  (forall c, In c cells -> c_items c = map Str (c_text c)) /\ remove_duplicates surfs cells = Some (surfs', cells') /\
  create_universes [0%Z] (map twin_u cells') [] = Some us /\ In root us /\ u_root root = true /\
  In (u_border root) (map s_id surfs) /\ ~ In (u_border root) (map s_id surfs') /\
  In c cells' /\ c_text c = [str_Z (u_border root)] /\ exists k, c_items c = [Str (str_Z k)] /\ map s_id surfs' = [k].
Proof.
  destruct twins_dups as (a & b & E & F & EA & EB & K). exists twins, twin_cells. do 5 eexists. split; [cbn; repeat constructor; cbn; intuition discriminate|].
  split; [intros c [<-|[<-|[]]]; reflexivity|]. split.
  { unfold remove_duplicates. rewrite E, K, F, EB. cbn [mapM twin_cells]. unfold replace_cell. cbn [replace_all]. rewrite EA, EB. cbn [s_id].
    cbn [c_items]. change (replace_surface 2 1 false [Str (T "-2")]) with (Some [Str (T "-2")]). change (replace_surface 2 1 false [Str (T "1")]) with (Some [Str (T "2")]). reflexivity. }
  split; [vm_compute; reflexivity|]. split; [left; reflexivity|]. split; [reflexivity|]. split; [left; reflexivity|]. split; [cbn; intuition discriminate|].
  split; [right; left; reflexivity|]. split; [reflexivity|]. exists 2%Z. split; reflexivity.
Qed.
Print Assumptions C71_merged_refuted.
