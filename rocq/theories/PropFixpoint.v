(** C95: converting the MCNP file that was written once more gives the same file (csg2csg/__main__.py 74-134,
    MCNPInput.py 1303-1412). *)
From Coq Require Import QArith Qabs Reals Lra Lia Permutation.
From Verif Require Import PyStr PyStrFacts PyInt PyIntFacts PyDict FortranNumber RegionSpec RegionFacts CellModel CellProofs CellText CellWriters CellWritersProofs
  CellWritersOut SurfModel GeomSpec SurfSpec SurfProofs PropSurf SurfWriters SurfWritersProofs FlattenModel NotsModel BoundaryModel DedupeModel MaterialModel MaterialProofs MaterialWriters
  PropMaterialOut KeywordModel DeckScan FileModel FileProofs PropKeyword PropDeck ProcessModel PropProcess ConvertModel
  MainModel WrapProofs PropFile NamesModel.
From Verif Require PropAgain PropBoundary PropSurfOut DedupeProofs PropDedupe NotsProofs.
Open Scope nat_scope.
Open Scope list_scope.

(* ------------------------------------------------------------------ *)
(** * The text of a card depends on its words only *)

Definition plain_spaces (s : text) : bool := forallb (fun c => negb (is_space c) || Ascii.eqb c blank) s.

Lemma join_cons c w ws : join_sp ((c :: w) :: ws) = c :: join_sp (w :: ws).
Proof. destruct ws; reflexivity. Qed.

Lemma words_nil_cons c s : is_space c = false -> words (c :: s) <> [].
Proof. intros S. cbn [words]. rewrite S. destruct s as [|d s]; [discriminate|]. destruct (is_space d); [discriminate|]. destruct (words (d :: s)); discriminate. Qed.

Lemma collapse_join s : plain_spaces s = true -> exists a z, collapse s = a ++ join_sp (words s) ++ z /\
  a = match s with c :: _ => if Ascii.eqb c blank then [blank] else [] | [] => [] end /\ (z = [] \/ z = [blank]) /\ (words s = [] -> z = []).
Proof.
  unfold plain_spaces. induction s as [|c s IH]; intro P.
  { exists [], []. repeat split; auto. }
  cbn [forallb] in P. apply andb_true_iff in P as [P1 P2]. destruct (IH P2) as (a & z & E & A & Z & W). cbn [collapse].
  destruct (Ascii.eqb_spec c blank) as [->|N].
  - rewrite words_cons_space by reflexivity. exists [blank]. destruct s as [|d s].
    + exists []. repeat split; auto.
    + destruct (Ascii.eqb_spec d blank) as [->|M].
      * exists z. rewrite E, A. repeat split; auto.
      * exists z. rewrite E, A. repeat split; auto.
  - assert (S : is_space c = false) by (now destruct (is_space c)). exists []. destruct s as [|d s].
    + exists []. cbn [words]. rewrite S. repeat split; auto.
    + rewrite E. destruct (Ascii.eqb_spec d blank) as [->|M].
      * rewrite A. exists (match words (blank :: s) with [] => [blank] | _ => z end).
        assert (WC : words (c :: blank :: s) = [c] :: words (blank :: s)) by (cbn [words]; rewrite S; reflexivity). rewrite WC.
        destruct (words (blank :: s)) as [|w ws] eqn:EW.
        { rewrite (W eq_refl). repeat split; auto. discriminate. }
        repeat split; auto. discriminate.
      * rewrite A. exists z.
        assert (SD : is_space d = false) by (cbn [forallb] in P2; apply andb_true_iff in P2 as [P3 _]; destruct (Ascii.eqb_spec d blank); [contradiction|]; now destruct (is_space d)).
        assert (WC : words (c :: d :: s) = match words (d :: s) with w :: ws => (c :: w) :: ws | [] => [[c]] end) by (cbn [words]; rewrite S, SD; reflexivity). rewrite WC.
        assert (WN := words_nil_cons d s SD). destruct (words (d :: s)) as [|w ws]; [contradiction|]. rewrite join_cons. repeat split; auto. discriminate.
Qed.

Lemma join_ends ws : Forall word ws -> ws <> [] -> exists c t d u, join_sp ws = c :: t /\ is_space c = false /\ join_sp ws = u ++ [d] /\ is_space d = false.
Proof.
  intros F NE. assert (WD : forall w, word w -> exists c t d u, w = c :: t /\ is_space c = false /\ w = u ++ [d] /\ is_space d = false).
  { intros w [N S]. unfold nonspace in S. rewrite forallb_forall in S. destruct (exists_last N) as (u & d & E). destruct w as [|c t]; [contradiction|].
    exists c, t, d, u. split; [reflexivity|]. split; [specialize (S c (or_introl eq_refl)); now destruct (is_space c)|]. split; [exact E|].
    assert (I : In d (c :: t)) by (rewrite E, in_app_iff; cbn; tauto). specialize (S d I). now destruct (is_space d). }
  induction F as [|w [|v ws] H F IH]; [contradiction|exact (WD w H)|]. destruct IH as (c & t & d & u & _ & _ & E & S); [discriminate|].
  destruct (WD w H) as (c' & t' & _ & _ & E' & S' & _). change (join_sp (w :: v :: ws)) with (w ++ blank :: join_sp (v :: ws)). rewrite E.
  exists c', (t' ++ blank :: u ++ [d]), d, (w ++ blank :: u). split; [now rewrite E'|]. split; [exact S'|]. split; [now rewrite <- app_assoc|exact S].
Qed.

Lemma words_are_words s : Forall word (words s).
Proof. apply Forall_forall. intros w I. destruct (words_nonempty_nospace s w I) as [N F]. split; [exact N|exact F]. Qed.

Lemma lstrip_front a s : forallb is_space a = true -> lstrip (a ++ s) = lstrip s.
Proof. induction a as [|c a IH]; intro S; [reflexivity|]. cbn [forallb] in S. apply andb_true_iff in S as [S1 S2]. cbn [app lstrip]. rewrite S1. auto. Qed.

Lemma strip_middle a u c t d b : forallb is_space a = true -> forallb is_space b = true -> u ++ [d] = c :: t -> is_space c = false -> is_space d = false ->
  strip (a ++ (u ++ [d]) ++ b) = u ++ [d].
Proof.
  intros SA SB E SC SD. unfold strip, rstrip. rewrite lstrip_front by exact SA. rewrite E. cbn [app lstrip]. rewrite SC. rewrite app_comm_cons, <- E.
  rewrite rev_app_distr. rewrite lstrip_front.
  - rewrite rev_app_distr. cbn [rev app lstrip]. rewrite SD. cbn [rev]. now rewrite rev_involutive.
  - rewrite forallb_forall in *. intros x I. apply SB. now apply in_rev.
Qed.

(** Lines 85 and 86 of MCNPCellCard.py: what is left are the words, one blank between two of them. *)
Lemma body_words s : plain_spaces s = true -> strip (collapse s ++ [newline]) = join_sp (words s).
Proof.
  intro P. destruct (collapse_join s P) as (a & z & -> & A & Z & W).
  assert (SA : forallb is_space a = true) by (subst a; destruct s as [|c s]; [reflexivity|]; now destruct (Ascii.eqb c blank)).
  assert (SZ : forallb is_space (z ++ [newline]) = true) by (destruct Z as [-> | ->]; reflexivity).
  rewrite <- !app_assoc. assert (FW := words_are_words s). destruct (words s) as [|w ws] eqn:E.
  - rewrite (W eq_refl). unfold strip. rewrite lstrip_front by exact SA. reflexivity.
  - destruct (join_ends (w :: ws) FW) as (c & t & d & u & E1 & S1 & E2 & S2); [discriminate|].
    rewrite E2. apply (strip_middle a u c t d); auto. congruence.
Qed.

(* ------------------------------------------------------------------ *)
(** * Cells *)

(** What is written of a description is in its tokens. *)
Definition tok_text (t : rtok) : text := match t with TUnion => T ":" | TNot => T "#" | TOpen => T "(" | TClose => T ")" | TAtom s => s end.
Lemma items_toks l : flat_map item_text l = map tok_text (toks l).
Proof.
  induction l as [|i l IH]; [reflexivity|]. unfold toks in *. cbn [flat_map]. rewrite map_app, <- IH. f_equal.
  destruct i as [[| |]|s]; try reflexivity. cbn [item_text item_toks map]. unfold str_tok.
  destruct (text_eqb_spec s (T "(")) as [E|N]; [now rewrite E|]. destruct (text_eqb_spec s (T ")")) as [E|M]; [now rewrite E|reflexivity].
Qed.
Lemma words_toks l : words_of l = flat_map (fun t => match t with TAtom s => [s] | _ => [] end) (toks l).
Proof.
  induction l as [|i l IH]; [reflexivity|]. unfold toks in *. cbn [words_of flat_map] in *. rewrite flat_map_app, <- IH. unfold words_of. f_equal.
  destruct i as [[| |]|s]; try reflexivity. cbn [item_toks flat_map]. unfold is_word, str_tok.
  destruct (text_eqb_spec s (T "(")) as [E|N]; [reflexivity|]. destruct (text_eqb_spec s (T ")")) as [E|M]; reflexivity.
Qed.

Lemma body_join show c r : good_gcell show c r -> body show c = join_sp (mcnp_head (to_w show c) ++ map tok_text (toks (g_items c))).
Proof.
  intro G. assert (RB := raw_body show c r G). destruct (text_facts show c r G) as [WB _]. rewrite body_eq in WB |- *. rewrite <- items_toks, <- WB. rewrite strip_words, words_app_space_r by reflexivity.
  rewrite (proj1 (collapse_words _)). apply body_words. unfold plain_spaces. apply forallb_forall. intros x I. rewrite forallb_forall in RB. specialize (RB x I).
  revert RB. apply (body_char_facts (fun x => negb (is_space x) || Ascii.eqb x blank)); [|reflexivity]. intros y D. apply digit_plain in D as (-> & _). reflexivity.
Qed.

(** A cell that is written with the same text. *)
Definition flat (l : option (list text)) : list text := match l with Some x => x | None => [] end.
Definition cell_same (c c' : gcell) : Prop :=
  g_id c' = g_id c /\ g_mat c' = g_mat c /\ (g_mat c <> 0%Z -> g_dens c' = g_dens c) /\ toks (g_items c') = toks (g_items c) /\ spaced false (g_items c') = true /\
  g_univ c' = g_univ c /\ g_fill c' = g_fill c /\ (g_imp c' == g_imp c)%Q /\
  (g_fill c <> None -> g_offset c' = g_offset c /\ flat (g_rot c') = flat (g_rot c) /\ (g_offset c = None -> g_rot c' = None /\ g_rot c = None)).

(** Equal numbers are printed alike. *)
Definition respects (show : Q -> text) : Prop := forall a b, (a == b)%Q -> show a = show b.

Lemma same_text show c c' r b : respects show -> good_gcell show c r -> cell_same c c' -> mcnp_text b (to_w show c') = mcnp_text b (to_w show c).
Proof.
  intros RS G (E1 & E2 & E3 & E4 & E5 & E6 & E7 & E8 & E9). unfold mcnp_text. f_equal.
  - change (body show c' = body show c). rewrite (body_join show c r G).
    set (c2 := mkG (g_id c') (g_mat c') (g_dens c') (g_text c') (g_items c') (g_univ c) (g_fill c) (g_offset c) (g_rot c) (g_imp c)).
    assert (G2 : good_gcell show c2 r).
    { destruct G as (G1 & G2 & G3 & G4 & G5 & G6 & G7 & G8). unfold good_gcell, c2. cbn [g_id g_mat g_dens g_items g_univ g_fill g_offset g_rot g_imp].
      rewrite E1, E2, E4, words_toks, E4, <- words_toks. do 3 (split; [assumption|]). split; [intro M; rewrite E3 by exact M; auto|]. tauto. }
    change (body show c') with (body show c2). rewrite (body_join show c2 r G2). f_equal. f_equal; [|unfold c2; cbn [g_items]; now rewrite E4].
    unfold mcnp_head, c2, to_w. cbn [g_id g_mat g_dens w_id w_mat w_dens]. rewrite E1, E2. destruct (Z.eqb_spec (g_mat c) 0) as [Z|Z]; [reflexivity|]. now rewrite E3.
  - f_equal. unfold mcnp_keywords, to_w. cbn [w_univ w_fill w_offset w_rot w_imp]. rewrite E6, E7, (RS _ _ E8). f_equal. f_equal.
    destruct (g_fill c) as [f|]; [|reflexivity]. destruct E9 as (E9 & E10 & E11); [discriminate|]. rewrite E9. destruct (g_offset c) as [o|].
    + do 3 f_equal. unfold flat in E10. destruct (g_rot c') as [l|], (g_rot c) as [l'|]; subst; reflexivity.
    + destruct (E11 eq_refl) as [-> ->]. reflexivity.
Qed.

Lemma same_written show c c' r fuel b : respects show -> good_gcell show c r -> cell_same c c' -> write_mcnp_cell fuel b (to_w show c') = write_mcnp_cell fuel b (to_w show c).
Proof. intros RS G S. unfold write_mcnp_cell. now rewrite (same_text show c c' r b RS G S). Qed.

(* ------------------------------------------------------------------ *)
(** * Surfaces *)

(** Only the boundary condition differs, and neither is printed. *)
Definition surface_same (s s' : surface) : Prop :=
  s_id s' = s_id s /\ s_type s' = s_type s /\ PropSurfOut.card_parts s' = PropSurfOut.card_parts s /\ (s_bc s' = TRANSMISSION \/ s_bc s' = VACUUM).

Lemma same_card str s s' sn : good_surface str s sn -> s_bc s = TRANSMISSION \/ s_bc s = VACUUM -> surface_same s s' -> mcnp_surface_text str s' = mcnp_surface_text str s.
Proof.
  intros (E & NS & _) B (S1 & S2 & S3 & S4). destruct (PropSurfOut.mcnp_form str s sn E NS) as (m & vals & _ & _ & _ & _ & _ & _ & _ & _ & _ & _ & _ & _ & _ & CP).
  unfold mcnp_surface_text. rewrite S1. rewrite (PropSurfOut.parts_body str s m vals CP). rewrite CP in S3. rewrite (PropSurfOut.parts_body str s' m vals S3).
  destruct B as [-> | ->], S4 as [-> | ->]; reflexivity.
Qed.

(** Surfaces with the same card have the same general form. *)
Lemma same_general s s' sn sn' g : surf_sense s = Some sn -> surf_sense s' = Some sn' -> PropSurfOut.card_parts s <> None -> surface_same s s' -> SurfModel.generalise s = Some g ->
  exists g', SurfModel.generalise s' = Some g' /\ s_type g' = s_type g /\ s_coef g' = s_coef g.
Proof.
  intros N1 N2 N (S1 & S2 & S3 & _) E. destruct s as [i tr ty l bc], s' as [i' tr' ty' l' bc']. cbn [s_id s_type] in *. subst i' ty'.
  unfold PropSurfOut.card_parts in *. unfold SurfModel.generalise in *. cbn [s_type s_coef] in *.
  destruct ty; try contradiction;
    repeat (match goal with N : match ?x with [] => _ | _ :: _ => _ end <> None |- _ => destruct x; try contradiction end);
    repeat (match type of S3 with match ?x with [] => _ | _ :: _ => _ end = _ => destruct x; try discriminate S3 end);
    injection S3; intros; subst; cbn in E; injection E as <-;
    try (destruct l; [|discriminate N1]; destruct l'; [|discriminate N2]); eexists; (split; [reflexivity|]); split; reflexivity.
Qed.

(** Two surfaces are duplicates (SurfaceCard.py 77-103). *)
Definition coincide (s s' : surface) : Prop :=
  exists g g', SurfModel.generalise s = Some g /\ SurfModel.generalise s' = Some g' /\ s_type g = s_type g' /\
    (s_coef g = s_coef g' \/ s_coef g = map (fun i => i * -1)%R (s_coef g')).
Definition distinct (l : list surface) : Prop :=
  forall i j s s', i <> j -> nth_error l i = Some s -> nth_error l j = Some s' -> ~ coincide s s'.

Lemma entries_nth l : forall n es, entries n l = Some es -> forall e, In e es -> exists i, e_ix e = n + i /\ nth_error l i = Some (e_org e).
Proof.
  induction l as [|s l IH]; intros n es; cbn [entries].
  - intro H. injection H as <-. intros e [].
  - destruct (SurfModel.generalise s) as [g|] eqn:G; [|discriminate].
    destruct (entries (S n) l) as [es'|] eqn:E; [|discriminate]. intro H. injection H as <-. intros e [<-|I].
    + exists 0. cbn [e_ix e_org]. split; [lia|reflexivity].
    + destruct (IH _ _ E e I) as (i & A & B). exists (S i). split; [lia|exact B].
Qed.

Lemma no_dups l es : entries 0 l = Some es -> distinct l -> find_dups es = [].
Proof.
  intros E D. destruct (PropDedupe.entries_ok _ _ _ E) as (_ & G & X).
  assert (U : DedupeProofs.uniq es) by (unfold DedupeProofs.uniq; rewrite X; apply seq_NoDup).
  destruct (find_dups es) as [|[k [t r]] ds] eqn:F; [reflexivity|]. exfalso.
  destruct (DedupeProofs.dups_facts es k t r U) as (IK & IT & S & _ & N); [rewrite F; now left|].
  destruct (entries_nth _ _ _ E k IK) as (i & EI & NI). destruct (entries_nth _ _ _ E t IT) as (j & EJ & NJ).
  apply (D i j (e_org k) (e_org t)); [lia|exact NI|exact NJ|].
  assert (S' : DedupeProofs.sameb t k <> None) by congruence. apply DedupeProofs.sameb_iff in S' as [T1 T2].
  exists (e_gen k), (e_gen t). split; [now apply G|]. split; [now apply G|]. split; [exact T1|].
  destruct T2 as [T2|T2]; [now left|right]. rewrite <- T2. cbn [reverse set_tc s_coef]. symmetry. apply DedupeProofs.rev_coefs.
Qed.

(** What [__apply_boundary_conditions] does to surfaces. *)
Definition bc_only (s s' : surface) : Prop := s' = s \/ s' = with_bc VACUUM s.
Lemma bc_only_refl l : Forall2 bc_only l l.
Proof. induction l; constructor; auto. now left. Qed.
Lemma bc_only_trans a b c : Forall2 bc_only a b -> Forall2 bc_only b c -> Forall2 bc_only a c.
Proof.
  intro F. revert c. induction F as [|x y a b H F IH]; intros c F'; inversion F' as [|? z ? ? H' F2]; subst; constructor; auto.
  unfold bc_only in *. destruct H as [-> | ->], H' as [-> | ->]; auto.
Qed.
Lemma set_vacuum_bc id l l' : set_vacuum id l = Some l' -> Forall2 bc_only l l'.
Proof.
  revert l'. induction l as [|s l IH]; intros l' H; cbn [set_vacuum] in H; [discriminate|].
  destruct (s_id s =? id)%Z; [injection H as <-; constructor; [now right|apply bc_only_refl]|].
  destruct (set_vacuum id l) as [k|]; [|discriminate]. injection H as <-. constructor; [now left|auto].
Qed.
Lemma graveyards_bc cells : forall l l', graveyards cells l = Some l' -> Forall2 bc_only l l'.
Proof.
  assert (V : forall ids l l', set_vacuums ids l = Some l' -> Forall2 bc_only l l').
  { induction ids as [|i ids IH]; intros l l' H; cbn [set_vacuums] in H; [injection H as <-; apply bc_only_refl|].
    destruct (set_vacuum i l) as [k|] eqn:E; [|discriminate]. eapply bc_only_trans; [eapply set_vacuum_bc; exact E|auto]. }
  induction cells as [|[c q] cells IH]; intros l l' H; cbn [graveyards] in H; [injection H as <-; apply bc_only_refl|].
  destruct (Qeq_bool q 0); [|auto]. destruct (set_vacuums (c_surfs c) l) as [k|] eqn:E; [|discriminate]. eapply bc_only_trans; [eapply V; exact E|auto].
Qed.

Lemma flatten_nothing l : Forall (fun s => is_macrobody s = false) l -> forall d, flatten_loop l d = Some d.
Proof. induction 1 as [|s l H F IH]; intro d; [reflexivity|]. cbn [flatten_loop]. unfold flatten_one. rewrite H. apply IH. Qed.
Lemma explode_nothing fuel l : Forall (fun c => nots_remaining (c_items c) = false) l -> forall b, explode_cells fuel b l = Done (b ++ l).
Proof.
  induction 1 as [|c l H F IH]; intro b; cbn [explode_cells]; [now rewrite app_nil_r|].
  destruct fuel; cbn [not_loop]; rewrite H, IH, <- app_assoc; reflexivity.
Qed.
Lemma filter_all {A} (f : A -> bool) l : Forall (fun x => f x = true) l -> filter f l = l.
Proof. induction 1 as [|x l H F IH]; [reflexivity|]. cbn [filter]. now rewrite H, IH. Qed.
Lemma combine_parts {A B} (l : list (A * B)) : combine (map fst l) (map snd l) = l.
Proof. induction l as [|[a b] l IH]; [reflexivity|]. cbn [map combine fst snd]. now rewrite IH. Qed.

(** The stages between reading and writing change nothing but boundary conditions. *)
Lemma bc_distinct surfs surfs' : Forall2 bc_only surfs surfs' -> distinct surfs -> distinct surfs'.
Proof.
  intros GY QD. intros i j s s' N I J (g & g' & G1 & G2 & G3 & G4).
    assert (P : forall k x, nth_error surfs' k = Some x -> exists y, nth_error surfs k = Some y /\ bc_only y x).
    { clear - GY. induction GY as [|y x l l' H F IH]; intros [|k] z E; cbn [nth_error] in *; try discriminate; [injection E as <-; eauto|auto]. }
    assert (GB : forall y x g, bc_only y x -> SurfModel.generalise x = Some g -> exists g', SurfModel.generalise y = Some g' /\ s_type g' = s_type g /\ s_coef g' = s_coef g).
    { clear. intros y x g [-> | ->] E; [eauto|]. destruct y as [i tr ty l bc]. unfold SurfModel.generalise, with_bc in *. cbn [s_id s_tr s_type s_coef s_bc] in *.
      destruct ty; repeat (match type of E with match ?x with [] => _ | _ :: _ => _ end = _ => destruct x; try discriminate E end); injection E as <-; eexists; repeat split. }
    destruct (P _ _ I) as (y & I' & B1). destruct (P _ _ J) as (y' & J' & B2).
    destruct (GB _ _ _ B1 G1) as (h & H1 & H2 & H3). destruct (GB _ _ _ B2 G2) as (h' & H1' & H2' & H3').
    apply (QD i j y y' N I' J'). exists h, h'. rewrite H2, H3, H2', H3'. auto.
Qed.

Lemma process_same fuel surfs cells cards quick o :
  Forall (fun s => is_macrobody s = false /\ s_tr s = None) surfs -> Forall (fun c => nots_remaining (c_items (fst c)) = false) cells ->
  (quick = true \/ distinct surfs) ->
  process fuel (mkIn surfs cells cards [] quick) = Done o -> o_cells o = cells /\ Forall2 bc_only surfs (o_surfs o).
Proof.
  intros FS FC QD E. unfold process in E. cbn [i_surfs i_cells i_cards i_imps i_quick] in E. unfold flatten_macrobodies in E. cbn [FlattenModel.d_surfs FlattenModel.d_cells] in E.
  rewrite flatten_nothing in E by (apply (Forall_impl _) with (2 := FS); tauto). cbn [FlattenModel.d_surfs FlattenModel.d_cells] in E.
  rewrite filter_all in E by (apply (Forall_impl _) with (2 := FS); intros s [-> _]; reflexivity).
  unfold explode_nots in E. rewrite explode_nothing in E by (now apply Forall_map). cbn [app] in E.
  assert (AT : mapM (apply_transform cards) surfs = Some surfs).
  { clear - FS. induction FS as [|s l [_ H] F IH]; [reflexivity|]. cbn [mapM]. unfold apply_transform at 1. rewrite H, IH. reflexivity. }
  rewrite AT, combine_parts in E. unfold apply_boundary_conditions in E. cbn [apply_importances] in E.
  destruct (graveyards cells surfs) as [surfs'|] eqn:GY; [|discriminate]. apply graveyards_bc in GY.
  destruct (bounding_coordinates surfs' _) as [bc|]; [|discriminate]. unfold finish in E. destruct quick; [injection E as <-; now split|].
  destruct QD as [QD|QD]; [discriminate|]. unfold remove_duplicates in E. destruct (entries 0 surfs') as [es|] eqn:EN; [|discriminate].
  assert (ND : find_dups es = []) by (apply (no_dups surfs' es EN); now apply (bc_distinct surfs)).
  rewrite ND in E. destruct (PropDedupe.entries_ok _ _ _ EN) as (EO & _).
  assert (RC : forall l, mapM (replace_cell []) l = Some l).
  { clear. induction l as [|c l IH]; [reflexivity|]. cbn [mapM]. rewrite IH. unfold replace_cell. cbn [replace_all]. unfold with_items. now destruct c. }
  rewrite RC, combine_parts in E. injection E as <-. cbn [o_cells o_surfs]. split; [reflexivity|].
  unfold keep. cbn [existsb negb]. rewrite filter_all by (now apply Forall_forall). now rewrite EO.
Qed.

(* ------------------------------------------------------------------ *)
(** * Materials *)

(** Materials that are written alike. *)
Definition mat_same (m m' : material) : Prop := m_num m' = m_num m /\ m_name m' = m_name m /\ same_fractions (m_comp m') (m_comp m).

Lemma same_material show m m' : respects show -> mat_same m m' -> write_mcnp_material show false true m' = write_mcnp_material show false true m.
Proof.
  intros RS (E1 & E2 & F). unfold write_mcnp_material. rewrite E1, E2.
  replace (mapM (mcnp_nuclide show false m') (m_comp m')) with (mapM (mcnp_nuclide show false m) (m_comp m)); [reflexivity|].
  induction F as [|x y a b [H1 H2] F IH]; [reflexivity|]. cbn [mapM]. rewrite IH. unfold mcnp_nuclide. now rewrite H1, (RS _ _ H2).
Qed.

Definition entry_rel (P : material -> material -> Prop) (e e' : text * material) : Prop := fst e' = fst e /\ P (snd e) (snd e').
Lemma rel_keys P (a b : dict material) : Forall2 (entry_rel P) a b -> keys b = keys a.
Proof. induction 1 as [|x y a b [H _] F IH]; [reflexivity|]. unfold keys in *. cbn [map]. now rewrite H, IH. Qed.
Lemma rel_dget P (a b : dict material) k m : Forall2 (entry_rel P) a b -> dget k a = Some m -> exists m', dget k b = Some m' /\ P m m'.
Proof.
  induction 1 as [|[k1 x] [k2 y] a b [H1 H2] F IH]; [discriminate|]. cbn [fst snd] in *. subst k2. cbn [dget]. destruct (text_eqb k1 k); [intros [= <-]; eauto|exact IH].
Qed.

(** Setting a density changes nothing that is written. *)
Definition but_dens (m m' : material) : Prop := m_num m' = m_num m /\ m_name m' = m_name m /\ m_comp m' = m_comp m.
Lemma but_dens_refl ms : Forall2 (entry_rel but_dens) ms ms.
Proof. induction ms; constructor; auto. repeat split. Qed.
Lemma but_dens_trans a b c : Forall2 (entry_rel but_dens) a b -> Forall2 (entry_rel but_dens) b c -> Forall2 (entry_rel but_dens) a c.
Proof.
  intro F. revert c. induction F as [|x y a b (H1 & H2 & H3 & H4) F IH]; intros c F'; inversion F' as [|? z ? ? (K1 & K2 & K3 & K4) F2]; subst; constructor; auto.
  repeat split; congruence.
Qed.
Lemma set_density_rel z q ms ms' : set_density z q ms = Some ms' -> Forall2 (entry_rel but_dens) ms ms'.
Proof.
  unfold set_density. destruct (dget (str_Z z) ms) as [m|] eqn:E; [|discriminate]. intro H. injection H as <-.
  induction ms as [|[k x] ms IH]; [discriminate|]. cbn [dget dset] in *. destruct (text_eqb_spec k (str_Z z)) as [K|K].
  - injection E as <-. constructor; [repeat split; cbn [fst]; auto|apply but_dens_refl].
  - constructor; [repeat split|auto].
Qed.

(** Each material number has one density. *)
Lemma one_density cs : (forall c, In c cs -> exists z, k_mat c = MInt z) ->
  (forall c c' z, In c cs -> In c' cs -> k_mat c = MInt z -> k_mat c' = MInt z -> z <> 0%Z -> (k_dens c == k_dens c')%Q) ->
  Forall (fun e => fst e <> 0%Z -> exists d, snd e = [d]) (densities cs).
Proof.
  intros AI H. unfold densities.
  assert (K : forall l acc, (forall c, In c l -> In c cs) -> Forall (fun e => fst e <> 0%Z -> exists d, snd e = [d] /\ exists c, In c cs /\ k_mat c = MInt (fst e) /\ k_dens c = d) acc ->
    Forall (fun e => fst e <> 0%Z -> exists d, snd e = [d] /\ exists c, In c cs /\ k_mat c = MInt (fst e) /\ k_dens c = d)
      (fold_left (fun l c => match k_mat c with MInt z => add_density z (k_dens c) l | MStr _ => l end) l acc)).
  { induction l as [|c l IH]; intros acc I F; [exact F|]. cbn [fold_left]. apply IH; [intros; apply I; now right|].
    assert (IC := I c (or_introl eq_refl)). destruct (k_mat c) as [z|t] eqn:EK; [|exact F]. clear IH I.
    induction F as [|[m ds] acc P F IH]; cbn [add_density].
    - constructor; [|constructor]. cbn [fst snd]. intros _. exists (k_dens c). split; [reflexivity|]. now exists c.
    - destruct (Z.eqb_spec m z) as [->|N]; [|constructor; assumption]. constructor; [|exact F]. cbn [fst snd] in *. intro NZ.
      destruct (P NZ) as (d & -> & c0 & I0 & K0 & D0). exists d. cbn [existsb]. subst d.
      assert (Q0 : Qeq_bool (k_dens c) (k_dens c0) = true) by (apply Qeq_bool_iff; now apply (H c c0 z)).
      rewrite Q0. cbn [orb]. split; [reflexivity|]. now exists c0. }
  specialize (K cs [] (fun c I => I) (Forall_nil _)). apply (Forall_impl _) with (2 := K). intros e P N. destruct (P N) as (d & E & _). now exists d.
Qed.

Lemma sort_mats_all (P : Z * list Q -> Prop) l : Forall P l -> Forall P (sort_mats l).
Proof.
  induction 1 as [|e l H F IH]; [constructor|]. cbn [sort_mats fold_right]. fold (sort_mats l). clear F. induction IH as [|x s X F IH]; cbn [insert_mat]; [now repeat constructor|].
  destruct (fst e <=? fst x)%Z; repeat constructor; auto.
Qed.

Lemma split_single show l : Forall (fun e => exists d, snd e = [d]) l -> forall ms cs ms' cs', split_materials show l ms cs = Some (ms', cs') ->
  cs' = cs /\ Forall2 (entry_rel but_dens) ms ms'.
Proof.
  induction 1 as [|[z ds] l (d & E) F IH]; intros ms cs ms' cs' H; cbn [split_materials] in H; [injection H as <- <-; split; [reflexivity|apply but_dens_refl]|].
  cbn [snd] in E. subst ds. destruct (set_density z d ms) as [ms1|] eqn:S; [|discriminate]. cbn [copies] in H. apply IH in H as [-> H].
  split; [reflexivity|]. apply (but_dens_trans ms ms1); [now apply (set_density_rel z d)|exact H].
Qed.

(** A composition whose fractions add up to one and that has no elements stays as it is. *)
Definition plain_comp (c : dict Q) : Prop :=
  (Qabs (sum_q (map snd c)) == 1)%Q /\ forall e z, In e c -> py_int (fst e) = Some z -> (z mod 1000 <> 0)%Z.

Lemma finish_plain m m' : plain_comp (m_comp m) -> finish_material m = Some m' -> mat_same m m'.
Proof.
  intros [S NE] E. unfold finish_material, normalise in E. destruct (Qeq_bool _ 0 && _)%bool; [discriminate|].
  set (s := Qabs (sum_q (map snd (m_comp m)))) in *. clearbody s. set (c := map (fun e : text * Q => (fst e, (snd e / s)%Q)) (m_comp m)) in *.
  assert (X : forall rm new, explode_scan c rm new = Some (rm, new) \/ explode_scan c rm new = None).
  { unfold c. clear E c. revert NE. induction (m_comp m) as [|[k f] l IH]; intros NE rm new; [now left|]. cbn [map explode_scan fst].
    destruct (py_int k) as [z|] eqn:PK; [|now right]. destruct (Z.eqb_spec (z mod 1000) 0) as [Z|Z]; [exfalso; apply (NE (k, f) z); [now left|exact PK|exact Z]|].
    apply IH. intros e z' I. apply NE. now right. }
  unfold explode_elements in E. destruct (X [] []) as [X1|X1]; rewrite X1 in E; [|discriminate]. cbn [fold_left] in E. injection E as <-.
  unfold mat_same. cbn [m_num m_name m_comp]. repeat split. unfold same_fractions, c. clear - S. induction (m_comp m) as [|[k f] l IH]; constructor; [|exact IH].
  cbn [fst snd]. split; [reflexivity|]. rewrite S. field.
Qed.

Lemma finish_all_rel ms ms' : finish_all ms = Some ms' -> Forall2 (entry_rel (fun m m' => finish_material m = Some m')) ms ms'.
Proof.
  revert ms'. induction ms as [|[k m] ms IH]; intros ms' H; cbn [finish_all] in H; [injection H as <-; constructor|].
  destruct (finish_material m) as [m1|] eqn:F; [|discriminate]. destruct (finish_all ms) as [r|]; [|discriminate]. injection H as <-. constructor; [now split|auto].
Qed.

Lemma same_sum a b : same_fractions a b -> (sum_q (map snd a) == sum_q (map snd b))%Q.
Proof.
  intro F. unfold sum_q. assert (K : forall x y, (x == y)%Q -> (fold_left Qplus (map snd a) x == fold_left Qplus (map snd b) y)%Q); [|now apply K].
  induction F as [|e e' a b [_ H] F IH]; intros x y E; [exact E|]. cbn [map fold_left]. apply IH. now rewrite H, E.
Qed.
Lemma same_plain a b : same_fractions a b -> plain_comp b -> plain_comp a.
Proof.
  intros F [S N]. split; [now rewrite (same_sum _ _ F)|]. intros e z I P. clear S. induction F as [|x y a b [H1 H2] F IH]; [destruct I|]. destruct I as [->|I].
  - apply (N y); [now left|congruence].
  - apply IH; [intros e' z' I'; apply N; now right|exact I].
Qed.
Lemma same_fractions_trans a b c : same_fractions a b -> same_fractions b c -> same_fractions a c.
Proof.
  unfold same_fractions. intro F. revert c. induction F as [|x y a b [H1 H2] F IH]; intros c F'; inversion F' as [|? z ? ? [K1 K2] F2]; subst; constructor; auto.
  split; [congruence|]. now rewrite H2.
Qed.
Lemma same_fractions_refl a : same_fractions a a.
Proof. unfold same_fractions. induction a; constructor; auto. split; reflexivity. Qed.

(** MCNPInput.py 318-383 when there is nothing to do. *)
Lemma reorganise_same show ms cs ms' cs' : (forall c, In c cs -> exists z, k_mat c = MInt z) ->
  (forall c c' z, In c cs -> In c' cs -> k_mat c = MInt z -> k_mat c' = MInt z -> z <> 0%Z -> (k_dens c == k_dens c')%Q) ->
  ((exists c z, In c cs /\ k_mat c = MInt z /\ z <> 0%Z) -> forall k m, In (k, m) ms -> plain_comp (m_comp m)) ->
  reorganise_materials show ms cs = Some (ms', cs') -> cs' = cs /\ Forall2 (entry_rel mat_same) ms ms'.
Proof.
  intros AI OD PC E. unfold reorganise_materials in E. assert (D := one_density cs AI OD).
  set (l := filter (fun e => negb (fst e =? 0)%Z) (densities cs)) in *.
  assert (DL : Forall (fun e => exists d, snd e = [d]) l).
  { unfold l. apply Forall_forall. intros e I. apply filter_In in I as [I N]. rewrite Forall_forall in D. apply (D e I). destruct (Z.eqb_spec (fst e) 0); [discriminate|assumption]. }
  assert (LM : l <> [] -> exists c z, In c cs /\ k_mat c = MInt z /\ z <> 0%Z).
  { destruct l as [|e l'] eqn:EL; [tauto|]. intros _. assert (I : In e (densities cs)) by (apply (proj1 (filter_In (fun e => negb (fst e =? 0)%Z) e (densities cs))); fold l; rewrite EL; now left).
    assert (NZ : fst e <> 0%Z).
    { assert (I2 : In e l) by (rewrite EL; now left). unfold l in I2. apply filter_In in I2 as [_ N]. destruct (Z.eqb_spec (fst e) 0); [discriminate|assumption]. }
    assert (K : forall l0 acc, In (fst e) (map fst (fold_left (fun l c => match k_mat c with MInt z => add_density z (k_dens c) l | MStr _ => l end) l0 acc)) ->
      In (fst e) (map fst acc) \/ exists c, In c l0 /\ k_mat c = MInt (fst e)).
    { clear. induction l0 as [|c l0 IH]; intros acc I; [now left|]. cbn [fold_left] in I. apply IH in I as [I|(c' & I & K)]; [|right; exists c'; split; [now right|exact K]].
      destruct (k_mat c) as [z|t] eqn:EK; [|now left].
      assert (A : forall acc, In (fst e) (map fst (add_density z (k_dens c) acc)) -> In (fst e) (map fst acc) \/ fst e = z).
      { clear. induction acc as [|[m ds] acc IH]; cbn [add_density map fst].
        - intros [H|[]]. now right.
        - destruct (m =? z)%Z; cbn [map fst]; [now left|]. intros [H|H]; [left; now left|]. apply IH in H as [H|H]; [left; now right|now right]. }
      apply A in I as [I|I]; [now left|]. right. exists c. split; [now left|]. now rewrite I. }
    destruct (K cs []) as [[]|(c & IC & EC)]; [apply in_map; exact I|]. exists c, (fst e). auto. }
  destruct l as [|e l'] eqn:EL.
  - injection E as <- <-. split; [reflexivity|]. clear. induction ms as [|e ms IH]; constructor; [|exact IH]. repeat split. apply same_fractions_refl.
  - destruct (split_materials show (sort_mats (e :: l')) ms cs) as [[ms1 cs1]|] eqn:S; [|discriminate].
    destruct (finish_all ms1) as [ms2|] eqn:F; [|discriminate]. injection E as <- <-.
    apply split_single in S as [-> S]; [|now apply sort_mats_all]. split; [reflexivity|]. apply finish_all_rel in F.
    specialize (PC (LM ltac:(discriminate))). clear - S F PC. revert ms2 F. induction S as [|x y a b (H1 & H2 & H3 & H4) S IH]; intros ms2 F; inversion F as [|? z ? ? (K1 & K2) F2]; subst; constructor.
    + split; [congruence|]. assert (P : plain_comp (m_comp (snd y))) by (rewrite H4; apply (PC (fst x) (snd x)); left; now destruct x).
      destruct (finish_plain _ _ P K2) as (A1 & A2 & A3). rewrite H4 in A3. repeat split; [congruence|congruence|exact A3].
    + apply IH; [|exact F2]. intros k m I. apply (PC k m). now right.
Qed.

(** The names of the materials that are read. *)
Lemma added_names cards : forall ms ms', add_materials ms cards = Some ms' -> (forall k m, In (k, m) ms -> m_num m = k /\ m_name m = "M"%char :: k) ->
  forall k m, In (k, m) ms' -> m_num m = k /\ m_name m = "M"%char :: k.
Proof.
  induction cards as [|[n s] cards IH]; intros ms ms' H P; cbn [add_materials] in H; [injection H as <-; exact P|].
  destruct (add_material ms n s) as [ms1|] eqn:E; [|discriminate]. apply (IH ms1 ms' H). clear H IH.
  unfold add_material, read_mcnp_material in E. destruct (mcnp_composition s) as [[c x]|]; [|discriminate]. cbn [m_dens m_num m_name m_comp m_xs] in E.
  match type of E with Some ?d = _ => assert (E' : ms1 = d) by congruence end. subst ms1. clear E.
  assert (DS : forall (d : dict material) k v k' v', In (k', v') (dset k v d) -> In (k', v') d \/ (k' = k /\ v' = v)).
  { clear. induction d as [|[k1 v1] d IH]; intros k v k' v' I; cbn [dset] in I; [destruct I as [I|[]]; injection I as <- <-; auto|].
    destruct (text_eqb_spec k1 k) as [K|K]; destruct I as [I|I]; try (injection I as <- <-); try (left; now right); try (left; now left); auto.
    apply IH in I as [I|I]; [left; now right|now right]. }
  intros k m I. apply DS in I as [I|[-> ->]]; [now apply P|]. destruct (negb (Qle_bool 0 0)); split; reflexivity.
Qed.

(** Sorting twice. *)
Lemma text_leb_total a : forall b, text_leb a b = true \/ text_leb b a = true.
Proof.
  induction a as [|x a IH]; intros [|y b]; [now left|now left|now right|]. cbn [text_leb]. destruct (Ascii.eqb_spec x y) as [->|N].
  - destruct (Ascii.eqb_spec y y); [apply IH|contradiction].
  - destruct (Ascii.eqb_spec y x) as [E|_]; [congruence|]. destruct (N.ltb_spec (N_of_ascii x) (N_of_ascii y)); [now left|]. right.
    apply N.ltb_lt. destruct (N.eq_dec (N_of_ascii y) (N_of_ascii x)) as [E|E]; [|lia]. exfalso. apply N. rewrite <- (ascii_N_embedding x), <- (ascii_N_embedding y). now rewrite E.
Qed.
Fixpoint ascending (l : list text) : Prop := match l with [] => True | x :: r => match r with [] => True | y :: _ => text_leb x y = true end /\ ascending r end.
Lemma insert_ascending w l : ascending l -> ascending (insert_text w l).
Proof.
  induction l as [|x l IH]; intro A; [now split|]. cbn [insert_text]. destruct (text_leb w x) eqn:E; [now split|].
  assert (E' : text_leb x w = true) by (destruct (text_leb_total w x); [congruence|assumption]).
  destruct A as [A1 A2]. specialize (IH A2). cbn [ascending]. split; [|exact IH]. destruct l as [|y l]; [exact E'|]. cbn [insert_text]. destruct (text_leb w y); [exact E'|exact A1].
Qed.
Lemma sort_twice l : sort_texts (sort_texts l) = sort_texts l.
Proof.
  assert (A : ascending (sort_texts l)).
  { unfold sort_texts. induction l as [|w l IH]; [exact I|]. cbn [fold_right]. now apply insert_ascending. }
  revert A. generalize (sort_texts l). clear l. induction l as [|x l IH]; intro A; [reflexivity|]. unfold sort_texts in *. cbn [fold_right]. destruct A as [A1 A2]. rewrite IH by exact A2.
  destruct l as [|y l]; [reflexivity|]. cbn [insert_text]. now rewrite A1.
Qed.

Lemma sorted_same show a b : respects show -> sort_texts (keys b) = sort_texts (keys a) ->
  (forall k, In k (sort_texts (keys a)) -> exists m m', dget k a = Some m /\ dget k b = Some m' /\ mat_same m m') ->
  write_mcnp_materials show b = write_mcnp_materials show a.
Proof.
  intros RS E P. unfold write_mcnp_materials, sorted_materials. rewrite E. clear E. set (ks := sort_texts (keys a)) in *. clearbody ks.
  assert (K : exists l l', mapM (fun k => dget k a) ks = Some l /\ mapM (fun k => dget k b) ks = Some l' /\ Forall2 mat_same l l').
  { induction ks as [|k ks IH]; [exists [], []; repeat split; constructor|]. destruct (P k (or_introl eq_refl)) as (m & m' & G1 & G2 & S).
    destruct IH as (l & l' & E1 & E2 & F); [intros k' I; apply P; now right|]. exists (m :: l), (m' :: l'). cbn [mapM]. rewrite G1, G2, E1, E2. repeat split. now constructor. }
  destruct K as (l & l' & -> & -> & F). f_equal. unfold write_all. f_equal. induction F as [|m m' l l' S F IH]; [reflexivity|]. cbn [mapM]. now rewrite IH, (same_material show m m' RS S).
Qed.

(* ------------------------------------------------------------------ *)
(** * The deck is accepted *)

Lemma gen_surfs l : forall prev o zs, gen_loop prev l = Some (o, zs) -> forall n, In n zs -> exists w z, In (Str w) o /\ py_int w = Some z /\ Z.abs z = n.
Proof.
  induction l as [|s l IH]; intros prev o zs E n I; [discriminate|]. cbn [gen_loop] in E.
  assert (K : forall prev x, match gen_loop prev l with Some (o, z) => Some (x :: o, z) | None => None end = Some (o, zs) -> exists w z, In (Str w) o /\ py_int w = Some z /\ Z.abs z = n).
  { intros pr x H. destruct (gen_loop pr l) as [[o' z']|] eqn:G; [|discriminate]. injection H as <- <-. destruct (IH _ _ _ G n I) as (w & z & A & B). exists w, z. split; [now right|exact B]. }
  destruct (text_eqb s (T ":")); [now apply K in E|]. destruct (text_eqb s (T "#")); [now apply K in E|]. destruct (text_eqb s (T "(")); [now apply K in E|]. clear K.
  destruct (negb (item_is (T "(") prev) && negb (text_eqb s (T ")"))).
  - assert (S : In n (surf_of s) -> exists z, py_int s = Some z /\ Z.abs z = n).
    { unfold surf_of. destruct (py_int s) as [z|]; [|intros []]. intros [H|[]]. now exists z. }
    destruct l as [|s' l'] eqn:EL.
    + injection E as <- <-. destruct (S I) as (z & A). exists s, z. split; [right; now left|exact A].
    + rewrite <- EL in *. destruct (gen_loop (Str s) l) as [[o' z']|] eqn:G; [|discriminate]. injection E as <- <-. apply in_app_or in I as [I|I].
      * destruct (S I) as (z & A). exists s, z. split; [right; now left|exact A].
      * destruct (IH _ _ _ G n I) as (w & z & A & B). exists w, z. split; [right; right; exact A|exact B].
  - destruct l as [|s' l'] eqn:EL; [injection E as <- <-; destruct I|]. rewrite <- EL in *.
    destruct (gen_loop (Str s) l) as [[o' z']|] eqn:G; [|discriminate]. injection E as <- <-. destruct (IH _ _ _ G n I) as (w & z & A & B). exists w, z. split; [now right|exact B].
Qed.

Lemma interpret_surfs fuel s c : interpret fuel s = Some c -> forall n, In n (c_surfs c) -> exists w z, In w (words_of (c_items c)) /\ py_int w = Some z /\ Z.abs z = n.
Proof.
  intros I n J. assert (G : exists ws, CellModel.generalise ws = Some (c_items c, c_surfs c)).
  { unfold interpret in I. destruct (drop_dollars fuel (CellModel.spacify s)) as [t|]; [|discriminate].
    destruct (words t) as [|w0 [|w1 ws]]; try discriminate. cbn [cell_of_words] in I.
    destruct (py_int w0); [|discriminate]. destruct (py_int w1) as [m|]; [|discriminate]. destruct (0 <? m)%Z.
    + destruct ws as [|w2 desc]; [discriminate|]. destruct (get_fortran_formatted_number w2); [|discriminate].
      destruct (CellModel.generalise desc) as [[its sf]|] eqn:G; [|discriminate]. injection I as <-. eauto.
    + destruct (CellModel.generalise ws) as [[its sf]|] eqn:G; [|discriminate]. injection I as <-. eauto. }
  destruct G as (ws & G). unfold CellModel.generalise in G. destruct (gen_surfs _ _ _ _ G n J) as (w & z & A & B & C). exists w, z. split; [|now split].
  unfold words_of. apply in_flat_map. exists (Str w). split; [exact A|]. unfold is_word. destruct (text_eqb_spec w (T "(")) as [E|_]; [subst; discriminate|].
  destruct (text_eqb_spec w (T ")")) as [E|_]; [subst; discriminate|]. now left.
Qed.

Lemma graveyards_total cells : forall l, (forall c q i, In (c, q) cells -> (q == 0)%Q -> In i (c_surfs c) -> In i (map s_id l)) -> exists l', graveyards cells l = Some l'.
Proof.
  assert (V : forall i l, In i (map s_id l) -> exists l', set_vacuum i l = Some l' /\ map s_id l' = map s_id l).
  { induction l as [|s l IH]; intros I; [destruct I|]. cbn [set_vacuum]. destruct (Z.eqb_spec (s_id s) i) as [E|E]; [eexists; split; reflexivity|].
    destruct I as [I|I]; [contradiction|]. destruct (IH I) as (l' & -> & M). eexists. split; [reflexivity|]. cbn [map]. now rewrite M. }
  assert (VS : forall is l, (forall i, In i is -> In i (map s_id l)) -> exists l', set_vacuums is l = Some l' /\ map s_id l' = map s_id l).
  { induction is as [|i is IH]; intros l I; [eexists; split; reflexivity|]. cbn [set_vacuums]. destruct (V i l (I i (or_introl eq_refl))) as (l1 & -> & M1).
    destruct (IH l1) as (l2 & E & M2); [intros j J; rewrite M1; apply I; now right|]. exists l2. split; [exact E|congruence]. }
  induction cells as [|[c q] cells IH]; intros l I; [eexists; reflexivity|]. cbn [graveyards]. destruct (Qeq_bool q 0) eqn:E; [|apply IH; intros c' q' i J; apply (I c' q'); now right].
  destruct (VS (c_surfs c) l) as (l1 & -> & M); [intros i J; apply (I c q i); [now left|now apply Qeq_bool_iff|exact J]|]. apply IH. intros c' q' i J. rewrite M. apply (I c' q'). now right.
Qed.

Lemma process_total fuel surfs cells cards quick :
  Forall (fun s => is_macrobody s = false /\ s_tr s = None) surfs -> Forall (fun c => nots_remaining (c_items (fst c)) = false) cells ->
  (quick = true \/ distinct surfs) -> (forall s, In s surfs -> surf_sense s <> None) ->
  (forall c q i, In (c, q) cells -> (q == 0)%Q -> In i (c_surfs c) -> In i (map s_id surfs)) ->
  exists o, process fuel (mkIn surfs cells cards [] quick) = Done o.
Proof.
  intros FS FC QD SS GI. unfold process. cbn [i_surfs i_cells i_cards i_imps i_quick]. unfold flatten_macrobodies. cbn [FlattenModel.d_surfs FlattenModel.d_cells].
  rewrite flatten_nothing by (apply (Forall_impl _) with (2 := FS); tauto). cbn [FlattenModel.d_surfs FlattenModel.d_cells].
  rewrite filter_all by (apply (Forall_impl _) with (2 := FS); intros s [-> _]; reflexivity).
  unfold explode_nots. rewrite explode_nothing by (now apply Forall_map). cbn [app].
  assert (AT : mapM (apply_transform cards) surfs = Some surfs).
  { clear - FS. induction FS as [|s l [_ H] F IH]; [reflexivity|]. cbn [mapM]. unfold apply_transform at 1. rewrite H, IH. reflexivity. }
  rewrite AT, combine_parts. unfold apply_boundary_conditions. cbn [apply_importances].
  destruct (graveyards_total cells surfs GI) as (surfs' & GY). rewrite GY. apply graveyards_bc in GY.
  assert (SS' : forall s, In s surfs' -> surf_sense s <> None).
  { clear - GY SS. induction GY as [|y x l l' H F IH]; intros s []; [subst x|apply IH; [intros s0 I0; apply SS; now right|assumption]].
    assert (N := SS y (or_introl eq_refl)). destruct H as [-> | ->]; [exact N|exact N]. }
  destruct (PropBoundary.C41_total surfs' SS') as (bc & ->). unfold finish. destruct quick; [eexists; reflexivity|].
  unfold remove_duplicates. destruct (PropDedupe.entries_total surfs') with (n := 0) as (es & EN).
  { intros s I. assert (N := SS' s I). destruct (surf_sense s) as [sn|] eqn:E; [|tauto]. now apply (PropDedupe.generalise_total s sn). }
  rewrite EN. destruct QD as [QD|QD]; [discriminate|].
  assert (ND : find_dups es = []) by (apply (no_dups surfs' es EN); now apply (bc_distinct surfs)).
  rewrite ND.
  assert (RC : forall l, mapM (replace_cell []) l = Some l).
  { clear. induction l as [|c l IH]; [reflexivity|]. cbn [mapM]. rewrite IH. unfold replace_cell. cbn [replace_all]. unfold with_items. now destruct c. }
  rewrite RC. eexists. reflexivity.
Qed.

Lemma finish_total m : plain_comp (m_comp m) -> Forall (fun e => zaid (fst e)) (m_comp m) -> exists m', finish_material m = Some m'.
Proof.
  intros [S NE] Z. unfold finish_material, normalise. destruct (Qeq_bool _ 0) eqn:E; [apply Qeq_bool_iff in E; rewrite S in E; discriminate|]. cbn [andb].
  set (s := Qabs (sum_q (map snd (m_comp m)))). clearbody s. set (c := map (fun e : text * Q => (fst e, (snd e / s)%Q)) (m_comp m)).
  assert (X : forall rm new, exists r, explode_scan c rm new = Some r).
  { unfold c. clear - Z. induction Z as [|[k f] l [K1 K2] F IH]; intros rm new; [eexists; reflexivity|]. cbn [map explode_scan fst]. cbn [fst] in K1, K2.
    rewrite (py_int_digits k K1 K2). destruct (_ =? 0)%Z; apply IH. }
  unfold explode_elements. destruct (X [] []) as ([rm new] & ->). eexists. reflexivity.
Qed.

Lemma densities_cell cs e : In e (filter (fun e => negb (fst e =? 0)%Z) (densities cs)) -> exists c, In c cs /\ k_mat c = MInt (fst e) /\ fst e <> 0%Z.
Proof.
  intro I. apply filter_In in I as [I N]. assert (NZ : fst e <> 0%Z) by (destruct (Z.eqb_spec (fst e) 0); [discriminate|assumption]).
    assert (K : forall l0 acc, In (fst e) (map fst (fold_left (fun l c => match k_mat c with MInt z => add_density z (k_dens c) l | MStr _ => l end) l0 acc)) ->
      In (fst e) (map fst acc) \/ exists c, In c l0 /\ k_mat c = MInt (fst e)).
    { clear. induction l0 as [|c l0 IH]; intros acc I; [now left|]. cbn [fold_left] in I. apply IH in I as [I|(c' & I & K)]; [|right; exists c'; split; [now right|exact K]].
      destruct (k_mat c) as [z|t] eqn:EK; [|now left].
      assert (A : forall acc, In (fst e) (map fst (add_density z (k_dens c) acc)) -> In (fst e) (map fst acc) \/ fst e = z).
      { clear. induction acc as [|[m ds] acc IH]; cbn [add_density map fst].
        - intros [H|[]]. now right.
        - destruct (m =? z)%Z; cbn [map fst]; [now left|]. intros [H|H]; [left; now left|]. apply IH in H as [H|H]; [left; now right|now right]. }
      apply A in I as [I|I]; [now left|]. right. exists c. split; [now left|]. now rewrite I. }
  destruct (K cs []) as [[]|(c & IC & EC)]; [apply in_map; exact I|]. exists c. auto.
Qed.

Lemma reorganise_total show ms cs : (forall c, In c cs -> exists z, k_mat c = MInt z) ->
  (forall c c' z, In c cs -> In c' cs -> k_mat c = MInt z -> k_mat c' = MInt z -> z <> 0%Z -> (k_dens c == k_dens c')%Q) ->
  ((exists c z, In c cs /\ k_mat c = MInt z /\ z <> 0%Z) -> forall k m, In (k, m) ms -> plain_comp (m_comp m)) ->
  (forall k m, In (k, m) ms -> Forall (fun e => zaid (fst e)) (m_comp m)) ->
  (forall c z, In c cs -> k_mat c = MInt z -> z <> 0%Z -> In (str_Z z) (keys ms)) ->
  exists ms' cs', reorganise_materials show ms cs = Some (ms', cs').
Proof.
  intros AI OD PC ZM KM. unfold reorganise_materials. assert (D := one_density cs AI OD).
  set (l := filter (fun e => negb (fst e =? 0)%Z) (densities cs)) in *.
  assert (DL : Forall (fun e => exists d, snd e = [d]) l).
  { unfold l. apply Forall_forall. intros e I. apply filter_In in I as [I N]. rewrite Forall_forall in D. apply (D e I). destruct (Z.eqb_spec (fst e) 0); [discriminate|assumption]. }
  assert (LM : forall e, In e l -> exists c, In c cs /\ k_mat c = MInt (fst e) /\ fst e <> 0%Z) by (intros e I; now apply densities_cell).
  destruct l as [|e l'] eqn:EL; [eexists; eexists; reflexivity|]. rewrite <- EL in *.
  assert (ML : exists c z, In c cs /\ k_mat c = MInt z /\ z <> 0%Z) by (destruct (LM e) as (c & A); [rewrite EL; now left|exists c, (fst e); exact A]).
  specialize (PC ML).
  assert (SM : Forall (fun e => exists d, snd e = [d] /\ In (str_Z (fst e)) (keys ms)) (sort_mats l)).
  { apply sort_mats_all. apply Forall_forall. intros x I. rewrite Forall_forall in DL. destruct (DL x I) as (d & E). exists d. split; [exact E|].
    destruct (LM x I) as (c & A & B & C). now apply (KM c). }
  assert (SP : forall l ms cs, Forall (fun e => exists d, snd e = [d] /\ In (str_Z (fst e)) (keys ms)) l -> exists ms', split_materials show l ms cs = Some (ms', cs)).
  { clear. induction l as [|[z ds] l IH]; intros ms cs F; [eexists; reflexivity|]. inversion F as [|? ? (d & E & K) F']; subst. cbn [fst snd] in *. subst ds. cbn [split_materials].
    unfold set_density. destruct (dget_key _ _ K) as (m & ->). cbn [copies]. apply IH. apply (Forall_impl _) with (2 := F'). intros e (d' & A & B). exists d'. split; [exact A|].
    apply in_keys_dset. now right. }
  destruct (SP (sort_mats l) ms cs SM) as (ms1 & E1). rewrite E1.
  apply split_single in E1 as [_ B]; [|apply (Forall_impl _) with (2 := SM); intros x (d & A & _); eauto].
  assert (FA : exists ms2, finish_all ms1 = Some ms2).
  { clear - B PC ZM. induction B as [|x y a b (H1 & H2 & H3 & H4) F IH]; [eexists; reflexivity|]. destruct x as [k0 m0], y as [k m]. cbn [fst snd] in *. cbn [finish_all].
    destruct (finish_total m) as (m' & ->); [rewrite H4; apply (PC k0 m0); now left|rewrite H4; apply (ZM k0 m0); now left|].
    destruct IH as (r & ->); [intros k1 m1 I; apply (PC k1); now right|intros k1 m1 I; apply (ZM k1); now right|]. eexists. reflexivity. }
  destruct FA as (ms2 & ->). eexists. eexists. reflexivity.
Qed.

(* ------------------------------------------------------------------ *)
(** * The deck that is read again *)

(** A deck as it is after one conversion of a file that the program wrote: nothing is left to be merged, renamed, normalised
    or exploded, and the densities are printed as Python prints them. *)
Definition settled (show : Q -> text) (quick : bool) (d : ConvertModel.deck) : Prop :=
  Forall (fun s => s_bc (fst s) = TRANSMISSION \/ s_bc (fst s) = VACUUM) (d_surfs d) /\
  (quick = true \/ distinct (map fst (d_surfs d))) /\
  (forall c q, In c (d_cells d) -> g_mat c <> 0%Z -> get_fortran_formatted_number (g_dens c) = Some q -> show q = g_dens c) /\
  (forall c c' q q', In c (d_cells d) -> In c' (d_cells d) -> g_mat c = g_mat c' -> g_mat c <> 0%Z ->
     get_fortran_formatted_number (g_dens c) = Some q -> get_fortran_formatted_number (g_dens c') = Some q' -> (q == q')%Q) /\
  (forall c, In c (d_cells d) -> g_fill c <> None -> g_offset c = None -> g_rot c = None) /\
  (forall k m, In (k, m) (d_mats d) -> (exists c, In c (d_cells d) /\ g_mat c <> 0%Z) -> plain_comp (m_comp m)).

(** The materials are called as the reader calls them (MCNPInput.py 199-205). *)
Definition called (k : text) (m : material) : material := mkM (m_num m) ("M"%char :: k) (m_dens m) (m_comp m) (m_xs m) (m_colour m).
Definition called_all (d : ConvertModel.deck) : ConvertModel.deck :=
  ConvertModel.mkDeck (d_surfs d) (d_cells d) (map (fun e => (fst e, called (fst e) (snd e))) (d_mats d)) (ConvertModel.d_univ d).
Definition named (d : ConvertModel.deck) : Prop := forall k m, In (k, m) (d_mats d) -> m_name m = "M"%char :: k.

Lemma called_keys l : keys (map (fun e => (fst e, called (fst e) (snd e))) l) = keys l.
Proof. unfold keys. rewrite map_map. reflexivity. Qed.
Lemma called_get k l m : dget k l = Some m -> dget k (map (fun e => (fst e, called (fst e) (snd e))) l) = Some (called k m).
Proof. induction l as [|[k' m'] l IH]; [discriminate|]. cbn [map dget fst snd]. destruct (text_eqb_spec k' k) as [E|N]; [intro H; injection H as ->; now rewrite E|exact IH]. Qed.
Lemma called_in k m l : In (k, m) (map (fun e => (fst e, called (fst e) (snd e))) l) -> exists m0, In (k, m0) l /\ m = called k m0.
Proof. intro I. apply in_map_iff in I as ([k0 m0] & E & I). injection E as <- <-. now exists m0. Qed.

Lemma called_named d : named d -> called_all d = d.
Proof.
  intro N. destruct d as [ss cs ms tr]. unfold called_all, named in *. cbn [d_surfs d_cells d_mats ConvertModel.d_univ] in *. f_equal.
  rewrite <- map_id. apply map_ext_in. intros [k m] I. cbn [fst snd]. f_equal. specialize (N k m I). destruct m. unfold called. cbn in *. now rewrite N.
Qed.

Lemma called_good str show d : Forall (fun e => ~ In newline (fst e)) (d_mats d) -> good_deck str show d -> good_deck str show (called_all d).
Proof.
  intros NK (GC & GS & GM & ND). split; [exact GC|]. split; [exact GS|]. unfold called_all. cbn [d_mats]. rewrite called_keys. split; [|exact ND].
  intros k m I. apply called_in in I as (m0 & I & ->). destruct (GM k m0 I) as (A & (B1 & B2 & B3) & C). split; [exact A|]. split; [|exact C].
  split; [exact B1|]. split; [|exact B3]. rewrite Forall_forall in NK. intros [H|H]; [discriminate H|]. now apply (NK (k, m0) I).
Qed.

(** The surfaces of the cells of importance zero and the materials of the cells are in the deck. *)
Definition complete (d : ConvertModel.deck) : Prop :=
  (forall c w z, In c (d_cells d) -> (g_imp c == 0)%Q -> In w (words_of (g_items c)) -> py_int w = Some z -> In (Z.abs z) (map (fun s => s_id (fst s)) (d_surfs d))) /\
  (forall c, In c (d_cells d) -> g_mat c <> 0%Z -> In (str_Z (g_mat c)) (keys (d_mats d))).

Section Again.
Context (str : R -> text) (show : Q -> text).

(** The cell in memory for a card that was read. *)
Definition again (x : cell * keywords) : gcell :=
  gcell_of str show (fst x, k_imp (snd x)) (snd x) (card_placing (snd x)) (mkC (MInt (c_mat (fst x))) (c_dens (fst x))).

Lemma gcells_again xs ts ps : Forall (fun x => k_trid (snd x) = T "0") xs -> mapM (universe_placing ts) (map snd xs) = Some ps ->
  gcells str show (map (fun x => (fst x, k_imp (snd x))) xs) (map snd xs) ps (map (fun x => mkC (MInt (c_mat (fst x))) (c_dens (fst x))) xs) = map again xs.
Proof.
  intro F. revert ps. induction F as [|x xs H F IH]; intros ps E; cbn [map mapM] in E; [injection E as <-; reflexivity|].
  unfold universe_placing at 1 in E. rewrite H in E. change (text_eqb (T "0") (T "0")) with true in E. cbv iota in E.
  destruct (mapM (universe_placing ts) (map snd xs)) as [r|]; [|discriminate]. injection E as <-. cbn [map gcells]. now rewrite IH.
Qed.

Lemma read_same c x r : good_gcell show c r -> cell_read show c x ->
  (forall q, g_mat c <> 0%Z -> get_fortran_formatted_number (g_dens c) = Some q -> show q = g_dens c) ->
  (g_fill c <> None -> g_offset c = None -> g_rot c = None) -> cell_same c (again x).
Proof.
  intros G (C1 & C2 & C3 & C4 & C5 & C6 & C7 & C8 & C9 & C10 & C11) SD SR. unfold cell_same, again, gcell_of.
  cbn [fst snd g_id g_mat g_dens g_items g_univ g_fill g_offset g_rot g_imp mat_number k_mat k_dens card_placing p_offset p_rot].
  split; [exact C1|]. split; [exact C2|]. split; [intro N; apply SD; [exact N|now apply C3]|]. split; [exact C4|]. split; [exact C11|]. split; [exact C5|]. split; [exact C6|]. split; [exact C7|].
  intro NF. destruct (g_fill c) as [f|] eqn:EF; [|tauto]. specialize (SR NF). destruct G as (_ & _ & _ & _ & _ & _ & _ & _ & _ & GO & _).
  destruct (g_offset c) as [o|].
  - destruct (GO o eq_refl) as [L _]. destruct o as [|o1 [|o2 [|o3 [|? ?]]]]; try discriminate L. clear L GO.
    assert (P : placement (Some [o1; o2; o3]) (g_rot c) = o1 :: o2 :: o3 :: flat (g_rot c)) by (unfold placement; destruct (g_rot c); reflexivity). rewrite P in C9.
    destruct (k_offset (snd x)) as [[[a b] d]|]; [|rewrite C10 in C9 by reflexivity; discriminate].
    cbn [app map] in C9. injection C9 as -> -> -> C9. split; [reflexivity|]. split; [|discriminate].
    unfold flat in *. destruct (k_rot (snd x)) as [l|]; cbn [option_map].
    + rewrite C9. rewrite !map_map. cbn [of_rotval print_unum]. apply map_id.
    + destruct (g_rot c) as [[|? ?]|]; [reflexivity|discriminate|reflexivity].
  - rewrite (SR eq_refl) in *. cbn [placement map] in C9. destruct (k_offset (snd x)) as [[[a b] d]|]; [discriminate|]. rewrite (C10 eq_refl). repeat split.
Qed.

Lemma read_nots c x r : good_gcell show c r -> cell_read show c x -> nots_remaining (c_items (fst x)) = false.
Proof.
  intros G (_ & _ & _ & C4 & _). apply NotsProofs.no_hash_done. intros s I. destruct G as (_ & _ & _ & _ & _ & _ & GW & _).
  destruct (is_word s) eqn:W.
  - assert (J : In s (words_of (g_items c))).
    { rewrite words_toks, <- C4, <- words_toks. unfold words_of. apply in_flat_map. exists (Str s). split; [exact I|]. rewrite W. now left. }
    rewrite Forall_forall in GW. destruct (GW s J) as [IW _]. unfold has_hash. destruct (existsb (Ascii.eqb "#") s) eqn:E; [|reflexivity].
    apply existsb_exists in E as (x0 & IX & EX). apply Ascii.eqb_eq in EX. subst x0. apply (int_word_chars s IW) in IX as [IX|IX]; discriminate.
  - unfold is_word in W. destruct (text_eqb_spec s (T "(")) as [E|N]; [now rewrite E|]. destruct (text_eqb_spec s (T ")")) as [E|M]; [now rewrite E|discriminate].
Qed.

Lemma surface_read_same s s' sn : good_surface str s sn -> surface_read s s' -> surface_same s s' /\ is_macrobody s' = false /\ s_tr s' = None /\ exists sn', surf_sense s' = Some sn'.
Proof.
  intros (E & NS & _) (R1 & R2 & R3 & R4 & R5 & R6). split; [repeat split; auto|]. split.
  - unfold is_macrobody. rewrite R5. unfold surf_sense in E. destruct (s_type s); try reflexivity; discriminate.
  - split; [exact R2|]. destruct (R3 sn E) as (sn' & E' & _). now exists sn'.
Qed.

Lemma same_distinct l l' : Forall2 (fun s s' => surface_same s s' /\ (s_bc s = TRANSMISSION \/ s_bc s = VACUUM) /\ PropSurfOut.card_parts s <> None /\ surf_sense s <> None /\ surf_sense s' <> None) l l' ->
  distinct l -> distinct l'.
Proof.
  intros F D i j s s' N I J (g & g' & G1 & G2 & G3 & G4).
  assert (P : forall k x, nth_error l' k = Some x -> exists y, nth_error l k = Some y /\ forall g, SurfModel.generalise x = Some g ->
    exists g', SurfModel.generalise y = Some g' /\ s_type g' = s_type g /\ s_coef g' = s_coef g).
  { clear - F. induction F as [|y x l l' ((S1 & S2 & S3 & S4) & B & CP & N1 & N2) F IH]; intros [|k] z E; cbn [nth_error] in *; try discriminate; [|auto]. injection E as <-. exists y. split; [reflexivity|].
    intros g G. destruct (surf_sense y) as [sy|] eqn:Y; [|tauto]. destruct (surf_sense x) as [sx|] eqn:X; [|tauto].
    apply (same_general x y sx sy g X Y); [congruence| |exact G]. repeat split; auto. }
  destruct (P _ _ I) as (y & I' & B1). destruct (P _ _ J) as (y' & J' & B2).
  destruct (B1 _ G1) as (h & H1 & H2 & H3). destruct (B2 _ G2) as (h' & H1' & H2' & H3').
  apply (D i j y y' N I' J'). exists h, h'. rewrite H2, H3, H2', H3'. auto.
Qed.

Lemma forall2_texts {A B} (f : A -> option text) (g : B -> option text) l l' : Forall2 (fun a b => g b = f a) l l' -> texts g l' = texts f l.
Proof. intro F. unfold texts. f_equal. induction F as [|a b l l' H F IH]; [reflexivity|]. cbn [mapM]. now rewrite H, IH. Qed.

(** The MCNP file written for a settled deck, read and written again, is the same text but for the names of the materials;
    and if the deck is complete the file is read without an exception. *)
Lemma written_again quick d : good_deck str show d -> settled show quick d -> respects show ->
  exists N t, (forall fuel, N <= fuel -> mcnp_file str show fuel d = Some t) /\
    forall f, (forall d', load str show (S f) quick t = Done d' -> forall fuel, mcnp_file str show fuel d' = mcnp_file str show fuel (called_all d)) /\
      (complete d -> exists d', load str show (S f) quick t = Done d').
Proof.
  intros G (SB & SD & S1 & S2 & S3 & S4) RS. assert (G' := G). destruct G' as (GC & GS & GM & ND).
  destruct (sorted_ok (d_mats d)) as (l & SE & SM & SI); [intros k m I; now apply GM|exact ND|].
  destruct (file_reads str show d l G) as (N & t & W & H); [rewrite SM; apply sort_perm|exact SI|].
  exists N, t. split; [intros fuel L; rewrite <- (W fuel L); unfold mcnp_file, write_mcnp_materials; now rewrite SE|].
  intro f. destruct (H f) as (p & R & RC & RSF & I0 & TR & K & M).
  assert (FS : Forall2 (fun s s' => surface_same (fst s) s' /\ is_macrobody s' = false /\ s_tr s' = None /\ surf_sense s' <> None /\
     (s_bc (fst s) = TRANSMISSION \/ s_bc (fst s) = VACUUM) /\ PropSurfOut.card_parts (fst s) <> None /\ exists sn, good_surface str (fst s) sn) (d_surfs d) (f_surfs p)).
  { clear - GS SB RSF. induction RSF as [|s s' a b X F IH]; constructor; [|inversion GS; inversion SB; subst; now apply IH]. inversion GS as [|? ? (sn & Y) _]; subst. inversion SB; subst.
    destruct (surface_read_same _ _ _ Y X) as (A1 & A2 & A3 & sn' & A4). repeat (split; [first [assumption|congruence]|]). split; [|now exists sn].
    destruct Y as (E & NS & _). destruct (PropSurfOut.mcnp_form str (fst s) sn E NS) as (m & vals & _ & _ & _ & _ & _ & _ & _ & _ & _ & _ & _ & _ & _ & CP). congruence. }
  assert (FC : Forall2 (fun c x => cell_same c (again x) /\ nots_remaining (c_items (fst x)) = false /\ k_trid (snd x) = T "0" /\ c_mat (fst x) = g_mat c /\ In c (d_cells d) /\
     (g_mat c <> 0%Z -> get_fortran_formatted_number (g_dens c) = Some (c_dens (fst x))) /\ exists r, good_gcell show c r) (d_cells d) (f_cells p)).
  { assert (IA : forall c, In c (d_cells d) -> In c (d_cells d)) by auto. revert S1 S3 IA. generalize (d_cells d) at 1 2 4 5. intros cells S1 S3. revert RC GC. generalize (f_cells p). generalize (d_cells d). clear - S1 S3. intros l xs F. induction F as [|c x a b X F IH]; intros GC IA; constructor.
    - inversion GC as [|? ? (r & Y) _]; subst. assert (IC := IA c (or_introl eq_refl)). split; [apply (read_same c x r Y X); [intros q; now apply S1|now apply S3]|]. split; [now apply (read_nots c x r)|].
      destruct X as (_ & C2 & C3 & _ & _ & _ & _ & C8 & _). repeat (split; [assumption|]). now exists r.
    - inversion GC; subst. apply IH; [assumption|]. intros c' I. apply IA. now right. }
  assert (P1 : Forall (fun s => is_macrobody s = false /\ s_tr s = None) (f_surfs p)).
  { clear - FS. induction FS as [|s s' a b (A1 & A2 & A3 & _) F IH]; constructor; auto. }
  assert (P2 : Forall (fun c => nots_remaining (c_items (fst c)) = false) (map (fun x => (fst x, k_imp (snd x))) (f_cells p))).
  { apply Forall_map. clear - FC. induction FC as [|c x a b (_ & A2 & _) F IH]; constructor; auto. }
  assert (P3 : quick = true \/ distinct (f_surfs p)).
  { destruct SD as [SD|SD]; [now left|right]. apply (same_distinct (map fst (d_surfs d))); [|exact SD]. clear - FS.
      induction FS as [|s s' a b (A1 & A2 & A3 & A4 & A5 & A6 & sn & A7) F IH]; constructor; [|exact IH]. repeat (split; [assumption|]). split; [|assumption]. destruct A7 as (E & _). congruence. }
  set (cs0 := map (fun x => mkC (MInt (c_mat (fst x))) (c_dens (fst x))) (f_cells p)).
  assert (X : forall x, In x (f_cells p) -> exists c, In c (d_cells d) /\ c_mat (fst x) = g_mat c /\ (g_mat c <> 0%Z -> get_fortran_formatted_number (g_dens c) = Some (c_dens (fst x))) /\
     toks (c_items (fst x)) = toks (g_items c) /\ (k_imp (snd x) == g_imp c)%Q).
  { clear - FC RC. revert FC RC. generalize (f_cells p). generalize (d_cells d) at 2 3. intros cells xs F. induction F as [|c x a b (_ & _ & _ & A4 & A5 & A6 & _) F IH]; intros RC y []; inversion RC as [|? ? ? ? Y RC']; subst; [|now apply IH].
    exists c. destruct Y as (_ & _ & _ & Y4 & _ & _ & Y7 & _). auto. }
  assert (M1 : forall c, In c cs0 -> exists z, k_mat c = MInt z).
  { intros c I. apply in_map_iff in I as (x & <- & _). eexists. reflexivity. }
  assert (M2 : forall c c' z, In c cs0 -> In c' cs0 -> k_mat c = MInt z -> k_mat c' = MInt z -> z <> 0%Z -> (k_dens c == k_dens c')%Q).
  { intros c c' z I I' E E' NZ. apply in_map_iff in I as (x & <- & I). apply in_map_iff in I' as (x' & <- & I'). cbn [k_mat k_dens] in *. injection E as E. injection E' as E'.
    destruct (X x I) as (c & J & N1 & D1 & _). destruct (X x' I') as (c' & J' & N1' & D1' & _).
    apply (S2 c c'); [exact J|exact J'|congruence|congruence|apply D1; congruence|apply D1'; congruence]. }
  assert (RM0 : forall k m, In (k, m) (f_mats p) -> exists m0, In (k, m0) (d_mats d) /\ same_fractions (m_comp m) (m_comp m0)).
  { intros k m IM. assert (NK : NoDup (keys (f_mats p))) by (rewrite K, SM; apply (Permutation_NoDup (Permutation_sym (sort_perm _))); exact ND).
    assert (DK : dget k (f_mats p) = Some m) by (now apply in_dget).
    assert (IK : In k (keys (d_mats d))) by (apply (Permutation_in _ (sort_perm (keys (d_mats d)))); rewrite <- SM, <- K; apply (in_map fst) in IM; exact IM).
    apply in_map_iff in IK as ([k0 m0] & E0 & IK). cbn [fst] in E0. subst k0. assert (DD : dget k (d_mats d) = Some m0) by (now apply in_dget).
    destruct (M k m0 DD) as (m1 & D1 & SF & _). rewrite DK in D1. injection D1 as <-. exists m0. split; assumption. }
  assert (M3 : (exists c z, In c cs0 /\ k_mat c = MInt z /\ z <> 0%Z) -> forall k m, In (k, m) (f_mats p) -> plain_comp (m_comp m)).
  { intros (c & z & I & E & NZ) k m IM.
    assert (HM : exists c, In c (d_cells d) /\ g_mat c <> 0%Z) by (apply in_map_iff in I as (x & <- & I); cbn [k_mat] in E; injection E as E; destruct (X x I) as (c & A & B & _); exists c; split; [exact A|congruence]).
    destruct (RM0 k m IM) as (m0 & IK & SF). apply (same_plain _ _ SF). now apply (S4 k m0 IK). }
  split.
  - intros d' LD fuel. unfold load in LD. rewrite R in LD. unfold in_memory in LD. rewrite I0 in LD. cbn [process_importances] in LD.
    destruct (process (S f) _) as [o| |] eqn:P; try discriminate.
    destruct (mapM (universe_placing (f_trans p)) (map snd (f_cells p))) as [ps|] eqn:EP; [|discriminate].
    destruct (reorganise_materials show (f_mats p) _) as [[ms cs]|] eqn:RM; [|discriminate]. injection LD as <-.
    destruct (process_same _ _ _ _ _ _ P1 P2 P3 P) as [PC PB]. rewrite PC.
    destruct (reorganise_same show _ _ _ _ M1 M2 M3 RM) as [-> RO]. unfold cs0.
    rewrite gcells_again with (ts := f_trans p) by (auto; clear - FC; induction FC as [|c x a b (_ & _ & A3 & _) F IH]; constructor; auto).
    unfold mcnp_file, called_all. cbn [d_cells d_surfs d_mats].
    assert (E1 : texts (fun c => write_mcnp_cell fuel true (to_w show c)) (map again (f_cells p)) = texts (fun c => write_mcnp_cell fuel true (to_w show c)) (d_cells d)).
    { apply forall2_texts. clear - FC RS. induction FC as [|c x a b (A1 & _ & _ & _ & _ & _ & r & A7) F IH]; cbn [map]; constructor; [|exact IH]. now apply (same_written show c (again x) r). }
    assert (E2 : texts (mcnp_surface str fuel) (map (fun s => (s, cone_box s (o_bounds o))) (o_surfs o)) = texts (mcnp_surface str fuel) (d_surfs d)).
    { apply forall2_texts. clear - FS PB. revert PB. generalize (o_surfs o). induction FS as [|s s' a b (A1 & _ & _ & _ & A5 & _ & sn & A7) F IH]; intros l PB; inversion PB as [|? s2 ? ? B1 B2]; subst; cbn [map]; constructor; [|now apply IH].
      unfold mcnp_surface. cbn [fst]. rewrite (same_card str (fst s) s2 sn A7 A5); [reflexivity|]. destruct A1 as (X1 & X2 & X3 & X4). destruct B1 as [-> | ->]; [repeat split; auto|].
      unfold with_bc. repeat split; cbn [s_id s_type s_bc]; auto. }
    assert (E3 : write_mcnp_materials show ms = write_mcnp_materials show (map (fun e => (fst e, called (fst e) (snd e))) (d_mats d))).
    { apply sorted_same; [exact RS|rewrite (rel_keys _ _ _ RO), K, SM, called_keys; apply sort_twice|]. intros k I. rewrite called_keys in I. assert (IK := Permutation_in _ (sort_perm _) I).
      apply in_map_iff in IK as ([k0 m0] & E0 & IK). cbn [fst] in E0. subst k0. assert (DD : dget k (d_mats d) = Some m0) by (now apply in_dget).
      destruct (M k m0 DD) as (m1 & D1 & SF & _). destruct (rel_dget _ _ _ _ _ RO D1) as (m2 & D2 & N1 & N2 & N3). exists (called k m0), m2. split; [now apply called_get|]. split; [exact D2|].
      assert (NM : m_num m1 = k /\ m_name m1 = "M"%char :: k).
      { unfold read_file in R. destruct (split_file t) as [pp|]; [|discriminate]. destruct (mapM (read_cell_card (S f)) (p_cells pp)) as [a1|]; [|discriminate]. destruct (mapM read_surface (p_surfs pp)) as [a2|]; [|discriminate].
        destruct (transform_list (p_trans pp) []) as [a3|]; [|discriminate]. destruct (add_materials [] (p_mats pp)) as [a4|] eqn:AM; [|discriminate]. injection R as <-. cbn [f_mats] in D1.
        apply (added_names _ _ _ AM); [intros ? ? []|]. now apply dget_some_in. }
      destruct NM as [NM1 NM2]. destruct (GM k m0 IK) as (KN & _). unfold called. repeat split; cbn [m_num m_name m_comp]; [congruence|congruence|]. now apply (same_fractions_trans _ (m_comp m1)). }
    rewrite E1, E2, E3. reflexivity.
  - intros (CS & CM). unfold load. rewrite R. unfold in_memory. rewrite I0. cbn [process_importances].
    destruct (process_total (S f) (f_surfs p) (map (fun x => (fst x, k_imp (snd x))) (f_cells p)) (fun k => dget k (f_trans p)) quick P1 P2 P3) as (o & PO).
    { clear - FS. intros s I. induction FS as [|s0 s' a b (_ & _ & _ & A4 & _) F IH]; [destruct I|]. destruct I as [<-|I]; [exact A4|auto]. }
    { intros c q i I Q0 J. apply in_map_iff in I as (x & E & I). injection E as <- <-. assert (IX : exists s, interpret (S f) s = Some (fst x)).
      { clear - R I. unfold read_file in R. destruct (split_file t) as [pp|]; [|discriminate]. destruct (mapM (read_cell_card (S f)) (p_cells pp)) as [a1|] eqn:MC; [|discriminate]. destruct (mapM read_surface (p_surfs pp)) as [a2|]; [|discriminate].
        destruct (transform_list (p_trans pp) []) as [a3|]; [|discriminate]. destruct (add_materials [] (p_mats pp)) as [a4|]; [|discriminate]. injection R as <-. cbn [f_cells] in I.
        apply PropDedupe.mapM_forall2 in MC. induction MC as [|y z a b H F IH]; [destruct I|]. destruct I as [->|I]; [|auto]. unfold read_cell_card in H.
        destruct (detect_keywords no_keywords y) as [[k r]|]; [|discriminate]. destruct (interpret (S f) r) as [c|] eqn:E; [|discriminate]. injection H as <-. exists r. exact E. }
      destruct IX as (s & IX). destruct (interpret_surfs _ _ _ IX i J) as (w & z & W1 & W2 & W3). destruct (X x I) as (c & JC & _ & _ & XT & XI).
      rewrite words_toks, XT, <- words_toks in W1. assert (Q1 : (g_imp c == 0)%Q) by (now rewrite <- XI). assert (IS := CS c w z JC Q1 W1 W2). rewrite W3 in IS.
      clear - FS IS. induction FS as [|s0 s' a b ((A1 & _) & _) F IH]; [destruct IS|]. cbn [map] in *. rewrite A1. destruct IS as [IS|IS]; [now left|right; auto]. }
    assert (PE := PO). cbv beta in PE. rewrite PE.
    destruct (mapM (universe_placing (f_trans p)) (map snd (f_cells p))) as [ps|] eqn:EP.
    2:{ exfalso. clear - EP FC. induction FC as [|c x a b (_ & _ & A3 & _) F IH]; cbn [map mapM] in EP; [discriminate|]. unfold universe_placing at 1 in EP. rewrite A3 in EP.
      change (text_eqb (T "0") (T "0")) with true in EP. cbv iota in EP. destruct (mapM (universe_placing (f_trans p)) (map snd b)); [discriminate|auto]. }
    destruct (reorganise_total show (f_mats p) cs0 M1 M2 M3) as (ms & cs & RM).
    { intros k m I. destruct (RM0 k m I) as (m0 & IK & SF). destruct (GM k m0 IK) as (_ & (_ & _ & _ & _ & GE) & _).
      clear - SF GE. induction SF as [|a b l l' [E _] F IH]; [constructor|]. inversion GE as [|? ? (Z & _) GE']; subst. constructor; [now rewrite E|auto]. }
    { intros c z I E NZ. apply in_map_iff in I as (x & <- & I). cbn [k_mat] in E. injection E as E. destruct (X x I) as (c & A & B & _). rewrite K, SM.
      apply (Permutation_in _ (Permutation_sym (sort_perm (keys (d_mats d))))). rewrite <- E, B. apply CM; [exact A|congruence]. }
    unfold cs0 in RM. rewrite RM. eexists. reflexivity.
Qed.

(** C95: the MCNP file written for a settled deck, read and written again, is the same text; and if the deck is complete the
    file is read without an exception. *)
Theorem C95_fixed quick d : good_deck str show d -> settled show quick d -> respects show -> named d ->
  exists N t, (forall fuel, N <= fuel -> mcnp_file str show fuel d = Some t) /\
    forall f, (forall d', load str show (S f) quick t = Done d' -> forall fuel, mcnp_file str show fuel d' = mcnp_file str show fuel d) /\
      (complete d -> exists d', load str show (S f) quick t = Done d').
Proof.
  intros G S RS NM. destruct (written_again quick d G S RS) as (N & t & W & H). rewrite (called_named d NM) in H. now exists N, t.
Qed.

(** C95: whatever the materials are called, what is written the second time is a fixed point. *)
Theorem C95_second quick d : good_deck str show d -> settled show quick d -> respects show -> complete d ->
  exists N t1 t2, (forall fuel, N <= fuel -> mcnp_file str show fuel d = Some t1) /\
    forall f, exists d2, load str show (S f) quick t1 = Done d2 /\ (forall fuel, N <= fuel -> mcnp_file str show fuel d2 = Some t2) /\
      exists d3, load str show (S f) quick t2 = Done d3 /\ forall fuel, N <= fuel -> mcnp_file str show fuel d3 = Some t2.
Proof.
  intros G S RS CO. assert (NK : Forall (fun e => ~ In newline (fst e)) (d_mats d)).
  { apply Forall_forall. intros [k m] I. destruct G as (_ & _ & GM & _). destruct (GM k m I) as (-> & ((_ & DG) & _) & _). cbn [fst]. intro J.
    rewrite forallb_forall in DG. specialize (DG _ J). discriminate. }
  assert (G2 := called_good str show d NK G).
  assert (S2 : settled show quick (called_all d)).
  { destruct S as (A1 & A2 & A3 & A4 & A5 & A6). repeat (split; [assumption|]). intros k m I. unfold called_all in I. cbn [d_mats] in I. apply called_in in I as (m0 & I & ->). exact (A6 k m0 I). }
  assert (N2 : named (called_all d)).
  { intros k m I. unfold called_all in I. cbn [d_mats] in I. apply called_in in I as (m0 & I & ->). reflexivity. }
  assert (C2 : complete (called_all d)) by (destruct CO as [A B]; split; [exact A|]; unfold called_all; cbn [d_mats]; rewrite called_keys; exact B).
  destruct (written_again quick d G S RS) as (N & t1 & W & H). destruct (C95_fixed quick (called_all d) G2 S2 RS N2) as (M & t2 & W2 & H2).
  exists (Nat.max N M), t1, t2. split; [intros fuel L; apply W; lia|]. intro f. destruct (H f) as [A B]. destruct (B CO) as (d2 & L2). exists d2. split; [exact L2|].
  split; [intros fuel L; rewrite (A d2 L2); apply W2; lia|]. destruct (H2 f) as [A' B']. destruct (B' C2) as (d3 & L3). exists d3. split; [exact L3|]. intros fuel L. rewrite (A' d3 L3). apply W2. lia.
Qed.
End Again.
Print Assumptions C95_fixed.
Print Assumptions C95_second.

(* ------------------------------------------------------------------ *)
(** * Examples, and what is not a fixed point *)

(** The deck of C91, with a [show] that prints its density: the file that is written is converted into itself. *)
Definition show95 (q : Q) : text := if Qeq_bool q (-78 # 10) then T "-7.8" else show_ex q.

Lemma show95_respects : respects show95.
Proof.
  intros a b E. unfold show95, show_ex. assert (X : forall c, Qeq_bool a c = Qeq_bool b c).
  { intro c. destruct (Qeq_bool a c) eqn:A, (Qeq_bool b c) eqn:B; try reflexivity; exfalso.
    - apply Qeq_bool_iff in A. apply Qeq_bool_neq in B. apply B. now rewrite <- E.
    - apply Qeq_bool_iff in B. apply Qeq_bool_neq in A. apply A. now rewrite E. }
  now rewrite !X.
Qed.

Lemma good_show str show show' d : (forall c, In c (d_cells d) -> show' (g_imp c) = show (g_imp c)) ->
  (forall k m e, In (k, m) (d_mats d) -> In e (m_comp m) -> show' (snd e) = show (snd e)) -> good_deck str show d -> good_deck str show' d.
Proof.
  intros H1 H2 (GC & GS & GM & ND). split; [|split; [exact GS|split; [|exact ND]]].
  - rewrite Forall_forall in *. intros c I. destruct (GC c I) as (r & G). exists r. unfold good_gcell in *. now rewrite (H1 c I).
  - intros k m I. destruct (GM k m I) as (A & (B1 & B2 & B3 & B4 & B5) & C). split; [exact A|]. split.
    + repeat (split; [assumption|]). rewrite Forall_forall in *. intros e J. destruct (B5 e J) as (Z & P & X). split; [exact Z|]. split; [|exact X]. unfold printed_well in *. now rewrite (H2 k m e I J).
    + rewrite Forall_forall in *. intros e J. rewrite (H2 k m e I J). now apply C.
Qed.

Lemma deck91_good95 : good_deck PropSurfOut.str01 show95 PropAgain.deck91.
Proof.
  apply (good_show _ show_ex); [| |exact PropAgain.deck91_good].
  - intros c [<-|[<-|[<-|[]]]]; vm_compute; reflexivity.
  - intros k m e [E|[]] I. injection E as <- <-. destruct I as [<-|[<-|[]]]; vm_compute; reflexivity.
Qed.

Lemma deck91_settled : settled show95 false PropAgain.deck91.
Proof.
  unfold settled. cbn [d_surfs d_cells d_mats PropAgain.deck91 map fst].
  split; [constructor; [now left|]; constructor; [now left|]; constructor; [now right|constructor]|].
  split; [right|].
  { intros i j s s' N I J (g & g' & G1 & G2 & G3 & G4).
    destruct i as [|[|[|i]]], j as [|[|[|j]]]; cbn [nth_error] in I, J; try (destruct i; discriminate); try (destruct j; discriminate); try (now apply N);
      injection I as <-; injection J as <-; cbn in G1, G2; injection G1 as <-; injection G2 as <-; cbn [s_type s_coef] in *; try discriminate;
      (destruct G4 as [G4|G4]; cbn [map] in G4; injection G4; intros; lra). }
  split.
  { intros c q [<-|[<-|[<-|[]]]] NM E; cbn [g_mat cells_ex] in NM; try tauto. vm_compute in E. injection E as <-. vm_compute. reflexivity. }
  split.
  { intros c c' q q' [<-|[<-|[<-|[]]]] [<-|[<-|[<-|[]]]] EM NM E E'; cbn [g_mat] in *; try tauto; try discriminate. rewrite E in E'. injection E' as <-. reflexivity. }
  split; [intros c [<-|[<-|[<-|[]]]]; cbn [g_fill g_offset g_rot]; intros; congruence|].
  intros k m [E|[]]. injection E as <- <-. intros _. split; [vm_compute; reflexivity|].
  intros e z [<-|[<-|[]]] E; vm_compute in E; injection E as <-; vm_compute; discriminate.
Qed.

Lemma deck91_complete : complete PropAgain.deck91.
Proof.
  split.
  - intros c w z [<-|[<-|[<-|[]]]] E; cbn [g_imp] in E; discriminate E.
  - intros c [<-|[<-|[<-|[]]]] N; cbn [g_mat] in N; try tauto. left. vm_compute. reflexivity.
Qed.

Example C95_example : exists N t, (forall fuel, N <= fuel -> mcnp_file PropSurfOut.str01 show95 fuel PropAgain.deck91 = Some t) /\
  exists d', load PropSurfOut.str01 show95 1 false t = Done d' /\ forall fuel, N <= fuel -> mcnp_file PropSurfOut.str01 show95 fuel d' = Some t.
Proof.
  destruct (C95_fixed PropSurfOut.str01 show95 false PropAgain.deck91 deck91_good95 deck91_settled show95_respects) as (N & t & W & H).
  { intros k m [E|[]]. injection E as <- <-. reflexivity. }
  exists N, t. split; [exact W|]. destruct (H 0) as [H1 H2]. destruct (H2 deck91_complete) as (d' & L). exists d'. split; [exact L|].
  intros fuel LE. rewrite (H1 d' L). now apply W.
Qed.

(** The first conversion of a file need not be one: the copy that is made of a material with two densities is called by
    where it came from, and by its number after the second conversion (MCNPInput.py 357-362, 199-205). *)
Definition fline (s : String.string) : text := T s ++ [newline].
Definition file95 : text :=
  fline "title" ++ fline "1 1 -2.0 -1 imp:n=1" ++ fline "2 1 -3.0 1 imp:n=1" ++ fline "" ++ fline "1 px 1.0" ++ fline "" ++ fline "m1 6012 1.0".
Definition str95 (_ : R) : text := T "1.0".
Definition show_two (q : Q) : text := if Qeq_bool q 1 then T "1.0" else if Qeq_bool q (-2) then T "-2.0" else T "-3.0".

Definition convert95 (t : text) : option text :=
  match load str95 show_two 1 true t with Done d => mcnp_file str95 show_two 100 d | _ => None end.

Theorem C95_once_refuted : exists t t1 t2, convert95 t = Some t1 /\ convert95 t1 = Some t2 /\ t2 <> t1.
Proof.
  exists file95. assert (E : exists t1, convert95 file95 = Some t1) by (vm_compute; eexists; reflexivity). destruct E as (t1 & E). 
  assert (E' := E). vm_compute in E'. exists t1. injection E' as E'.
  assert (F : exists t2, convert95 t1 = Some t2) by (rewrite <- E'; vm_compute; eexists; reflexivity). destruct F as (t2 & F). exists t2. split; [exact E|]. split; [exact F|].
  rewrite <- E' in F. vm_compute in F. injection F as <-. rewrite <- E'. discriminate.
Qed.
Print Assumptions C95_once_refuted.

(** What is written the second time is a fixed point for that file. *)
Example C95_twice : match convert95 file95 with
  | Some t1 => match convert95 t1 with Some t2 => convert95 t2 = Some t2 | None => False end
  | None => False end.
Proof. vm_compute. reflexivity. Qed.
