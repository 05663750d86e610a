(** C84: the whole program, from the characters of an MCNP file to what is written (csg2csg/__main__.py 74-134). *)
From Coq Require Import QArith Qabs Reals Lra Lia.
From Verif Require Import PyStr PyStrFacts PyInt PyIntFacts PyDict FortranNumber FortranNumberProofs RegionSpec RegionFacts LexSpec CellModel CellProofs
  CellText CellWriters CellWritersProofs CellWritersOut SurfModel GeomSpec SurfSpec SurfWritersProofs FlattenModel FlattenProofs NotsModel BoundaryModel
  MacroModel MaterialModel MaterialProofs MaterialWriters PropMaterial KeywordModel DeckScan FileModel PropKeyword PropDeck ProcessModel PropProcess PropRead
  OpenMCPrune PropMaterialTargets ConvertModel MainModel PropPlace PropMain PropCards.
From Verif Require PropOpenMC.
Open Scope nat_scope.
Open Scope list_scope.

(* ------------------------------------------------------------------ *)
(** * What a file says *)

(** The characters of a file are a title, cell cards, a blank line, surface cards, a blank line and data cards, among which
    there may be comments; the cards say what is listed. *)
Definition describes (s : text) (cells : list cell_says) (ss : list (card * surf_says)) (ds : list data_says) : Prop :=
  exists title noisy cs b1 b2 dd,
    file_of s (title :: noisy) /\ sub_in (T "message") title = false /\
    with_comments (flat_map (fun x => card_lines (fst x)) cs ++ b1 :: flat_map (fun x => card_lines (fst x)) ss ++ b2 ::
                   flat_map (fun x => card_lines (fst x)) dd) noisy /\
    b1 <> [] /\ spaces b1 /\ b2 <> [] /\ spaces b2 /\
    says_cells cs /\ says_surfs ss /\ says_datas dd /\
    cells = map snd cs /\ ds = map snd dd.

(** The universe of a cell, and the universes that are in the model: the one of number 0 and those that fill a cell of a
    universe that is in the model. *)
Definition in_universe (c : cell_says) (u : Z) : Prop :=
  (exists v, has_kw (KU v) (cs_keys c) /\ py_int v = Some u) \/ ((forall v, ~ has_kw (KU v) (cs_keys c)) /\ u = 0%Z).
Inductive used (cells : list cell_says) : Z -> Prop :=
| used_root : used cells 0
| used_fill c u star v tr f : In c cells -> in_universe c u -> used cells u -> has_kw (KFill star v tr) (cs_keys c) -> py_int v = Some f -> used cells f.

(** Universes have whole numbers. *)
Definition whole_universes (cells : list cell_says) : Prop :=
  forall c, In c cells -> (forall v, has_kw (KU v) (cs_keys c) -> py_int v <> None) /\
    (forall star v tr, has_kw (KFill star v tr) (cs_keys c) -> py_int v <> None).

(** Two texts of one keyword. *)
Lemma kinds_once es e1 e2 : NoDup (map kind es) -> In e1 es -> In e2 es -> kind e1 = kind e2 -> e1 = e2.
Proof.
  induction es as [|e es IH]; cbn [map]; intros ND I1 I2 E; [destruct I1|]. inversion ND as [|? ? N ND']; subst.
  destruct I1 as [->|I1], I2 as [->|I2]; [reflexivity| | |now apply IH]; exfalso; apply N.
  - rewrite E. now apply in_map.
  - rewrite <- E. now apply in_map.
Qed.

Definition once (c : cell_says) : Prop := NoDup (map kind (cs_keys c)).
Lemma fill_once c s1 v1 t1 s2 v2 t2 : once c -> has_kw (KFill s1 v1 t1) (cs_keys c) -> has_kw (KFill s2 v2 t2) (cs_keys c) -> s1 = s2 /\ v1 = v2 /\ t1 = t2.
Proof.
  intros O H1 H2. apply in_map_iff in H1 as (e1 & E1 & I1). apply in_map_iff in H2 as (e2 & E2 & I2).
  assert (E : e1 = e2) by (apply (kinds_once (cs_keys c)); auto; unfold kind; now rewrite E1, E2). subst e2. rewrite E1 in E2. now injection E2 as <- <- <-.
Qed.
Lemma univ_once c u1 u2 : once c -> in_universe c u1 -> in_universe c u2 -> u1 = u2.
Proof.
  intros O [(v1 & H1 & P1)|[N1 ->]] [(v2 & H2 & P2)|[N2 ->]]; [|now elim (N2 v1)|now elim (N1 v2)|reflexivity].
  apply in_map_iff in H1 as (e1 & E1 & I1). apply in_map_iff in H2 as (e2 & E2 & I2).
  assert (E : e1 = e2) by (apply (kinds_once (cs_keys c)); auto; unfold kind; now rewrite E1, E2). subst e2. rewrite E1 in E2. injection E2 as <-. congruence.
Qed.
Lemma says_once cs c : says_cells cs -> In c (map snd cs) -> once c.
Proof.
  intros S I. apply in_map_iff in I as (x & <- & I). unfold says_cells in S. rewrite Forall_forall in S.
  destruct (S x I) as [_ (head & tail & wid & wm & geom & _ & _ & _ & _ & ND & _)]. exact ND.
Qed.

(** A keyword is there or not. *)
Lemma has_univ c : (exists v, has_kw (KU v) (cs_keys c)) \/ forall v, ~ has_kw (KU v) (cs_keys c).
Proof.
  unfold has_kw. induction (map e_kw (cs_keys c)) as [|k l [(v & I)|N]]; [right; intros v []|left; exists v; now right|].
  destruct k as [v| | | | ]; [left; exists v; now left| | | | ]; (right; intros w [E|I]; [discriminate|now apply (N w)]).
Qed.
Lemma has_fill c : (exists s v t, has_kw (KFill s v t) (cs_keys c)) \/ forall s v t, ~ has_kw (KFill s v t) (cs_keys c).
Proof.
  unfold has_kw. induction (map e_kw (cs_keys c)) as [|k l [(s & v & t & I)|N]]; [right; intros s v t []|left; exists s, v, t; now right|].
  destruct k as [ |s v t| | | ]; [|left; exists s, v, t; now left| | | ]; (right; intros s' v' t' [E|I]; [discriminate|now apply (N s' v' t')]).
Qed.

(* ------------------------------------------------------------------ *)
(** * The deck *)

Lemma load_surfaces str show (P : surface -> Prop) fuel quick s p d :
  (forall n s x t, P s -> explode_macrobody n s = Some x -> In t (inherit s (x_surfs x)) -> P t) ->
  (forall cards s t, apply_transform cards s = Some t -> P s -> P t) -> (forall s, P s -> P (with_bc VACUUM s)) ->
  read_file fuel s = Some p -> Forall P (f_surfs p) -> load str show fuel quick s = Done d -> forall x, In x (d_surfs d) -> P (fst x).
Proof.
  intros H1 H2 H3 R F. unfold load, in_memory. rewrite R. destruct (process_importances (f_imps p)) as [imps|]; [|discriminate].
  destruct (process fuel _) as [o| |] eqn:EP; try discriminate.
  destruct (mapM (universe_placing (f_trans p)) (map snd (f_cells p))) as [ps|]; [|discriminate].
  destruct (reorganise_materials show (f_mats p) _) as [[ms cs]|]; [|discriminate]. injection 1 as <-. cbn [ConvertModel.d_surfs].
  intros x I. apply in_map_iff in I as (y & <- & I). cbn [fst]. revert y I. apply Forall_forall.
  exact (process_inv P fuel _ o H1 H2 H3 EP F).
Qed.

(** The cells of the deck are those of the file, in their order. *)
Lemma read_deck str show quick s cells ss ds rank : describes s cells ss ds -> good_cards cells (map snd ss) ds rank -> fine_cards quick (trs_of ds) ss ->
  exists N d, (forall fuel, N <= fuel -> load str show fuel quick s = Done d) /\ deck_means str show cells (map snd ss) ds d /\
    (uncut_cards ss -> forall x, In x (d_surfs d) -> ~ sheeted (fst x)) /\ Forall once cells.
Proof.
  intros (title & noisy & cs & b1 & b2 & dd & H1 & H2 & H3 & H4 & H5 & H6 & H7 & SC & SS & SD & -> & ->) G M.
  destruct (C83_cards_partial str show quick s title noisy cs b1 ss b2 dd rank) as (N & d & L & D); auto.
  exists N, d. split; [exact L|]. split; [exact D|]. split.
  - intro UC. destruct (file_read s title noisy cs b1 ss b2 dd) as (p & R & _ & _ & FS & _); auto.
    apply (load_surfaces str show (fun x => ~ sheeted x) (S N) quick s p d).
    + intros n x y t _ E I. now apply (new_surfaces n x y t).
    + intros cards x t E. now apply (transform_inv cards x t).
    + intros x H. exact H.
    + apply R.
    + now apply (cards_uncut ss).
    + apply L. lia.
  - apply Forall_forall. intros c I. now apply (says_once cs).
Qed.

(* ------------------------------------------------------------------ *)
(** * OpenMC *)

(** Numbers that can be read are words. *)
Lemma take_digits_all_of t d r : take_digits t = (d, r) -> t = d ++ r /\ forallb is_digit d = true.
Proof.
  revert d r. induction t as [|c t IH]; cbn [take_digits]; intros d r E; [injection E as <- <-; auto|].
  destruct (is_digit c) eqn:D; [|injection E as <- <-; auto]. destruct (take_digits t) as [d' r'] eqn:ET. injection E as <- <-.
  destruct (IH _ _ eq_refl) as [-> F]. cbn [app forallb]. now rewrite D.
Qed.
Lemma digits_nonspace d : forallb is_digit d = true -> nonspace d.
Proof.
  unfold nonspace. rewrite !forallb_forall. intros F c I. specialize (F c I). destruct (is_space c) eqn:S; [|reflexivity].
  apply space_not_digit in S. congruence.
Qed.
Lemma nonspace_app a b : nonspace a -> nonspace b -> nonspace (a ++ b).
Proof. unfold nonspace. rewrite forallb_app. now intros -> ->. Qed.
Lemma take_sign_of t b r : take_sign t = (b, r) -> exists g, t = g ++ r /\ nonspace g.
Proof.
  destruct t as [|c t]; cbn [take_sign]; [injection 1 as <- <-; now exists []|].
  destruct (Ascii.eqb_spec c "-") as [->|]; [injection 1 as <- <-; now exists (T "-")|].
  destruct (Ascii.eqb_spec c "+") as [->|]; [injection 1 as <- <-; now exists (T "+")|]. injection 1 as <- <-. now exists [].
Qed.
Lemma exponent_nonspace t e : parse_exponent t = Some e -> nonspace t.
Proof.
  destruct t as [|c t]; cbn [parse_exponent]; [reflexivity|]. destruct (Ascii.eqb c "e" || Ascii.eqb c "E")%bool eqn:EC; [|discriminate].
  destruct (take_sign t) as [b r] eqn:ES. destruct (take_digits r) as [d r2] eqn:ED. destruct d as [|d0 d]; [discriminate|]. destruct r2; [|discriminate]. intros _.
  destruct (take_sign_of _ _ _ ES) as (g & -> & NG). destruct (take_digits_all_of _ _ _ ED) as [-> DD]. rewrite app_nil_r.
  change (c :: g ++ d0 :: d) with ([c] ++ g ++ d0 :: d). apply nonspace_app; [|apply nonspace_app; [exact NG|now apply digits_nonspace]].
  apply orb_true_iff in EC as [E|E]; apply Ascii.eqb_eq in E; subst c; reflexivity.
Qed.
Lemma float_word t q : py_float t = Some q -> word t.
Proof.
  unfold py_float. destruct (take_sign t) as [b r] eqn:ES. destruct (take_digits r) as [ip s2] eqn:EI.
  destruct (match s2 with c :: r => if Ascii.eqb c "." then take_digits r else ([], s2) | [] => ([], []) end) as [fp s3] eqn:EF.
  destruct (ip ++ fp) as [|x l] eqn:EX; [discriminate|]. destruct (parse_exponent s3) as [e|] eqn:EE; [|discriminate]. intros _.
  destruct (take_sign_of _ _ _ ES) as (g & -> & NG). destruct (take_digits_all_of _ _ _ EI) as [-> DI]. apply exponent_nonspace in EE.
  assert (Q : nonspace s2 /\ (ip = [] -> s2 <> [])).
  { destruct s2 as [|c s2]; [injection EF as <- <-; split; [reflexivity|intros ->; discriminate]|]. destruct (Ascii.eqb_spec c ".") as [->|N].
    - destruct (take_digits_all_of _ _ _ EF) as [-> DF]. split; [|discriminate]. change ("."%char :: fp ++ s3) with (T "." ++ fp ++ s3).
      apply nonspace_app; [reflexivity|]. apply nonspace_app; [now apply digits_nonspace|exact EE].
    - injection EF as <- <-. split; [exact EE|discriminate]. }
  destruct Q as [Q1 Q2]. split; [|apply nonspace_app; [exact NG|apply nonspace_app; [now apply digits_nonspace|exact Q1]]].
  intro E. apply app_eq_nil in E as [_ E]. apply app_eq_nil in E as [E1 E2]. now apply Q2.
Qed.
Lemma shows_word str w v : (forall x, word (str x)) -> shows str w v -> word w.
Proof. intros W [H| ->]; [|apply W]. unfold to_float in H. destruct (py_float w) as [q|] eqn:E; [|discriminate]. now apply (float_word w q). Qed.

Lemma isotope_key z i a : In (i, a) (isotopes z) -> exists y b, nuclide_key (str_Z i) y b.
Proof.
  unfold isotopes. rewrite in_map_iff. intros (e & E & I). injection E as <- <-. apply filter_In in I as [I H].
  pose proof (proj1 (Forall_forall _ _) table_keys e I) as K. cbv beta zeta in K. destruct K as (K1 & K2 & K3).
  set (y := (fst e / 10000000)%Z) in *. set (b := (fst e / 10000 mod 1000)%Z) in *. exists y, b. unfold nuclide_key. split; [|lia].
  f_equal. rewrite K1. replace (y * 10000000 + b * 10000)%Z with ((1000 * y + b) * 10000)%Z by ring. now rewrite Z.div_mul by lia.
Qed.

(** A list of choices. *)
Lemma choices {A B} (P : A -> B -> Prop) l : (forall a, In a l -> exists b, P a b) -> exists l', Forall2 P l l'.
Proof.
  induction l as [|a l IH]; intro H; [exists []; constructor|]. destruct (H a (or_introl eq_refl)) as (b & Hb).
  destruct IH as (l' & F); [intros x I; apply H; now right|]. exists (b :: l'). now constructor.
Qed.

Lemma forall2_same_left {A B C} (P : A -> B -> Prop) (Q : A -> C -> Prop) (R : B -> C -> Prop) l l1 l2 :
  Forall2 P l l1 -> Forall2 Q l l2 -> (forall a b c, P a b -> Q a c -> R b c) -> Forall2 R l1 l2.
Proof. intros F. revert l2. induction F; intros l2 F2 HR; inversion F2; subst; constructor; eauto. Qed.

(** ** What an OpenMC model says *)

(** The elements of geometry.xml say: these surfaces (number, sides, boundary), then these cells (number, universe, content,
    region). *)
Definition omc_says (str : R -> text) (g : list element) (surfs : list (Z * sense * bcond)) (cells : list (Z * Z * PropOpenMC.content * region)) : Prop :=
  exists xs ys, g = xs ++ ys /\
    Forall2 (fun s x => PropOpenMC.says_surface str x (fst (fst s)) (snd (fst s)) (snd s)) surfs xs /\
    Forall2 (fun c y => PropOpenMC.says_cell y (fst (fst (fst c))) (snd (fst (fst c))) (snd (fst c)) (snd c)) cells ys.

(** Translation and rotation (no angles, or the nine numbers of the matrix) are those of a motion. *)
Definition moves (str : R -> text) (translation rotation : list text) (m : motion) : Prop :=
  Forall2 (shows str) translation [GeomSpec.px (mo m); GeomSpec.py (mo m); GeomSpec.pz (mo m)] /\
  (Forall2 (shows str) rotation (flat_map (fun r => [GeomSpec.px r; GeomSpec.py r; GeomSpec.pz r]) [r1 m; r2 m; r3 m]) \/
   (rotation = [T "0"; T "0"; T "0"] /\ r1 m = Pt 1 0 0 /\ r2 m = Pt 0 1 0 /\ r3 m = Pt 0 0 1)).

(** A material of materials.xml is that of a card with entries [es], with density [q]. *)
Definition element_says (show : Q -> text) (el : openmc_element) (n : Z) (es : list PropMaterial.entry) (q : Q) : Prop :=
  exists m, PropOpenMC.says_material show el m /\ m_num m = str_Z n /\ (m_dens m == q)%Q /\ made_of es (m_comp m).

(** The content of a cell is that of its card: the universe that fills it, moved as FILL and the TR cards say, or the
    material, or nothing. *)
Definition content_said (str : R -> text) (show : Q -> text) (ds : list data_says) (ms : list openmc_element) (c : cell_says) (k : PropOpenMC.content) : Prop :=
  (exists star v tr f m t r, has_kw (KFill star v tr) (cs_keys c) /\ py_int v = Some f /\ fill_means (trs_of ds) star tr m /\
     k = PropOpenMC.Universe f t r /\ moves str t r m) \/
  ((forall star v tr, ~ has_kw (KFill star v tr) (cs_keys c)) /\
   match cs_mat c with
   | None => k = PropOpenMC.Void
   | Some (m, q) => exists n el, k = PropOpenMC.Material n /\ In el ms /\ forall es, last_for (str_Z m) (mats_of ds) es -> element_says show el n es q
   end).

(** What is asked of the file for OpenMC: nuclides that have an OpenMC name; no material cards if no cell has a material. *)
Definition openmc_nuclides (cells : list cell_says) (ds : list data_says) : Prop :=
  forall n es, last_for n (mats_of ds) es -> (exists c, In c cells /\ cs_mat c <> None) /\
    forall z i, lists z es -> py_int z = Some i -> (i mod 1000 <> 0)%Z -> exists y b, nuclide_key z y b.

(** The deck can be written for OpenMC. *)
Lemma deck_for_openmc str show cells surfs ds d : (forall x, word (str x)) -> deck_means str show cells surfs ds d ->
  (forall x, In x (d_surfs d) -> ~ sheeted (fst x)) -> whole_universes cells -> openmc_nuclides cells ds ->
  (forall c star v tr, In c cells -> has_kw (KFill star v tr) (cs_keys c) -> exists m, fill_means (trs_of ds) star tr m) ->
  PropOpenMC.omc_deck str d.
Proof.
  intros W D NS WU ON GF. split; [exact W|]. split; [|split].
  - apply Forall_forall. intros g I. apply In_nth_error in I as (k & HG). destruct (nth_there _ _ k g (dm_count _ _ _ _ _ _ D) HG) as (c & HC).
    assert (M := dm_cells _ _ _ _ _ _ D k c g HC HG). assert (IC := nth_error_In _ _ HC). destruct (WU c IC) as [WU1 WU2].
    destruct (cm_region _ _ _ _ _ _ _ _ _ M) as (r & E & _). exists r.
    assert (FILL : (exists v m, g_fill g = Some v /\ py_int v <> None /\ motion_shown str g m) \/ (g_fill g = None /\ g_offset g = None /\ g_rot g = None)).
    { destruct (has_fill c) as [(s & v & t & H)|N]; [|right; now apply (cm_nofill _ _ _ _ _ _ _ _ _ M)]. left. destruct (GF c s v t IC H) as (m & FM).
      exists v, m. destruct (cm_fill _ _ _ _ _ _ _ _ _ M s v t m H FM) as [F1 F2]. split; [exact F1|]. split; [now apply (WU2 s v t)|exact F2]. }
    assert (SW : forall l vs, Forall2 (shows str) l vs -> length l = length vs /\ Forall word l).
    { intros l vs. induction 1 as [|x v l vs H F [IH1 IH2]]; [now split|]. cbn [length]. split; [now f_equal|]. constructor; [now apply (shows_word str x v)|exact IH2]. }
    split; [|split; [|split; [|split; [|split; [|split]]]]].
    + destruct (has_univ c) as [(v & H)|N].
      * unfold PropOpenMC.universe_is. rewrite (cm_univ _ _ _ _ _ _ _ _ _ M v H). destruct (py_int v) as [u|] eqn:EU; [now exists u|]. now elim (WU1 v H).
      * exists 0%Z. unfold PropOpenMC.universe_is. now rewrite (cm_nouniv _ _ _ _ _ _ _ _ _ M N).
    + intros f E'. destruct FILL as [(v & m & F1 & F2 & _)|(F1 & _)]; congruence.
    + intros o E'. destruct FILL as [(v & m & _ & _ & F2 & _)|(_ & F2 & _)]; rewrite E' in F2; [|discriminate]. destruct (SW _ _ F2) as [L1 L2]. now split.
    + intros o E'. destruct FILL as [(v & m & _ & _ & _ & F2)|(_ & _ & F2)]; rewrite E' in F2; [|discriminate]. destruct (SW _ _ F2) as [L1 L2]. now split.
    + apply (cm_laid _ _ _ _ _ _ _ _ _ M).
    + exact E.
    + destruct (cm_laid _ _ _ _ _ _ _ _ _ M) as [_ CN]. apply Forall_forall. intros w IW. apply in_flat_map in IW as (x & IX & IW). destruct x as [o0|s0]; [destruct IW|].
      destruct (is_word s0) eqn:EW; [|destruct IW]. destruct IW as [<-|[]]. destruct (CN s0 IX EW) as (z & ->). apply int_word_openmc, int_word_str.
  - apply Forall_forall. intros x I. destruct (dm_surfs _ _ _ _ _ _ D x I) as (_ & sn & E). exists sn. split; [exact E|]. split; [now apply NS|].
    destruct (dm_bc _ _ _ _ _ _ D x I) as [H|H]; rewrite H; split; discriminate.
  - apply Forall_forall. intros [k a] I. cbn [snd]. destruct (dm_mats _ _ _ _ _ _ D k a I) as (_ & n & es & L & MO). destruct (ON n es L) as [EX NK].
    destruct (proj1 (MO EX)) as (ND & _ & _ & _ & _ & KS). split; [exact ND|]. apply Forall_forall. intros [t q] IT. cbn [fst].
    destruct (KS t) as [(LT & i & E1 & E2)|(z & y & i & b & _ & _ & II & ->)]; [unfold keys; apply in_map_iff; now exists (t, q)| |].
    + now apply (NK t i).
    + now apply (isotope_key y i b).
Qed.

Lemma nth_errors {A} (l l' : list A) : (forall k, nth_error l k = nth_error l' k) -> l = l'.
Proof.
  revert l'. induction l as [|a l IH]; intros [|b l'] H; [reflexivity|specialize (H 0); discriminate|specialize (H 0); discriminate|].
  f_equal; [specialize (H 0); now injection H|]. apply IH. intro k. exact (H (S k)).
Qed.

(** The cells of the deck have the numbers of the cards. *)
Lemma deck_ids str show cells surfs ds d : deck_means str show cells surfs ds d -> map g_id (d_cells d) = map cs_id cells.
Proof.
  intro D. apply nth_errors. intro k. rewrite !nth_error_map. assert (L := dm_count _ _ _ _ _ _ D).
  destruct (nth_error (d_cells d) k) as [g|] eqn:HG.
  - destruct (nth_there _ _ k g L HG) as (c & HC). rewrite HC. cbn [option_map]. f_equal. exact (cm_id _ _ _ _ _ _ _ _ _ (dm_cells _ _ _ _ _ _ D k c g HC HG)).
  - apply nth_error_None in HG. replace (nth_error cells k) with (@None cell_says); [reflexivity|]. symmetry. apply nth_error_None. lia.
Qed.
Lemma nodup_filter_map {A B} (f : A -> B) p l : NoDup (map f l) -> NoDup (map f (filter p l)).
Proof.
  induction l as [|a l IH]; cbn [map filter]; intro N; [constructor|]. inversion N as [|? ? N1 N2]; subst. destruct (p a); [|now apply IH].
  cbn [map]. constructor; [|now apply IH]. intro I. apply N1. apply in_map_iff in I as (x & <- & I). apply in_map. now apply filter_In in I.
Qed.

(** C84, OpenMC: the program is given the characters of an MCNP file and asked for OpenMC.  It ends, and the model it writes
    is the one the file describes: every cell of a universe that is in the model is there once for its card, with its
    number and universe, its material (composition and density) or the universe that fills it with its motion, and its
    region contains exactly the points its card says, wherever numbers are printed exactly; there are no other cells.
    (Missing, because false or not modelled: what C76 and C83 leave out.) *)
Theorem C84_openmc_partial str show nuclide_order universe_order quick s cells ss ds rank :
  describes s cells ss ds -> good_cards cells (map snd ss) ds rank -> fine_cards quick (trs_of ds) ss -> uncut_cards ss ->
  whole_universes cells -> openmc_nuclides cells ds ->
  (forall x, word (str x)) ->
  exists N g ms srfs cls d,
    (forall fuel, N <= fuel -> program str show fuel nuclide_order universe_order quick [OPENMC] s = Done ([(OPENMC, Xml g ms)], Some d)) /\
    omc_says str g srfs cls /\ NoDup (map (fun x => fst (fst x)) srfs) /\ NoDup (map om_id ms) /\
    (NoDup (map cs_id cells) -> NoDup (map (fun x => fst (fst (fst x))) cls)) /\
    (forall c u, In c cells -> in_universe c u -> used cells u -> exists k r, In (cs_id c, u, k, r) cls /\ content_said str show ds ms c k /\
       forall p env incell, means_at cells (map snd ss) (trs_of ds) p env incell ->
       forall sense, (forall x, In x srfs -> (sense (fst (fst x)) = true <-> pos (snd (fst x)) p)) ->
       holds (zenv sense) r = incell (str_Z (cs_id c))) /\
    (forall x, In x cls -> exists c, In c cells /\ cs_id c = fst (fst (fst x)) /\ in_universe c (snd (fst (fst x)))).
Proof.
  intros DS G FW UC WU ON W.
  destruct (read_deck str show quick s cells ss ds rank DS G FW) as (N & d & L & D & NS & ON1). specialize (NS UC).
  remember (map snd ss) as surfs eqn:ESS.
  assert (OD := deck_for_openmc str show cells surfs ds d W D NS WU ON (gc_fill _ _ _ _ G)).
  destruct (PropOpenMC.C76_openmc_geometry_partial str show d OD) as (g & ms & xs & ys & keep & TR & EG & FX & FY & KP & FM).
  (* the surfaces of the model *)
  destruct (choices (fun s t => surf_sense (fst s) = Some (snd (fst t)) /\ fst (fst t) = s_id (fst s) /\ snd t = s_bc (fst s)) (d_surfs d)) as (srfs & FS).
  { intros x I. destruct (dm_surfs _ _ _ _ _ _ D x I) as (_ & sn & E). now exists (s_id (fst x), sn, s_bc (fst x)). }
  (* its cells *)
  assert (CARD : forall x, In x (d_cells d) -> exists k c, nth_error cells k = Some c /\ nth_error (d_cells d) k = Some x /\ In c cells /\ cell_means str show cells surfs ds d k c x).
  { intros x I. apply In_nth_error in I as (k & HG). destruct (nth_there _ _ k x (dm_count _ _ _ _ _ _ D) HG) as (c & HC).
    exists k, c. split; [exact HC|]. split; [exact HG|]. split; [now apply nth_error_In in HC|]. exact (dm_cells _ _ _ _ _ _ D k c x HC HG). }
  assert (UNI : forall k c x u, cell_means str show cells surfs ds d k c x -> In c cells -> (PropOpenMC.universe_is x u <-> in_universe c u)).
  { intros k c x u M IC. destruct (WU c IC) as [WU1 _]. unfold PropOpenMC.universe_is, in_universe. destruct (has_univ c) as [(v & H)|NU].
    - rewrite (cm_univ _ _ _ _ _ _ _ _ _ M v H). split; [intro E; left; now exists v|]. intros [(v' & H' & E)|[N' _]]; [|now elim (N' v)].
      assert (O : once c) by (rewrite Forall_forall in ON1; now apply ON1). destruct (py_int v) as [u'|] eqn:EU; [|now elim (WU1 v H)].
      f_equal. apply (univ_once c u' u O); left; [now exists v|now exists v'].
    - rewrite (cm_nouniv _ _ _ _ _ _ _ _ _ M NU). split; [intros ->; right; now split|]. intros [(v & H & _)|[_ E]]; [now elim (NU v)|exact E]. }
  assert (DC : forall x, In x (filter keep (d_cells d)) -> exists q : Z * Z * PropOpenMC.content * region,
    fst (fst (fst q)) = g_id x /\ PropOpenMC.universe_is x (snd (fst (fst q))) /\ PropOpenMC.content_is x (snd (fst q)) /\ expr (toks (g_items x)) (snd q) /\
    forall c, In c cells -> (exists k, cell_means str show cells surfs ds d k c x) ->
      forall p env incell, means_at cells surfs (trs_of ds) p env incell ->
      forall sense, (forall s sn, In s (d_surfs d) -> surf_sense (fst s) = Some sn -> (sense (s_id (fst s)) = true <-> pos sn p)) ->
      holds (zenv sense) (snd q) = incell (str_Z (cs_id c))).
  { intros x I. apply filter_In in I as [I _]. destruct (CARD x I) as (k & c & HC & HG & IC & M). destruct OD as (_ & FC & _). rewrite Forall_forall in FC.
    destruct (FC x I) as (r0 & (u & U) & FI & _). destruct (cm_region _ _ _ _ _ _ _ _ _ M) as (r & E & HR).
    assert (CT : exists ct, PropOpenMC.content_is x ct).
    { unfold PropOpenMC.content_is. destruct (g_fill x) as [f|] eqn:EF; [|eexists; reflexivity]. destruct (py_int f) as [z|] eqn:EZ; [|now elim (FI f eq_refl)]. eexists. eexists. split; reflexivity. }
    destruct CT as (ct & CT). exists (g_id x, u, ct, r). cbn [fst snd]. do 4 (split; [first [reflexivity|assumption]|]).
    intros c' IC' (k' & M') p env incell MA sense SE. destruct (cm_region _ _ _ _ _ _ _ _ _ M') as (r' & E' & HR').
    rewrite <- (HR' p env incell MA sense SE). now rewrite (expr_unique _ _ _ E E'). }
  destruct (choices _ _ DC) as (cls & FC). clear DC.
  exists N, g, ms, srfs, cls, d. split.
  { intros fuel HF. unfold program. rewrite (L fuel HF). cbn [run write_code]. now rewrite TR. }
  split.
  { exists xs, ys. split; [exact EG|]. split.
    - apply forall2_same_left with (1 := FS) (2 := FX). intros x t y (E1 & E2 & E3) H. rewrite E2, E3. now apply H.
    - apply forall2_same_left with (1 := FC) (2 := FY). intros x t y (E1 & E2 & E3 & E4 & _) H. rewrite E1. now apply H. }
  assert (IDS : map (fun x => fst (fst x)) srfs = map (fun s => s_id (fst s)) (d_surfs d)).
  { clear - FS. induction FS as [|x t l l' (_ & E & _) F IH]; cbn [map]; [reflexivity|]. now rewrite E, IH. }
  split; [rewrite IDS; apply (dm_ids _ _ _ _ _ _ D)|]. split.
  { assert (E : map om_id ms = map (fun e => m_num (snd e)) (d_mats d)) by (clear - FM; induction FM as [|x t l l' (E & _) F IH]; cbn [map]; [reflexivity|now rewrite E, IH]).
    rewrite E. rewrite (map_ext_in _ fst); [apply (dm_keys _ _ _ _ _ _ D)|]. intros [k a] I. cbn [fst snd]. now apply (dm_mats _ _ _ _ _ _ D k a). }
  split.
  { intro ND. assert (E : map (fun x : Z * Z * PropOpenMC.content * region => fst (fst (fst x))) cls = map g_id (filter keep (d_cells d))).
    { clear - FC. induction FC as [|x t l l' (E & _) F IH]; cbn [map]; [reflexivity|]. now rewrite E, IH. }
    rewrite E. apply nodup_filter_map. now rewrite (deck_ids _ _ _ _ _ _ D). }
  split.
  - intros c u IC IU US.
    assert (RCH : forall u, used cells u -> PropOpenMC.deck_reached (d_cells d) u).
    { clear - D G UNI WU. induction 1 as [|c u star v tr f IC IU _ IH HK EF]; [constructor|]. apply In_nth_error in IC as (k & HC).
      destruct (nth_there _ _ k c (eq_sym (dm_count _ _ _ _ _ _ D)) HC) as (x & HX). assert (M := dm_cells _ _ _ _ _ _ D k c x HC HX). assert (IC := nth_error_In _ _ HC).
      destruct (gc_fill _ _ _ _ G c star v tr IC HK) as (m & FMN). destruct (cm_fill _ _ _ _ _ _ _ _ _ M star v tr m HK FMN) as [FL _].
      apply (PropOpenMC.deck_fill (d_cells d) x u f v); [now apply nth_error_In in HX|now apply (UNI k c x u)|exact IH|exact FL|exact EF]. }
    apply In_nth_error in IC as (k & HC). destruct (nth_there _ _ k c (eq_sym (dm_count _ _ _ _ _ _ D)) HC) as (x & HX).
    assert (M := dm_cells _ _ _ _ _ _ D k c x HC HX). assert (IC := nth_error_In _ _ HC). assert (IX := nth_error_In _ _ HX).
    assert (UX : PropOpenMC.universe_is x u) by now apply (UNI k c x u).
    assert (IK : In x (filter keep (d_cells d))) by (apply filter_In; split; [exact IX|]; apply (KP x u IX UX); now apply RCH).
    destruct (forall2_in_left _ _ _ x FC IK) as ([[[id u'] ct] r] & IQ & E1 & E2 & E3 & E4 & E5). cbn [fst snd] in *.
    assert (u' = u) by (apply (univ_once c u' u); [rewrite Forall_forall in ON1; now apply ON1|now apply (UNI k c x u')|exact IU]). subst u'.
    rewrite (cm_id _ _ _ _ _ _ _ _ _ M) in E1. subst id. exists ct, r. split; [exact IQ|]. split.
    + unfold content_said. unfold PropOpenMC.content_is in E3. destruct (has_fill c) as [(star & v & tr & HK)|NF].
      * left. destruct (gc_fill _ _ _ _ G c star v tr IC HK) as (m & FMN). destruct (cm_fill _ _ _ _ _ _ _ _ _ M star v tr m HK FMN) as [FL [M1 M2]].
        rewrite FL in E3. destruct E3 as (f & EF & ->). exists star, v, tr, f, m, (PropOpenMC.three (g_offset x)), (PropOpenMC.three (g_rot x)).
        do 4 (split; [first [assumption|reflexivity]|]). unfold moves. split.
        -- destruct (g_offset x) as [o|]; [exact M1|]. rewrite M1. cbn [PropOpenMC.three GeomSpec.px GeomSpec.py GeomSpec.pz].
           assert (Z0 : shows str (T "0") 0%R) by (left; now apply whole_float). repeat (constructor; [exact Z0|]). constructor.
        -- destruct (g_rot x) as [o|]; [left; exact M2|right]. split; [reflexivity|exact M2].
      * right. split; [exact NF|]. destruct (cm_nofill _ _ _ _ _ _ _ _ _ M NF) as (FL & _). rewrite FL in E3.
        destruct (cs_mat c) as [[m q]|] eqn:EM.
        -- destruct (cm_mat _ _ _ _ _ _ _ _ _ M m q EM) as (_ & PM & a & A1 & A2 & A3 & A4). exists (g_mat x).
           destruct (Z.eqb_spec (g_mat x) 0) as [Q|_]; [lia|]. destruct (forall2_in_left _ _ _ (str_Z (g_mat x), a) FM (dget_some_in _ _ _ A1)) as (el & IE & SE). cbn [snd] in SE.
           exists el. split; [exact E3|]. split; [exact IE|]. intros es LE. exists a. destruct (A4 es LE). auto.
        -- rewrite (cm_void _ _ _ _ _ _ _ _ _ M EM) in E3. exact E3.
    + intros p env incell MA sense SE. apply (E5 c IC (ex_intro _ k M) p env incell MA). intros s0 sn IS ES.
      destruct (forall2_in_left _ _ _ s0 FS IS) as (t & IT & T1 & T2 & _). rewrite T1 in ES. injection ES as <-. rewrite <- T2. now apply SE.
  - intros [[[id u] ct] r] IQ. destruct (forall2_in_right _ _ _ _ FC IQ) as (x & IX & E1 & E2 & _). cbn [fst snd] in *. apply filter_In in IX as [IX _].
    destruct (CARD x IX) as (k & c & HC & HG & IC & M). exists c. split; [exact IC|]. split; [rewrite E1; symmetry; apply (cm_id _ _ _ _ _ _ _ _ _ M)|]. now apply (UNI k c x u).
Qed.
Print Assumptions C84_openmc_partial.

(** The file of the example of C83 for OpenMC: all four cells are there; the third is filled with universe 3, shifted by 5
    along z; the materials of the first two have the densities of their cards and natural oxygen; (1/2, 1/2, 6) is in cells 2 and 3 only. *)
Lemma describes83 : describes file83 (map snd cells83) surfs83 (map snd data83).
Proof.
  eexists _, _, cells83, [newline], [newline], data83. split; [exact file83_read|]. split; [vm_compute; reflexivity|]. split; [exact comments83|].
  split; [discriminate|]. split; [reflexivity|]. split; [discriminate|]. split; [reflexivity|]. split; [exact says_cells83|]. split; [exact says_surfs83|].
  split; [exact says_datas83|]. split; reflexivity.
Qed.
Lemma whole83 : whole_universes (map snd cells83).
Proof.
  intros c I. split; [intros v H|intros star v tr H]; cbn [map cells83 snd In] in I; destruct I as [<-|[<-|[<-|[<-|[]]]]]; cbn in H;
    try (destruct H as [H|[]]; try discriminate H; injection H; intros; subst; vm_compute; discriminate); destruct H.
Qed.
Lemma mats83 n es : last_for n (mats_of (map snd data83)) es -> n = T "1" /\ es = [Nuclide (T "8000") (T "0.5"); Nuclide (T "1001.70c") (T "1.5")].
Proof.
  intros (a & b & E & _). change (mats_of (map snd data83)) with [(T "1", [Nuclide (T "8000") (T "0.5"); Nuclide (T "1001.70c") (T "1.5")])] in E.
  destruct a as [|? a]; [now injection E as <- <- _|]. injection E as _ E. destruct a; discriminate.
Qed.
Lemma nuclides83 : openmc_nuclides (map snd cells83) (map snd data83).
Proof.
  intros n es L. destruct (mats83 n es L) as [_ ->]. split; [eexists; split; [left; reflexivity|discriminate]|]. intros z i LZ E M.
  assert (P8 : py_int (T "8000") = Some 8000%Z) by (vm_compute; reflexivity).
  destruct (lists83 z LZ) as [-> | ->]; [rewrite P8 in E; injection E as <-; now elim M|]. exists 1%Z, 1%Z. split; [vm_compute; reflexivity|lia].
Qed.
Example C84_openmc_example str show nuclide_order universe_order quick : (forall x, word (str x)) ->
  exists N g ms srfs cls d k1 k2 k3 k4 q1 q2 q3 q4,
    (forall fuel, N <= fuel -> program str show fuel nuclide_order universe_order quick [OPENMC] file83 = Done ([(OPENMC, Xml g ms)], Some d)) /\
    omc_says str g srfs cls /\ Forall (fun x => In x cls) [(1, 3, k1, q1); (2, 3, k2, q2); (3, 0, k3, q3); (4, 0, k4, q4)]%Z /\
    k4 = PropOpenMC.Void /\ (exists t r, k3 = PropOpenMC.Universe 3 t r /\ moves str t r motion7) /\
    (exists n el, k2 = PropOpenMC.Material n /\ In el ms /\ element_says show el n [Nuclide (T "8000") (T "0.5"); Nuclide (T "1001.70c") (T "1.5")] (-25 # 10)) /\
    forall sense, (forall x, In x srfs -> (sense (fst (fst x)) = true <-> pos (snd (fst x)) (Pt (1/2) (1/2) 6))) ->
      map (holds (zenv sense)) [q1; q2; q3; q4] = [false; true; true; false].
Proof.
  intro W. destruct (C84_openmc_partial str show nuclide_order universe_order quick file83 _ surfs83 _ Z.to_nat describes83 good_cards83 (fine_cards83 quick) uncut_cards83 whole83 nuclides83 W)
    as (N & g & ms & srfs & cls & d & L & S & _ & _ & _ & C & _).
  assert (U3 : used (map snd cells83) 3).
  { apply (used_fill _ (snd (nth 2 cells83 (nth 0 cells83 (mkL [] None, [], mkCS 0 None (RAtom []) [])))) 0 false (T "3") (Some (T " ", T "7"))); [right; right; now left| |constructor|now left|reflexivity].
    right. split; [|reflexivity]. intros v [H|[]]. discriminate. }
  assert (UK : forall c, cs_keys c = [mkE (T " ") (KU (T "3")) false false] -> in_universe c 3).
  { intros c E. left. exists (T "3"). rewrite E. split; [now left|reflexivity]. }
  destruct (C (mkCS 1 (Some (1%Z, (-78 # 10)%Q)) (RAnd (RAtom (T "-1")) (RAtom (T "2"))) [mkE (T " ") (KU (T "3")) false false]) 3%Z) as (k1 & q1 & I1 & _ & H1); [now left|now apply UK|exact U3|].
  destruct (C (mkCS 2 (Some (1%Z, (-25 # 10)%Q)) (RAtom (T "-2")) [mkE (T " ") (KU (T "3")) false false]) 3%Z) as (k2 & q2 & I2 & C2 & H2); [right; now left|now apply UK|exact U3|].
  destruct (C (mkCS 3 None (RAtom (T "-1")) [mkE (T " ") (KFill false (T "3") (Some (T " ", T "7"))) false false]) 0%Z) as (k3 & q3 & I3 & C3 & H3); [right; right; now left| |constructor|].
  { right. split; [|reflexivity]. intros v [H|[]]. discriminate. }
  destruct (C (mkCS 4 None (RAtom (T "#3")) []) 0%Z) as (k4 & q4 & I4 & C4 & H4); [do 3 right; now left| |constructor|].
  { right. split; [|reflexivity]. intros v []. }
  exists N, g, ms, srfs, cls, d, k1, k2, k3, k4, q1, q2, q3, q4. split; [exact L|]. split; [exact S|]. split; [now repeat constructor|].
  split; [|split; [|split]].
  - destruct C4 as [(? & ? & ? & ? & ? & ? & ? & [] & _)|[_ C4]]. exact C4.
  - destruct C3 as [(star & v & tr & f & m & t & r & [K|[]] & F & FM & -> & MV)|[NF _]]; [|exfalso; apply (NF false (T "3") (Some (T " ", T "7"))); now left].
    injection K as <- <- <-. change (py_int (T "3")) with (Some 3%Z) in F. injection F as <-. exists t, r. split; [reflexivity|].
    cbn [fill_means] in FM. revert FM. set (w := words _). vm_compute in w. subst w. cbv iota. intros [_ FM].
    assert (E : m = motion7).
    { destruct FM as (a & b & E & _). change (trs_of (map snd data83)) with [(T "7", motion7)] in E. destruct a as [|? a]; [now injection E as <- _|]. injection E as _ E. destruct a; discriminate. }
    now subst m.
  - destruct C2 as [(? & ? & ? & ? & ? & ? & ? & [K|[]] & _)|[_ (n & el & EK & IE & H)]]; [discriminate K|]. exists n, el. split; [exact EK|]. split; [exact IE|].
    apply H. exists [], []. split; [reflexivity|intros []].
  - intros sense SE. cbn [map]. rewrite (H1 _ _ _ means83 sense SE), (H2 _ _ _ means83 sense SE), (H3 _ _ _ means83 sense SE), (H4 _ _ _ means83 sense SE). vm_compute. reflexivity.
Qed.
