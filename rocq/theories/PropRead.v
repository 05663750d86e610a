(** C81: an MCNP file is read as MCNP means it, from its characters to what is in memory
    (csg2csg/Input.py 46-54, csg2csg/MCNPInput.py 1303-1345 and the constructors of the cards). *)
From Coq Require Import QArith Reals Lra Lia Psatz.
From Verif Require Import PyStr PyStrFacts PyInt PyIntFacts PyDict Formatter FormatterProofs FortranNumber FortranNumberProofs
  RegionSpec RegionFacts CellModel CellProofs CellText SurfModel GeomSpec SurfSpec SurfProofs PropSurf PropTransform
  FlattenModel NamesModel MaterialModel MaterialProofs KeywordModel DeckScan FileModel PropKeyword PropMaterial PropDeck FileProofs
  MacroModel MacroSpec MacroProofs MacroText PropMacro ProcessSpec.
From Verif Require FlattenDeck PropFlatten.
Open Scope nat_scope.
Open Scope list_scope.

(* ------------------------------------------------------------------ *)
(** * What a file says *)

(** ** Cells *)

(** A cell: its number, its material with density unless it is void, its region, its keywords. *)
Record cell_says := mkCS { cs_id : Z; cs_mat : option (Z * Q); cs_region : region; cs_keys : list PropKeyword.entry }.

(** The text of a card says so: number, material, density, geometry (in which a hash is set off from the number before
    it), and keywords, each at most once. *)
Definition says_parts (t : text) (s : cell_says) (head tail wid wm geom : text) : Prop :=
    t = kcard head (cs_keys s) tail /\ spaces tail /\ forallb geometric head = true /\
    Forall good_entry (cs_keys s) /\ NoDup (map kind (cs_keys s)) /\
    CellText.plain wid /\ CellText.plain wm /\ py_int wid = Some (cs_id s) /\
    ~ In "$"%char geom /\ hash_ok true geom = true /\ expr (mcnp_lex geom) (cs_region s) /\
    match cs_mat s with
    | Some (m, d) => py_int wm = Some m /\ (0 < m)%Z /\
        exists wd, CellText.plain wd /\ get_fortran_formatted_number wd = Some d /\ words head = wid :: wm :: wd :: words geom
    | None => py_int wm = Some 0%Z /\ words head = wid :: wm :: words geom
    end.
Definition says_cell (t : text) (s : cell_says) : Prop := exists head tail wid wm geom, says_parts t s head tail wid wm geom.
(** The same with the geometry as it is written. *)
Definition says_geom (t : text) (s : cell_says) (geom : text) : Prop := exists head tail wid wm, says_parts t s head tail wid wm geom.

(** What is in memory is what the card says. *)
Definition cell_got (s : cell_says) (x : cell * keywords) : Prop :=
  c_id (fst x) = cs_id s /\
  match cs_mat s with Some (m, d) => c_mat (fst x) = m /\ c_dens (fst x) = d | None => c_mat (fst x) = 0%Z end /\
  expr (toks (c_items (fst x))) (cs_region s) /\ spaced false (c_items (fst x)) = true /\ tight (c_items (fst x)) = true /\
  keywords_read (cs_keys s) (snd x).

(** Only the words before a comment matter. *)
Lemma interpret_words f s t : ~ In "$"%char s -> ~ In "$"%char t -> words s = words t -> interpret (S f) s = interpret (S f) t.
Proof.
  intros NS NT W. unfold interpret.
  assert (D : forall u, ~ In "$"%char u -> ~ In "$"%char (CellModel.spacify u)).
  { intros u N I. apply in_spacify in I as [I|[I|I]]; [tauto|discriminate|discriminate]. }
  rewrite !drop_dollars_none by auto. now rewrite !words_spacify, W.
Qed.

Lemma geometric_dollar s : forallb geometric s = true -> ~ In "$"%char s.
Proof. intros G I. rewrite forallb_forall in G. apply G in I. discriminate. Qed.

Lemma geometric_spaces s : spaces s -> forallb geometric s = true.
Proof.
  intro S. unfold spaces in S. rewrite forallb_forall in *. intros c I. apply S in I. unfold geometric.
  destruct (existsb (Ascii.eqb c) (T "ufivt=$*")) eqn:E; [|reflexivity]. apply existsb_exists in E as (d & J & E). apply Ascii.eqb_eq in E. subst d.
  cbn in J. repeat (destruct J as [<-|J]; [discriminate|]). destruct J.
Qed.

Lemma words_join2 a b c : CellText.plain a -> CellText.plain b -> words (a ++ blank :: b ++ blank :: c) = a :: b :: words c.
Proof.
  intros [A1 A2] [B1 B2]. rewrite words_app_space by reflexivity. rewrite words_app_space by reflexivity.
  rewrite !words_single by (assumption || now apply plain_nonspace). reflexivity.
Qed.

(** The description in memory comes from the words of the card. *)
Definition cell_kept (x : cell * keywords) : Prop :=
  FlattenDeck.cell_good (fst x) /\ CellModel.generalise (c_text (fst x)) = Some (c_items (fst x), c_surfs (fst x)).

Lemma kept f s c k r geom : ~ In "$"%char s -> interpret (S f) s = Some c -> c_text c = words (CellModel.spacify geom) ->
  hash_ok true geom = true -> expr (mcnp_lex geom) r -> cell_kept (c, k).
Proof.
  intros ND I W HO E. split; cbn [fst].
  - apply (PropFlatten.interpret_good f s c I ND). exists r. rewrite W, spacify_lex by exact HO. exact E.
  - unfold interpret in I. destruct (drop_dollars (S f) (CellModel.spacify s)) as [t|]; [|discriminate].
    destruct (words t) as [|w0 [|w1 ws]]; try discriminate. cbn [cell_of_words] in I.
    destruct (py_int w0); [|discriminate]. destruct (py_int w1) as [m|]; [|discriminate]. destruct (0 <? m)%Z.
    + destruct ws as [|w2 desc]; [discriminate|]. destruct (get_fortran_formatted_number w2); [|discriminate].
      destruct (CellModel.generalise desc) as [[its sf]|] eqn:G; [|discriminate]. injection I as <-. exact G.
    + destruct (CellModel.generalise ws) as [[its sf]|] eqn:G; [|discriminate]. injection I as <-. exact G.
Qed.

(** Without dollar signs the fuel does not matter. *)
Lemma interpret_fuel f t : ~ In "$"%char t -> interpret (S f) t = interpret 1 t.
Proof.
  intro N. unfold interpret. assert (D : ~ In "$"%char (CellModel.spacify t)) by (intro I; apply in_spacify in I as [I|[I|I]]; [tauto|discriminate|discriminate]).
  now rewrite !drop_dollars_none.
Qed.

Lemma cell_card_words t s geom : says_geom t s geom ->
  exists x, (forall f, read_cell_card (S f) t = Some x) /\ cell_got s x /\ cell_kept x /\ c_text (fst x) = words (CellModel.spacify geom).
Proof.
  intros (head & tail & wid & wm & -> & TS & HG & GE & ND & PI & PM & EI & DG & HO & EX & M).
  assert (K : exists k w, detect_keywords no_keywords (kcard head (cs_keys s) tail) = Some (k, head ++ w) /\ spaces w /\ keywords_read (cs_keys s) k).
  { destruct (cs_keys s) as [|e es] eqn:EK.
    - exists no_keywords, tail. unfold kcard. cbn [map concat app]. split; [|split; [exact TS|]].
      + apply C53_no_keywords. rewrite forallb_app, HG. now apply geometric_spaces.
      + unfold keywords_read, has_kw. cbn [map In]. repeat split; intros; try contradiction; reflexivity.
    - apply C53_keywords_partial; try assumption; [|discriminate].
      intros ->. cbn in M. destruct (cs_mat s) as [[m d]|]; [destruct M as (_ & _ & wd & _ & _ & M)|destruct M as [_ M]]; discriminate. }
  destruct K as (k & w & D & WS & KR). unfold read_cell_card. rewrite D.
  assert (DH : ~ In "$"%char (head ++ w)).
  { apply geometric_dollar. rewrite forallb_app, HG. now apply geometric_spaces. }
  assert (WH : words (head ++ w) = words head) by now apply words_app_space_r.
  enough (H : exists x, option_map (fun c => (c, k)) (interpret 1 (head ++ w)) = Some x /\ cell_got s x /\ cell_kept x /\ c_text (fst x) = words (CellModel.spacify geom)).
  { destruct H as (x & H & R). exists x. split; [|exact R]. intro f. now rewrite (interpret_fuel f _ DH). }
  destruct (cs_mat s) as [[m d]|] eqn:EM.
  - destruct M as (E1 & MP & wd & PD & ED & W).
    destruct (interpret_material wid wm wd geom _ m d _ 0 PI PM PD DG HO EI E1 MP ED EX) as (c & E & C1 & C2 & C3 & C4 & C5 & C6).
    assert (NJ : ~ In "$"%char (wid ++ blank :: wm ++ blank :: wd ++ blank :: geom)).
    { apply in_nodollar_join; [apply plain_nodollar, PI|]. apply in_nodollar_join; [apply plain_nodollar, PM|].
      apply in_nodollar_join; [apply plain_nodollar, PD|assumption]. }
    exists (c, k). rewrite (interpret_words 0 _ (wid ++ blank :: wm ++ blank :: wd ++ blank :: geom)), E; [|exact DH| |].
    + split; [reflexivity|]. split; [unfold cell_got; cbn [fst snd]; rewrite C4, EM; auto 10|].
      enough (CT : c_text c = words (CellModel.spacify geom)) by (split; [exact (kept 0 _ c k (cs_region s) geom NJ E CT HO EX)|exact CT]).
      unfold interpret in E. rewrite drop_dollars_none in E.
      2:{ intro I. apply in_spacify in I as [I|[I|I]]; try discriminate. exact (NJ I). }
      rewrite !words_plain in E by assumption. cbn [cell_of_words] in E. rewrite EI, E1, ED in E. destruct (0 <? m)%Z eqn:MZ; [|apply Z.ltb_ge in MZ; lia].
      destruct (CellModel.generalise (words (CellModel.spacify geom))) as [[its sf]|]; [|discriminate]. now injection E as <-.
    + apply in_nodollar_join; [apply plain_nodollar, PI|]. apply in_nodollar_join; [apply plain_nodollar, PM|].
      apply in_nodollar_join; [apply plain_nodollar, PD|assumption].
    + rewrite WH, W, words_join2 by assumption. do 2 f_equal. rewrite words_app_space by reflexivity.
      destruct PD as [PD1 PD2]. rewrite (words_single wd PD1) by (now apply plain_nonspace). reflexivity.
  - destruct M as (E1 & W).
    destruct (interpret_void wid wm geom _ 0 _ 0 PI PM DG HO EI E1 (Z.le_refl 0) EX) as (c & E & C1 & C2 & C4 & C5 & C6).
    assert (NJ : ~ In "$"%char (wid ++ blank :: wm ++ blank :: geom)).
    { apply in_nodollar_join; [apply plain_nodollar, PI|]. apply in_nodollar_join; [apply plain_nodollar, PM|assumption]. }
    exists (c, k). rewrite (interpret_words 0 _ (wid ++ blank :: wm ++ blank :: geom)), E; [|exact DH| |].
    + split; [reflexivity|]. split; [unfold cell_got; cbn [fst snd]; rewrite C4, EM; auto 10|].
      enough (CT : c_text c = words (CellModel.spacify geom)) by (split; [exact (kept 0 _ c k (cs_region s) geom NJ E CT HO EX)|exact CT]).
      unfold interpret in E. rewrite drop_dollars_none in E.
      2:{ intro I. apply in_spacify in I as [I|[I|I]]; try discriminate. exact (NJ I). }
      rewrite !words_plain in E by assumption. cbn [cell_of_words] in E. rewrite EI, E1 in E. change (0 <? 0)%Z with false in E. cbv iota in E.
      destruct (CellModel.generalise (words (CellModel.spacify geom))) as [[its sf]|]; [|discriminate]. now injection E as <-.
    + apply in_nodollar_join; [apply plain_nodollar, PI|]. apply in_nodollar_join; [apply plain_nodollar, PM|assumption].
    + now rewrite WH, W, words_join2.
Qed.
Lemma cell_card_kept t s : says_cell t s -> exists x, (forall f, read_cell_card (S f) t = Some x) /\ cell_got s x /\ cell_kept x.
Proof.
  intros (head & tail & wid & wm & geom & H). destruct (cell_card_words t s geom) as (x & E & C & K & _); [now exists head, tail, wid, wm|]. now exists x.
Qed.

(** ** Surfaces *)

(** What a surface card describes: two sides, or a macrobody with its facets and its inside. *)
Inductive shape := Plain (sn : sense) | Body (facets : list sense) (inside : pt -> Prop).

(** Mnemonic and entries describe so.  (A box whose edges lie along x, y and z in this order must not have an edge that
    points backwards, see C26.) *)
Inductive shaped : string -> list R -> shape -> Prop :=
| sh_plain m vals sn : mcnp_means m vals sn -> shaped m vals (Plain sn)
| sh_rpp x0 x1 y0 y1 z0 z1 :
    shaped "rpp" [x0; x1; y0; y1; z0; z1] (Body (rpp_facets x0 x1 y0 y1 z0 z1) (in_rpp x0 x1 y0 y1 z0 z1))
| sh_box v a b c : orthogonal a b c -> nonzero a -> nonzero b -> nonzero c ->
    (along_axes a b c -> 0 < px a /\ 0 < py b /\ 0 < pz c)%R ->
    shaped "box" (box_coefs v a b c) (Body (box_facets v a b c) (in_box v a b c))
| sh_rcc b h r : nonzero h ->
    shaped "rcc" [px b; py b; pz b; px h; py h; pz h; r] (Body (rcc_facets b h r) (in_rcc b h r)).

(** A surface: its number, its transform if any, and its shape. *)
Record surf_says := mkSS { ss_id : Z; ss_tr : option text; ss_shape : shape }.

(** The words of a card say so. *)
Definition says_surf (ws : list text) (s : surf_says) : Prop :=
  exists idtok m toks vals,
    py_int idtok = Some (ss_id s) /\ ~ In "*"%char idtok /\
    match ss_tr s with None => ws = idtok :: T m :: toks | Some n => ws = idtok :: n :: T m :: toks /\ py_float n <> None end /\
    reads toks vals /\ shaped m vals (ss_shape s).

(** What is in memory is what the card says. *)
Definition surf_got (s : surf_says) (x : surface) : Prop :=
  s_id x = ss_id s /\ s_tr x = ss_tr s /\
  match ss_shape s with
  | Plain sn => denotes x sn
  | Body facets inside => exists facets' inside',
      body x facets' inside' /\ Forall2 same_sense facets facets' /\ forall p, inside p <-> inside' p
  end.

Lemma same_refl a : same_sense a a.
Proof. intro p. split; reflexivity. Qed.
Lemma all_same_refl l : Forall2 same_sense l l.
Proof. induction l; constructor; auto using same_refl. Qed.

(** The facets of a box along the axes are those of a parallelepiped. *)
Lemma rpp_box_facets v a b c : along_axes a b c -> (0 < px a)%R -> (0 < py b)%R -> (0 < pz c)%R ->
  Forall2 same_sense (box_facets v a b c) (rpp_facets (px v) (px v + px a) (py v) (py v + py b) (pz v) (pz v + pz c)).
Proof.
  intros (A1 & A2 & A3 & A4 & A5 & A6) PA PB PC. unfold box_facets, rpp_facets. cbn [app].
  assert (H : forall k f g, (0 < k)%R -> (forall p, f p = k * g p)%R -> same_sense (of_fun f) (of_fun g)).
  { intros k f g K E p. unfold of_fun. cbn [neg pos]. rewrite E. split; split; intro; nra. }
  constructor; [apply (H (px a)); [exact PA|]|].
  { intro p. unfold dot, sub_pt, add_pt. cbn [px py pz]. rewrite A1, A2. ring. }
  constructor; [apply (H (px a)); [exact PA|]|].
  { intro p. unfold dot, sub_pt, add_pt. cbn [px py pz]. rewrite A1, A2. ring. }
  constructor; [apply (H (py b)); [exact PB|]|].
  { intro p. unfold dot, sub_pt, add_pt. cbn [px py pz]. rewrite A3, A4. ring. }
  constructor; [apply (H (py b)); [exact PB|]|].
  { intro p. unfold dot, sub_pt, add_pt. cbn [px py pz]. rewrite A3, A4. ring. }
  constructor; [apply (H (pz c)); [exact PC|]|].
  { intro p. unfold dot, sub_pt, add_pt. cbn [px py pz]. rewrite A5, A6. ring. }
  constructor; [apply (H (pz c)); [exact PC|]|constructor].
  intro p. unfold dot, sub_pt, add_pt. cbn [px py pz]. rewrite A5, A6. ring.
Qed.

Lemma surf_card_read t s : ~ In "$"%char t -> says_surf (words t) s -> exists x, read_surface t = Some x /\ surf_got s x.
Proof.
  intros ND (idtok & m & toks & vals & EI & NS & W & RD & M).
  assert (C : PropSurf.card_text t (ss_id s) (ss_tr s) m toks).
  { split; [exact ND|]. exists idtok. destruct (ss_tr s); auto. }
  unfold surf_got. destruct M as [m vals sn M|x0 x1 y0 y1 z0 z1|v a b c O NA NB NC AL|b h r NH].
  - exact (C19_surface_card_meaning t (ss_id s) (ss_tr s) m toks vals sn C RD M).
  - exists (mkS (ss_id s) (ss_tr s) MACRO_RPP [x0; x1; y0; y1; z0; z1] TRANSMISSION). split.
    + unfold read_surface. rewrite (card_text_card t _ _ _ toks C eq_refl).
      pose proof (reads_floats _ _ RD) as F. cbn [length] in F.
      change (classify_card (mkCard (ss_id s) (ss_tr s) (T "rpp") toks) fresh)
        with (reading (mkCard (ss_id s) (ss_tr s) (T "rpp") toks) fresh 6 MACRO_RPP (fun l => l)).
      unfold reading. cbn [k_coef k_id k_tr]. rewrite F. reflexivity.
    + split; [reflexivity|]. split; [reflexivity|]. eexists _, _. split; [constructor|]. split; [apply all_same_refl|reflexivity].
  - destruct (read_box t _ _ toks v a b c C RD) as (x & R & NX & AX).
    exists x. split; [exact R|].
    assert (D : along_axes a b c \/ ~ along_axes a b c).
    { unfold along_axes. destruct (Req_dec (py a) 0), (Req_dec (pz a) 0), (Req_dec (px b) 0), (Req_dec (pz b) 0), (Req_dec (px c) 0), (Req_dec (py c) 0); tauto. }
    destruct D as [D|D].
    + rewrite (AX D). destruct (AL D) as (PA & PB & PC). split; [reflexivity|]. split; [reflexivity|]. eexists _, _. split; [constructor|].
      split; [now apply rpp_box_facets|]. intro p. symmetry. now apply rpp_of_box.
    + rewrite (NX D). split; [reflexivity|]. split; [reflexivity|]. eexists _, _. split; [now constructor|]. split; [apply all_same_refl|reflexivity].
  - exists (mkS (ss_id s) (ss_tr s) MACRO_RCC [px b; py b; pz b; px h; py h; pz h; r] TRANSMISSION). split.
    + unfold read_surface. rewrite (card_text_card t _ _ _ toks C eq_refl).
      pose proof (reads_floats _ _ RD) as F. cbn [length] in F.
      change (classify_card (mkCard (ss_id s) (ss_tr s) (T "rcc") toks) fresh)
        with (reading (mkCard (ss_id s) (ss_tr s) (T "rcc") toks) fresh 7 MACRO_RCC (fun l => l)).
      unfold reading. cbn [k_coef k_id k_tr]. rewrite F. reflexivity.
    + split; [reflexivity|]. split; [reflexivity|]. eexists _, _. split; [now constructor|]. split; [apply all_same_refl|reflexivity].
Qed.

(** ** Data *)

(** A data card: importances of a particle, a transform with its motion, a material with its entries, or something
    else. *)
Inductive data_says :=
| DImp (p : particle) (values : list text)
| DTr (id : text) (m : motion)
| DMat (n : text) (es : list PropMaterial.entry)
| DOther.

(** The line begins like a material card. *)
Definition material_name (x : text) : Prop :=
  exists a d r, forallb (Ascii.eqb blank) a = true /\ is_digit d = true /\ x = a ++ "m"%char :: d :: r.

(** The card says so: importances and transforms carry no comments; the letters imp appear on no other card. *)
Definition says_data (c : card) (d : data_says) : Prop :=
  data_card c /\
  match d with
  | DImp p values =>
      exists rest, code (fst c) = T "imp:" ++ particle_to_mcnp p ++ blank :: rest /\ remark (fst c) = None /\
        Forall (fun l => remark l = None /\ ~ material_name (printed l)) (snd c) /\
        values = words rest ++ flat_map (fun l => words (code l)) (snd c)
  | DTr id m =>
      exists (deg : bool) (toks : list text) (vals : list R), (exists rest : text, code (fst c) = (if deg then T "*tr" else T "tr") ++ id ++ rest) /\
        Forall (fun l => remark l = None) (fst c :: snd c) /\
        card_words c = ((if deg then T "*tr" else T "tr") ++ id) :: toks /\ ~ In "*"%char id /\
        reads toks vals /\ tr_means deg vals m /\ length vals <> 9 /\ nth 12 vals 1%R = 1%R /\
        Forall (fun x => sub_in (T "imp") x = false /\ ~ material_name x) (card_lines c)
  | DMat n es =>
      exists rest, material_deck_card n rest c /\
        words rest ++ flat_map (fun l => words (code l)) (snd c) = flat_map entry_words es /\ Forall PropMaterial.entry_ok es /\
        Forall (fun x => sub_in (T "imp") x = false) (card_lines c)
  | DOther =>
      ~ tr_name (printed (fst c)) /\ Forall (fun x => sub_in (T "imp") x = false /\ ~ material_name x) (card_lines c)
  end.

Definition imp_of (x : card * data_says) : option (particle * text) * card :=
  (match snd x with DImp p _ => Some (p, skipn (length (T "imp:" ++ particle_to_mcnp p ++ [blank])) (code (fst (fst x)))) | _ => None end, fst x).
Definition tr_of (x : card * data_says) : bool * card := (match snd x with DTr _ _ => true | _ => false end, fst x).
Definition trs_of (ds : list data_says) : list (text * motion) := flat_map (fun d => match d with DTr i m => [(i, m)] | _ => [] end) ds.
Definition mats_of (ds : list data_says) : list (text * list PropMaterial.entry) := flat_map (fun d => match d with DMat n es => [(n, es)] | _ => [] end) ds.

(** The last card for a key. *)
Definition last_for {A} (k : text) (l : list (text * A)) (v : A) : Prop :=
  exists a b, l = a ++ (k, v) :: b /\ ~ In k (map fst b).

(** The importances in memory. *)
Definition imps_got (ds : list data_says) (d : list (particle * text)) : Prop :=
  (forall p, (forall vs, ~ In (DImp p vs) ds) -> pget p d = None) /\
  (forall a b p vs, ds = a ++ DImp p vs :: b -> (forall ws, ~ In (DImp p ws) b) -> exists t, pget p d = Some t /\ words t = vs).

(** The transforms in memory. *)
Definition trans_got (ds : list data_says) (d : dict trans) : Prop :=
  (forall id, In id (keys d) <-> In id (map fst (trs_of ds))) /\
  (forall id m, last_for id (trs_of ds) m -> exists tr, dget id d = Some tr /\ motion_of tr = m).

(** The materials in memory: the fraction of a nuclide is the sum of those listed. *)
Definition mats_got (ds : list data_says) (d : dict material) : Prop :=
  (forall n, In n (keys d) <-> In n (map fst (mats_of ds))) /\
  (forall n es, last_for n (mats_of ds) es -> exists m, dget n d = Some m /\ m_num m = n /\ NoDup (keys (m_comp m)) /\
     forall z, (In z (keys (m_comp m)) <-> lists z es) /\ (forall v, dget z (m_comp m) = Some v -> (v == total (map (listed z) es))%Q) /\ (forall l, library z es l -> dget z (m_xs m) = Some l)).

(* ------------------------------------------------------------------ *)
(** * Reading the data block *)

Lemma is_material_spec x : is_material_line x = true <-> material_name x.
Proof.
  split.
  - induction x as [|c x IH]; cbn [is_material_line]; [discriminate|]. destruct (Ascii.eqb_spec c blank) as [->|N].
    + intro H. destruct (IH H) as (a & d & r & A & D & ->). exists (blank :: a), d, r. repeat split; [|exact D].
      cbn [forallb]. now rewrite A.
    + rewrite andb_true_iff. intros [H1 H2]. apply Ascii.eqb_eq in H1. subst c. destruct x as [|d r]; [discriminate|]. now exists [], d, r.
  - intros (a & d & r & A & D & ->). induction a as [|c a IH]; cbn [app is_material_line].
    + change (Ascii.eqb "m" blank) with false. now rewrite D.
    + cbn [forallb] in A. apply andb_true_iff in A as [E A]. apply Ascii.eqb_eq in E. subst c. change (Ascii.eqb blank blank) with true. now apply IH.
Qed.
Lemma not_material x : ~ material_name x -> is_material_line x = false.
Proof. intro N. destruct (is_material_line x) eqn:E; [|reflexivity]. apply is_material_spec in E. tauto. Qed.

Lemma skip_imp p rest : skipn (length (T "imp:" ++ particle_to_mcnp p ++ [blank])) (T "imp:" ++ particle_to_mcnp p ++ blank :: rest) = rest.
Proof. now destruct p. Qed.

Lemma imp_entries ds : Forall (fun x => says_data (fst x) (snd x)) ds -> Forall PropDeck.entry_ok (map imp_of ds).
Proof.
  intro F. apply Forall_map. apply (Forall_impl _) with (2 := F). intros [c d] (D & H). cbn [fst snd] in *. unfold PropDeck.entry_ok, imp_of. cbn [fst snd].
  split; [exact D|]. destruct d as [p vs|id m|n es|].
  - destruct H as (rest & E & R & RS & _). rewrite E, skip_imp.
    split; [reflexivity|]. split; [exact R|]. apply (Forall_impl _) with (2 := RS). tauto.
  - destruct H as (deg & toks & vals & _ & _ & _ & _ & _ & _ & _ & _ & H). apply (Forall_impl _) with (2 := H). tauto.
  - destruct H as (rest & _ & _ & _ & H). exact H.
  - destruct H as [_ H]. apply (Forall_impl _) with (2 := H). tauto.
Qed.

Lemma tr_entries ds : Forall (fun x => says_data (fst x) (snd x)) ds -> Forall tr_ok (map tr_of ds).
Proof.
  intro F. apply Forall_map. apply (Forall_impl _) with (2 := F). intros [c d] (D & H). cbn [fst snd] in *. unfold tr_ok, tr_of. cbn [fst snd].
  split; [exact D|]. destruct d as [p vs|id m|n es|].
  - destruct H as (rest & E & _). unfold printed. rewrite E. intros [(r & Q)|(r & Q)]; discriminate.
  - destruct H as (deg & toks & vals & (rest & E) & _). unfold printed. rewrite E. destruct deg; [right|left]; eexists; rewrite <- !app_assoc; reflexivity.
  - destruct H as (rest & ((a & A & L & E) & _) & _). unfold printed. rewrite E. intros [(r & Q)|(r & Q)].
    + destruct a as [|c0 a]; [discriminate|]. cbn [forallb] in A. apply andb_true_iff in A as [X _]. apply Ascii.eqb_eq in X. subst c0. discriminate.
    + destruct a as [|c0 a]; [discriminate|]. cbn [forallb] in A. apply andb_true_iff in A as [X _]. apply Ascii.eqb_eq in X. subst c0. discriminate.
  - tauto.
Qed.

Lemma imp_of_lines ds : entry_lines (map imp_of ds) = flat_map (fun x => card_lines (fst x)) ds.
Proof. unfold entry_lines. now rewrite flat_map_concat_map, map_map, flat_map_concat_map. Qed.
Lemma tr_of_lines ds : tr_lines (map tr_of ds) = flat_map (fun x => card_lines (fst x)) ds.
Proof. unfold tr_lines. now rewrite flat_map_concat_map, map_map, flat_map_concat_map. Qed.

(** ** Importances *)
Lemma importances_read ds c d :
  Forall (fun x => says_data (fst x) (snd x)) (ds ++ [(c, d)]) -> (forall p vs, d <> DImp p vs) ->
  exists i, get_importances (flat_map (fun x => card_lines (fst x)) (ds ++ [(c, d)])) = Some i /\ imps_got (map snd ds ++ [d]) i.
Proof.
  intros F ND. assert (F1 := imp_entries _ F). rewrite map_app in F1. cbn [map] in F1.
  assert (E1 : imp_of (c, d) = (None, c)) by (unfold imp_of; cbn [fst snd]; destruct d; [exfalso; now apply (ND p values)|reflexivity..]).
  rewrite E1 in F1. destruct (C55_importances_partial _ _ F1) as (i & G & I1 & I2).
  exists i. rewrite <- imp_of_lines, map_app. cbn [map]. rewrite E1. split; [exact G|].
  assert (NO : forall p (ds : list (card * data_says)), (forall vs, ~ In (DImp p vs) (map snd ds)) -> existsb (about p) (map imp_of ds) = false).
  { clear. intros p ds H. apply not_true_iff_false. intro X. apply existsb_exists in X as (e & IE & A). apply in_map_iff in IE as ((k & s) & <- & IN).
    unfold about, imp_of in A. cbn [fst snd] in A. destruct s; try discriminate. apply particle_beq_eq in A. subst p0. apply (H values). apply in_map_iff. now exists (k, DImp p values). }
  split.
  - intros p H. apply I1. apply NO. intros vs I. apply (H vs). apply in_app_iff. now left.
  - intros a b p vs E H.
    destruct b as [|x b] using rev_ind.
    + apply app_inj_tail in E as [_ E]. exfalso. now apply (ND p vs).
    + clear IHb. rewrite app_comm_cons, app_assoc in E. apply app_inj_tail in E as [E _].
      apply map_eq_app in E as (l1 & l2 & -> & E2 & E3). destruct l2 as [|[k s] l2]; [discriminate|]. cbn [map snd] in E3. injection E3 as -> <-.
      rewrite map_app in I2. cbn [map] in I2. specialize (I2 (map imp_of l1) p (skipn (length (T "imp:" ++ particle_to_mcnp p ++ [blank])) (code (fst k))) k (map imp_of l2) eq_refl).
      destruct I2 as (t & P & W).
      { apply NO. intros ws I. apply (H ws). apply in_app_iff. now left. }
      exists t. split; [exact P|]. rewrite W. rewrite !Forall_app in F. destruct F as [[_ F] _]. inversion F as [|? ? HD _]; subst.
      destruct HD as (_ & rest & E & _ & _ & ->). cbn [fst snd] in *. f_equal. now rewrite E, skip_imp.
Qed.

(** ** Transforms *)
Lemma last_for_cons {A} k (x : text * A) l v : last_for k (x :: l) v -> last_for k l v \/ (x = (k, v) /\ ~ In k (map fst l)).
Proof.
  intros (a & b & E & N). destruct a as [|y a]; cbn [app] in E; injection E as -> ->; [now right|left]. now exists a, b.
Qed.

Lemma dget_keys {A} k (d : dict A) v : dget k d = Some v -> In k (keys d).
Proof. intro E. apply dget_some_in in E. unfold keys. apply in_map_iff. now exists (k, v). Qed.

Lemma transforms_added ts l : Forall2 (fun t im => exists tr, read_trans_card t = Some (fst im, tr) /\ motion_of tr = snd im) ts l ->
  forall d, exists d', transform_list ts d = Some d' /\ (forall id, In id (keys d') <-> In id (keys d) \/ In id (map fst l)) /\
    (forall id, ~ In id (map fst l) -> dget id d' = dget id d) /\
    (forall id m, last_for id l m -> exists tr, dget id d' = Some tr /\ motion_of tr = m).
Proof.
  intro F. induction F as [|t [id m] ts l (tr & R & M) F IH]; intro d.
  - exists d. cbn [transform_list map In]. repeat split; try tauto. intros id m (a & b & E & _). destruct a; discriminate.
  - cbn [fst snd] in *. destruct (IH (dset id tr d)) as (d' & E & K & O & L). exists d'. cbn [transform_list]. rewrite R. split; [exact E|].
    split; [|split].
    + intro k. rewrite K, in_keys_dset. cbn [map fst In]. intuition congruence.
    + intros k N. cbn [map fst In] in N. rewrite O by tauto. rewrite dget_dset. destruct (text_eqb_spec id k); [exfalso; tauto|reflexivity].
    + intros k m' LF. apply last_for_cons in LF as [LF|[Q N]]; [now apply L|]. injection Q as -> ->. exists tr. split; [|exact M].
      rewrite O by exact N. now rewrite dget_dset, text_eqb_refl.
Qed.

Lemma transforms_read ds c d :
  Forall (fun x => says_data (fst x) (snd x)) (ds ++ [(c, d)]) -> (forall id m, d <> DTr id m) ->
  exists ts tr, get_transform_cards (flat_map (fun x => card_lines (fst x)) (ds ++ [(c, d)])) = Some ts /\
    transform_list ts [] = Some tr /\ trans_got (map snd ds ++ [d]) tr.
Proof.
  intros F ND. assert (F1 := tr_entries _ F). rewrite map_app in F1. cbn [map] in F1.
  assert (E1 : tr_of (c, d) = (false, c)) by (unfold tr_of; cbn [fst snd]; destruct d; [reflexivity|exfalso; now apply (ND id m)|reflexivity..]).
  rewrite E1 in F1. destruct (C55_transforms_partial _ _ F1) as (ts & G & W).
  rewrite <- tr_of_lines, map_app. cbn [map]. rewrite E1.
  assert (TE : trs_of (map snd ds ++ [d]) = trs_of (map snd ds)).
  { unfold trs_of. rewrite flat_map_app. cbn [flat_map]. destruct d; try (now rewrite !app_nil_r). }
  assert (F2 : Forall2 (fun t im => exists tr, read_trans_card t = Some (fst im, tr) /\ motion_of tr = snd im) ts (trs_of (map snd ds))).
  { apply Forall_app in F as [F _]. clear G TE F1 E1 ND. revert ts W. induction F as [|[k s] ds HD F IH]; intros ts W.
    - destruct ts; [constructor|discriminate].
    - unfold trs_of. cbn [map flat_map]. fold (trs_of (map snd ds)). unfold tr_of at 1 in W. cbn [map fst snd filter] in W.
      destruct s as [p vs|id m|n es|]; cbn [snd app] in *; try now apply IH.
      destruct ts as [|t ts]; [discriminate|]. cbn [map] in W. injection W as W1 W2. constructor; [|now apply IH].
      destruct HD as (DC & deg & toks & vals & _ & RM & CW & NS & RD & TM & L9 & L12 & _). cbn [fst snd] in *.
      apply (C23_transform_card_partial t deg id toks vals m); try assumption. split; [|exact NS].
      rewrite W1. clear - CW RM. unfold card_lines, card_words in *. cbn [flat_map].
      assert (P : forall l, remark l = None -> words (printed l) = words (code l)) by (intros l E; unfold printed; rewrite E; apply words_app_space_r; reflexivity).
      inversion RM as [|? ? R1 R2]; subst. rewrite P by exact R1.
      replace (flat_map words (map printed (snd k))) with (flat_map (fun l => words (code l)) (snd k)); [rewrite CW; now destruct deg|].
      clear - R2 P. induction R2 as [|l ls E R2 IH]; [reflexivity|]. cbn [map flat_map]. now rewrite IH, P. }
  destruct (transforms_added _ _ F2 []) as (tr & E & K & _ & L). exists ts, tr. split; [exact G|]. split; [exact E|].
  unfold trans_got. rewrite TE. split; [|exact L]. intro id. rewrite K. cbn [keys map In]. tauto.
Qed.

(** ** Materials *)
Lemma materials_added ts l : Forall2 (fun nt ne => fst nt = fst ne /\ exists c x, mcnp_composition (snd nt) = Some (c, x) /\ NoDup (keys c) /\
    forall z, (In z (keys c) <-> lists z (snd ne)) /\ (forall v, dget z c = Some v -> (v == total (map (listed z) (snd ne)))%Q) /\ (forall l, library z (snd ne) l -> dget z x = Some l)) ts l ->
  forall d, exists d', add_materials d ts = Some d' /\ (forall n, In n (keys d') <-> In n (keys d) \/ In n (map fst l)) /\
    (forall n, ~ In n (map fst l) -> dget n d' = dget n d) /\
    (forall n es, last_for n l es -> exists m, dget n d' = Some m /\ m_num m = n /\ NoDup (keys (m_comp m)) /\
       forall z, (In z (keys (m_comp m)) <-> lists z es) /\ (forall v, dget z (m_comp m) = Some v -> (v == total (map (listed z) es))%Q) /\ (forall l, library z es l -> dget z (m_xs m) = Some l)).
Proof.
  intro F. induction F as [|[n t] [n' es] ts l (E0 & c & x & C & N & Z) F IH]; intro d.
  - exists d. cbn [add_materials map In]. repeat split; try tauto. intros id m (a & b & E & _). destruct a; discriminate.
  - cbn [fst snd] in *. subst n'.
    assert (A : exists m, add_material d n t = Some (dset n m d) /\ m_num m = n /\ m_comp m = c /\ m_xs m = x).
    { unfold add_material, read_mcnp_material. rewrite C. cbn [m_dens m_num m_name m_comp m_xs]. change (negb (Qle_bool 0 0)) with false. cbv iota. cbn [m_num].
      eexists. split; [reflexivity|]. now repeat split. }
    destruct A as (m & A & A1 & A2 & A3). destruct (IH (dset n m d)) as (d' & E & K & O & L). exists d'. cbn [add_materials]. rewrite A. split; [exact E|].
    split; [|split].
    + intro k. rewrite K, in_keys_dset. cbn [map fst In]. intuition congruence.
    + intros k NI. cbn [map fst In] in NI. rewrite O by tauto. rewrite dget_dset. destruct (text_eqb_spec n k); [exfalso; tauto|reflexivity].
    + intros k es' LF. apply last_for_cons in LF as [LF|[Q NI]]; [now apply L|]. injection Q as -> ->. exists m. rewrite A2, A3.
      split; [|split; [exact A1|split; [exact N|exact Z]]]. rewrite O by exact NI. now rewrite dget_dset, text_eqb_refl.
Qed.

Lemma words_join_words t : words (replace_char newline [] (join_sp (words t))) = words t.
Proof.
  assert (FW := words_good t). set (ws := words t) in *. clearbody ws.
  assert (NJ : ~ In newline (join_sp ws) /\ words (join_sp ws) = ws).
  { destruct ws as [|w l] using rev_ind; [split; [intros []|reflexivity]|].
    rewrite join_sp_app. cbn [join_sp]. rewrite Forall_app in FW. destruct FW as [FW1 FW2].
    inversion FW2 as [|? ? [X1 X2] _]; subst. split.
    - assert (Z : forall u, forallb (fun x => negb (is_space x)) u = true -> ~ In newline u).
      { intros u S J. rewrite forallb_forall in S. apply S in J. discriminate. }
      rewrite in_app_iff. intros [I|I]; [|now apply (Z w)].
      revert I. apply not_in_joined; [discriminate|]. intros u IU. apply Z. rewrite Forall_forall in FW1. now apply FW1.
    - rewrite words_joined by exact FW1. now rewrite words_single. }
  rewrite replace_newline_none by apply NJ. apply NJ.
Qed.

Lemma materials_read ds : Forall (fun x => says_data (fst x) (snd x)) ds ->
  exists ms, add_materials [] (get_material_cards (flat_map (fun x => card_lines (fst x)) ds)) = Some ms /\ mats_got (map snd ds) ms.
Proof.
  intro F.
  assert (NI : forall (ds : list (card * data_says)), Forall (fun x => says_data (fst x) (snd x)) ds ->
                forall x r, flat_map (fun x => card_lines (fst x)) ds = x :: r -> ~ indented x).
  { clear. intros ds F x r E. destruct F as [|[c d] ds [[D _] _] F]; [discriminate|]. cbn [flat_map fst] in *. unfold card_lines in E. cbn [app] in E. injection E as <- _. exact D. }
  assert (H : Forall2 (fun nt ne => fst nt = fst ne /\ exists c x, mcnp_composition (snd nt) = Some (c, x) /\ NoDup (keys c) /\
    forall z, (In z (keys c) <-> lists z (snd ne)) /\ (forall v, dget z c = Some v -> (v == total (map (listed z) (snd ne)))%Q) /\ (forall l, library z (snd ne) l -> dget z x = Some l))
    (get_material_cards (flat_map (fun x => card_lines (fst x)) ds)) (mats_of (map snd ds))).
  { induction F as [|[c d] ds [DC H] F IH]; [constructor|]. cbn [map flat_map fst snd] in *. unfold mats_of. cbn [flat_map]. fold (mats_of (map snd ds)).
    assert (SKIP : Forall (fun x => ~ material_name x) (card_lines c) ->
              get_material_cards (card_lines c ++ flat_map (fun x => card_lines (fst x)) ds) = get_material_cards (flat_map (fun x => card_lines (fst x)) ds)).
    { intro N. clear - N. induction N as [|x l X N IHN]; [reflexivity|]. cbn [app get_material_cards]. rewrite (not_material x X). exact IHN. }
    destruct d as [p vs|id m|n es|]; cbn [app].
    - rewrite SKIP; [exact IH|]. destruct H as (rest & E & R & RS & _). unfold card_lines. constructor.
      + unfold printed. rewrite E. intros (a & d & r & A & _ & Q). destruct a as [|x a]; [discriminate|]. cbn [forallb] in A. apply andb_true_iff in A as [X _].
        apply Ascii.eqb_eq in X. subst x. discriminate.
      + apply Forall_map. apply (Forall_impl _) with (2 := RS). tauto.
    - rewrite SKIP; [exact IH|]. destruct H as (deg & toks & vals & _ & _ & _ & _ & _ & _ & _ & _ & H). apply (Forall_impl _) with (2 := H). tauto.
    - destruct H as (rest & MD & W & EO & _).
      destruct (C55_materials [] n rest c _ MD (NI ds F)) as (t & E & WT & CT). cbn [app get_material_cards] in E. rewrite E. constructor; [|exact IH].
      cbn [fst snd]. split; [reflexivity|]. rewrite CT. apply C37_mcnp_sums; [|exact EO]. now rewrite words_join_words, WT, W.
    - rewrite SKIP; [exact IH|]. destruct H as [_ H]. apply (Forall_impl _) with (2 := H). tauto. }
  destruct (materials_added _ _ H []) as (ms & E & K & _ & L). exists ms. split; [exact E|]. split; [|exact L]. intro n. rewrite K. cbn [keys map In]. tauto.
Qed.

(* ------------------------------------------------------------------ *)
(** * The whole file *)

(** The lines of the file [s], in small letters: MCNP does not tell small from capital letters. *)
Definition file_of (s : text) (lines : list text) : Prop :=
  exists raw, s = concat raw /\ Forall (fun x => exists y, x = y ++ [newline] /\ ~ In newline y) raw /\ map lower raw = lines.

(** Comment lines, which begin with c and a blank, put between lines that do not begin with c. *)
Inductive with_comments : list text -> list text -> Prop :=
| wc_nil : with_comments [] []
| wc_line x l l' : (forall r, x <> "c"%char :: r) -> with_comments l l' -> with_comments (x :: l) (x :: l')
| wc_comment r l l' : with_comments l l' -> with_comments l (("c"%char :: blank :: r) :: l').

Lemma comments_dropped l l' : with_comments l l' -> drop_comment_lines l' = l.
Proof.
  unfold drop_comment_lines. induction 1 as [|x l l' N H IH|r l l' H IH]; [reflexivity| |].
  - cbn [filter]. assert (E : is_comment_line x = false).
    { destruct x as [|c x]; [reflexivity|]. cbn [is_comment_line]. destruct (Ascii.eqb_spec c "c"); [subst; exfalso; now apply (N x)|reflexivity]. }
    rewrite E. cbn [negb]. now rewrite IH.
  - cbn [filter is_comment_line]. change (Ascii.eqb "c" "c") with true. cbn [negb]. exact IH.
Qed.

Lemma readlines_ended raw : Forall (fun x => exists y, x = y ++ [newline] /\ ~ In newline y) raw -> readlines (concat raw) = raw.
Proof.
  induction 1 as [|x raw (y & -> & N) F IH]; [reflexivity|]. cbn [concat]. rewrite <- app_assoc. cbn [app]. rewrite readlines_line by exact N. now rewrite IH.
Qed.

(** Cards and what they say: the text of a cell card, the words of a surface card, the lines of a data card. *)
Definition says_cells (l : list (card * cell_says)) : Prop := Forall (fun x => good_card (fst x) /\ says_cell (PropDeck.card_text (fst x)) (snd x)) l.
Definition says_surfs (l : list (card * surf_says)) : Prop := Forall (fun x => good_card (fst x) /\ says_surf (card_words (fst x)) (snd x)) l.
Definition says_datas (l : list (card * data_says)) : Prop :=
  Forall (fun x => says_data (fst x) (snd x)) l /\
  exists ds c d, l = ds ++ [(c, d)] /\ (forall p vs, d <> DImp p vs) /\ (forall id m, d <> DTr id m).

Lemma mapM_read {A B C} (f : A -> option B) (g : C -> A) (P : C -> B -> Prop) l :
  Forall (fun x => exists y, f (g x) = Some y /\ P x y) l -> exists ys, mapM f (map g l) = Some ys /\ Forall2 P l ys.
Proof.
  induction 1 as [|x l (y & E & H) F (ys & IH1 & IH2)]; [exists []; split; [reflexivity|constructor]|].
  exists (y :: ys). cbn [map mapM]. rewrite E, IH1. split; [reflexivity|now constructor].
Qed.

Lemma mapM_fuel {A B C} (f : nat -> A -> option B) (g : C -> A) (P : C -> B -> Prop) l :
  Forall (fun x => exists y, (forall n, f (S n) (g x) = Some y) /\ P x y) l -> exists ys, (forall n, mapM (f (S n)) (map g l) = Some ys) /\ Forall2 P l ys.
Proof.
  induction 1 as [|x l (y & E & H) F (ys & IH1 & IH2)]; [exists []; split; [reflexivity|constructor]|].
  exists (y :: ys). split; [|now constructor]. intro n. cbn [map mapM]. now rewrite E, IH1.
Qed.

Lemma card_no_dollar c : good_card c -> ~ In "$"%char (PropDeck.card_text c).
Proof.
  intros (P & _ & F). assert (K : forall l, PropDeck.plain l -> ~ In "$"%char (kept_text l)).
  { intros l [D _] I. unfold kept_text in I. apply in_app_iff in I as [I|I]; [tauto|]. destruct (remark l); cbn in I; intuition discriminate. }
  unfold PropDeck.card_text. rewrite in_app_iff. intros [I|I]; [now apply (K (fst c))|].
  apply in_concat in I as (x & IX & I). apply in_map_iff in IX as (l & <- & IL). rewrite Forall_forall in F. apply F in IL as [IL _]. now apply (K l).
Qed.

Lemma file_read s title noisy cells b1 surfs b2 data :
  file_of s (title :: noisy) -> sub_in (T "message") title = false ->
  with_comments (flat_map (fun x => card_lines (fst x)) cells ++ b1 :: flat_map (fun x => card_lines (fst x)) surfs ++ b2 ::
                 flat_map (fun x => card_lines (fst x)) data) noisy ->
  b1 <> [] -> spaces b1 -> b2 <> [] -> spaces b2 ->
  says_cells cells -> says_surfs surfs -> says_datas data ->
  exists p, (forall f, read_file (S f) s = Some p) /\ f_title p = title /\
    Forall2 (fun x y => cell_got (snd x) y /\ cell_kept y) cells (f_cells p) /\
    Forall2 (fun x y => surf_got (snd x) y /\ read_surface (PropDeck.card_text (fst x)) = Some y) surfs (f_surfs p) /\
    imps_got (map snd data) (f_imps p) /\ trans_got (map snd data) (f_trans p) /\ mats_got (map snd data) (f_mats p).
Proof.
  intros (raw & -> & FR & EL) NM WC N1 S1 N2 S2 SC SS (SD & ds & c & d & ED & ND1 & ND2).
  assert (FLAT : forall B (l : list (card * B)), flat_map (fun x => card_lines (fst x)) l = flat_map card_lines (map fst l)).
  { intros B l. now rewrite !flat_map_concat_map, map_map. }
  unfold read_file, split_file, read_lines. rewrite readlines_ended, EL by exact FR. cbn [set_title]. rewrite NM.
  rewrite (comments_dropped _ _ WC), (FLAT _ cells), (FLAT _ surfs).
  unfold get_cell_cards. rewrite scan_closed; [|exact remove_is_strip| |exact N1|exact S1].
  2:{ apply Forall_map. apply (Forall_impl _) with (2 := SC). tauto. }
  unfold get_surface_cards. rewrite scan_closed; [|reflexivity| |exact N2|exact S2].
  2:{ apply Forall_map. apply (Forall_impl _) with (2 := SS). tauto. }
  destruct (materials_read data SD) as (ms & EM & GM). subst data.
  destruct (importances_read ds c d SD ND1) as (i & EI & GI). destruct (transforms_read ds c d SD ND2) as (ts & tr & ET & EA & GT).
  rewrite EI, ET. cbn [p_cells p_surfs p_trans p_mats p_imps p_title]. rewrite !map_map.
  destruct (mapM_fuel read_cell_card (fun x => PropDeck.card_text (fst x)) (fun x y => cell_got (snd x) y /\ cell_kept y) cells) as (cs & EC & GC).
  { apply (Forall_impl _) with (2 := SC). intros [k x] [_ H]. now apply cell_card_kept. }
  destruct (mapM_read read_surface (fun x => PropDeck.card_text (fst x)) (fun x y => surf_got (snd x) y /\ read_surface (PropDeck.card_text (fst x)) = Some y) surfs) as (ss & ES & GS).
  { apply (Forall_impl _) with (2 := SS). intros [k x] [G H]. cbn [fst snd] in *.
    destruct (surf_card_read (PropDeck.card_text k) x) as (y & E & GY); [now apply card_no_dollar|now rewrite words_card|]. exists y. auto. }
  eexists. split; [intro f; rewrite EC, ES, EA, EM; reflexivity|]. cbn [f_title f_cells f_surfs f_imps f_trans f_mats]. rewrite map_app. cbn [map snd].
  rewrite map_app in GM. cbn [map snd] in GM. auto 10.
Qed.

(** The cells in memory are those read from their cards. *)
Lemma file_cells s title noisy cells b1 rest p f :
  file_of s (title :: noisy) -> sub_in (T "message") title = false ->
  with_comments (flat_map (fun x => card_lines (fst x)) cells ++ b1 :: rest) noisy ->
  b1 <> [] -> spaces b1 -> says_cells cells -> read_file (S f) s = Some p ->
  Forall2 (fun x y => read_cell_card (S f) (PropDeck.card_text (fst x)) = Some y) cells (f_cells p).
Proof.
  intros (raw & -> & FR & EL) NM WC N1 S1 SC.
  assert (FLAT : forall B (l : list (card * B)), flat_map (fun x => card_lines (fst x)) l = flat_map card_lines (map fst l)).
  { intros B l. now rewrite !flat_map_concat_map, map_map. }
  unfold read_file, split_file, read_lines. rewrite readlines_ended, EL by exact FR. cbn [set_title]. rewrite NM.
  rewrite (comments_dropped _ _ WC), (FLAT _ cells).
  unfold get_cell_cards. rewrite scan_closed; [|exact remove_is_strip| |exact N1|exact S1].
  2:{ apply Forall_map. apply (Forall_impl _) with (2 := SC). tauto. }
  intro E. destruct (get_surface_cards _) as [[sc r3]|]; [|discriminate].
  destruct (get_importances _) as [ic|]; [|discriminate]. destruct (get_transform_cards _) as [tc|]; [|discriminate]. cbn [p_cells p_surfs p_trans p_mats p_imps p_title] in E. rewrite map_map in E.
  destruct (mapM (read_cell_card (S f)) _) as [cs|] eqn:EC; [|discriminate].
  assert (F : f_cells p = cs).
  { repeat match type of E with match ?x with _ => _ end = _ => destruct x; [|discriminate] end. now injection E as <-. }
  rewrite F. clear - EC. revert cs EC. induction cells as [|x l IH]; intros cs E; cbn [map mapM] in E; [injection E as <-; constructor|].
  destruct (read_cell_card (S f) _) as [y|] eqn:EY; [|discriminate]. destruct (mapM _ _) as [ys|] eqn:EYS; [|discriminate]. injection E as <-. constructor; [exact EY|now apply IH].
Qed.

(** C81: a file of a title, cell cards, a blank line, surface cards, a blank line and data cards, with comment lines
    anywhere after the title, is read: what is in memory for every cell is what its card says, and the same for the
    surfaces, importances, transforms and materials.  (Missing: message blocks; what the refutations of C05, C19, C23,
    C53, C54, C55 show.) *)
Theorem C81_file_partial s title noisy cells b1 surfs b2 data :
  file_of s (title :: noisy) -> sub_in (T "message") title = false ->
  with_comments (flat_map (fun x => card_lines (fst x)) cells ++ b1 :: flat_map (fun x => card_lines (fst x)) surfs ++ b2 ::
                 flat_map (fun x => card_lines (fst x)) data) noisy ->
  b1 <> [] -> spaces b1 -> b2 <> [] -> spaces b2 ->
  says_cells cells -> says_surfs surfs -> says_datas data ->
  exists p, (forall f, read_file (S f) s = Some p) /\ f_title p = title /\
    Forall2 (fun x y => cell_got (snd x) y) cells (f_cells p) /\
    Forall2 (fun x y => surf_got (snd x) y) surfs (f_surfs p) /\
    imps_got (map snd data) (f_imps p) /\ trans_got (map snd data) (f_trans p) /\ mats_got (map snd data) (f_mats p).
Proof.
  intros H1 H2 H3 H4 H5 H6 H7 H8 H9 H10.
  destruct (file_read s title noisy cells b1 surfs b2 data H1 H2 H3 H4 H5 H6 H7 H8 H9 H10) as (p & R & E & C & S & O). exists p. split; [exact R|]. split; [exact E|].
  split; [clear - C; induction C as [|x y l l' [C _] F IH]; constructor; auto|]. split; [|exact O]. clear - S. induction S as [|x y l l' [C _] F IH]; constructor; auto.
Qed.
Print Assumptions C81_file_partial.

(** A file with a comment line, cards of two lines, comments at the end of lines, keywords, a transform, importances
    and a material. *)
Definition file81 : text :=
  T "A Sphere in a sphere" ++ newline :: T "C the cells" ++ newline ::
  T "1 1 -7.8 -1 $ steel" ++ newline :: T "        2 (1:-2) IMP:N=1 U=3" ++ newline ::
  T "2 0 1 #(-2 : 1)" ++ newline :: newline ::
  T "1 7 SO 5 $ ball" ++ newline :: T "2 RPP 0 1 0 1" ++ newline :: T "       0 2" ++ newline :: newline ::
  T "IMP:N 1" ++ newline :: T "      0" ++ newline :: T "TR7 0 0" ++ newline :: T "     5" ++ newline ::
  T "m1 26056.70c 0.5 $ iron" ++ newline :: T "     26056 0.25 6012 0.25" ++ newline :: T "nps 1000" ++ [newline].
Definition cells81 : list (card * cell_says) :=
  [((mkL (T "1 1 -7.8 -1 ") (Some (T " steel")), [mkL (T "        2 (1:-2) imp:n=1 u=3") None]),
    mkCS 1 (Some (1%Z, (-78 # 10)%Q))
      (RAnd (RAnd (RAtom (T "-1")) (RAtom (T "2"))) (ROr (RAtom (T "1")) (RAtom (T "-2"))))
      [mkE (T " ") (KImp (T "1")) false false; mkE (T " ") (KU (T "3")) false false]);
   ((mkL (T "2 0 1 #(-2 : 1)") None, []),
    mkCS 2 None (RAnd (RAtom (T "1")) (RNot (ROr (RAtom (T "-2")) (RAtom (T "1"))))) [])].
Definition surfs81 : list (card * surf_says) :=
  [((mkL (T "1 7 so 5 ") (Some (T " ball")), []), mkSS 1 (Some (T "7")) (Plain (of_fun (sphere 0 0 0 5))));
   ((mkL (T "2 rpp 0 1 0 1") None, [mkL (T "       0 2") None]), mkSS 2 None (Body (rpp_facets 0 1 0 1 0 2) (in_rpp 0 1 0 1 0 2)))].
Definition data81 : list (card * data_says) :=
  [((mkL (T "imp:n 1") None, [mkL (T "      0") None]), DImp NEUTRON [T "1"; T "0"]);
   ((mkL (T "tr7 0 0") None, [mkL (T "     5") None]), DTr (T "7") (Motion (Pt 0 0 5) (Pt 1 0 0) (Pt 0 1 0) (Pt 0 0 1)));
   ((mkL (T "m1 26056.70c 0.5 ") (Some (T " iron")), [mkL (T "     26056 0.25 6012 0.25") None]),
    DMat (T "1") [Nuclide (T "26056.70c") (T "0.5"); Nuclide (T "26056") (T "0.25"); Nuclide (T "6012") (T "0.25")]);
   ((mkL (T "nps 1000") None, []), DOther)].

Lemma whole_float t n : py_float t = Some (n # 1)%Q -> to_float t = Some (IZR n).
Proof. unfold to_float. intros ->. f_equal. unfold Q2R. cbn [Qnum Qden]. field. Qed.


Definition ended (x : text) : bool := match rev x with c :: r => Ascii.eqb c newline && negb (existsb (Ascii.eqb newline) r) | [] => false end.
Lemma ended_ok x : ended x = true -> exists y, x = y ++ [newline] /\ ~ In newline y.
Proof.
  unfold ended. destruct (rev x) as [|c r] eqn:E; [discriminate|]. rewrite andb_true_iff. intros [H1 H2]. apply Ascii.eqb_eq in H1. subst c.
  exists (rev r). split; [rewrite <- (rev_involutive x), E; reflexivity|]. intro I. apply in_rev in I.
  apply negb_true_iff in H2. assert (existsb (Ascii.eqb newline) r = true); [|congruence]. apply existsb_exists. exists newline. split; [exact I|reflexivity].
Qed.
Lemma file81_read : file_of file81 ((T "a sphere in a sphere" ++ [newline]) :: (T "c the cells" ++ [newline]) ::
   (flat_map (fun x => card_lines (fst x)) cells81 ++ [newline] :: flat_map (fun x => card_lines (fst x)) surfs81 ++ [newline] ::
                 flat_map (fun x => card_lines (fst x)) data81)).
Proof.
  exists (readlines file81). split; [vm_compute; reflexivity|]. split; [|vm_compute; reflexivity].
  assert (E : forallb ended (readlines file81) = true) by (vm_compute; reflexivity).
  apply Forall_forall. intros x I. rewrite forallb_forall in E. now apply ended_ok, E.
Qed.
Lemma comments81 : with_comments (flat_map (fun x => card_lines (fst x)) cells81 ++ [newline] :: flat_map (fun x => card_lines (fst x)) surfs81 ++ [newline] ::
                 flat_map (fun x => card_lines (fst x)) data81) 
   ((T "c the cells" ++ [newline]) :: (flat_map (fun x => card_lines (fst x)) cells81 ++ [newline] :: flat_map (fun x => card_lines (fst x)) surfs81 ++ [newline] ::
                 flat_map (fun x => card_lines (fst x)) data81)).
Proof.
  apply (wc_comment (T "the cells" ++ [newline])). vm_compute. repeat (apply wc_line; [intros r E; discriminate E|]). apply wc_nil.
Qed.

Lemma says_cells81 : says_cells cells81.
Proof.
  constructor; [|constructor; [|constructor]]; cbn [fst snd cells81].
  - split.
    + split; [split; [vm_compute; intuition discriminate|exists "1"%char; split; [now left|reflexivity]]|]. cbn [fst snd code].
      split; [intros (r & E); discriminate|]. constructor; [|constructor]. split; [split; [vm_compute; intuition discriminate|exists "2"%char; split; [vm_compute; tauto|reflexivity]]|].
      exists (T "   2 (1:-2) imp:n=1 u=3"). reflexivity.
    + exists (T "1 1 -7.8 -1         2 (1:-2)"), [newline], (T "1"), (T "1"), (T "-1 2 (1:-2)"). cbn [cs_keys cs_id cs_region cs_mat].
      split; [vm_compute; reflexivity|]. split; [reflexivity|]. split; [reflexivity|].
      assert (NU : forall d, all_digits d -> d <> [] -> number d).
      { intros d D N. exists [], d, []. rewrite !app_nil_r. split; [reflexivity|]. split; [now left|]. split; [exact D|]. split; [now left|exact N]. }
      split; [constructor; [|constructor; [|constructor]]; (split; [reflexivity|]; split; [discriminate|]; split; [|exact I]; apply NU; [reflexivity|discriminate])|].
      split; [repeat constructor; cbn; intuition discriminate|].
      split; [split; [discriminate|reflexivity]|]. split; [split; [discriminate|reflexivity]|]. split; [reflexivity|].
      split; [vm_compute; intuition discriminate|]. split; [reflexivity|]. split; [apply parse_sound; vm_compute; reflexivity|].
      split; [reflexivity|]. split; [reflexivity|]. exists (T "-7.8"). split; [split; [discriminate|reflexivity]|]. split; [vm_compute; reflexivity|vm_compute; reflexivity].
  - split.
    + split; [split; [vm_compute; intuition discriminate|exists "2"%char; split; [now left|reflexivity]]|]. cbn [fst snd code].
      split; [intros (r & E); discriminate|]. constructor.
    + exists (T "2 0 1 #(-2 : 1)"), [newline], (T "2"), (T "0"), (T "1 #(-2 : 1)"). cbn [cs_keys cs_id cs_region cs_mat].
      split; [vm_compute; reflexivity|]. split; [reflexivity|]. split; [reflexivity|]. split; [constructor|]. split; [constructor|].
      split; [split; [discriminate|reflexivity]|]. split; [split; [discriminate|reflexivity]|]. split; [reflexivity|].
      split; [vm_compute; intuition discriminate|]. split; [reflexivity|]. split; [apply parse_sound; vm_compute; reflexivity|].
      split; reflexivity.
Qed.
Lemma says_surfs81 : says_surfs surfs81.
Proof.
  constructor; [|constructor; [|constructor]]; cbn [fst snd surfs81].
  - split.
    + split; [split; [vm_compute; intuition discriminate|exists "1"%char; split; [now left|reflexivity]]|]. cbn [fst snd code].
      split; [intros (r & E); discriminate|constructor].
    + exists (T "1"), "so"%string, [T "5"], [5%R]. cbn [ss_id ss_tr ss_shape]. split; [reflexivity|]. split; [vm_compute; intuition discriminate|].
      split; [split; [vm_compute; reflexivity|vm_compute; discriminate]|]. split; [|constructor; constructor]. constructor; [|constructor]. now apply whole_float.
  - split.
    + split; [split; [vm_compute; intuition discriminate|exists "2"%char; split; [now left|reflexivity]]|]. cbn [fst snd code].
      split; [intros (r & E); discriminate|]. constructor; [|constructor]. split; [split; [vm_compute; intuition discriminate|exists "0"%char; split; [vm_compute; tauto|reflexivity]]|].
      exists (T "  0 2"). reflexivity.
    + exists (T "2"), "rpp"%string, [T "0"; T "1"; T "0"; T "1"; T "0"; T "2"], [0; 1; 0; 1; 0; 2]%R. cbn [ss_id ss_tr ss_shape]. split; [reflexivity|]. split; [vm_compute; intuition discriminate|].
      split; [vm_compute; reflexivity|]. split; [|constructor]. repeat (constructor; [now apply whole_float|]). constructor.
Qed.
Lemma says_datas81 : says_datas data81.
Proof.
  assert (NI : forall r, ~ indented ("i"%char :: r) /\ ~ indented ("t"%char :: r) /\ ~ indented ("m"%char :: r) /\ ~ indented ("n"%char :: r)) by (intro r; repeat split; intros (x & E); discriminate).
  assert (NM : forall x, is_material_line x = false -> ~ material_name x) by (intros x E M; apply is_material_spec in M; congruence).
  split.
  - constructor; [|constructor; [|constructor; [|constructor; [|constructor]]]]; cbn [fst snd]; (split; [split; [apply NI|]|]).
    + constructor; [|constructor]. exists (T " 0" ++ [newline]). reflexivity.
    + exists (T "1"). split; [reflexivity|]. split; [reflexivity|]. split; [|reflexivity]. constructor; [|constructor]. split; [reflexivity|]. now apply NM.
    + constructor; [|constructor]. exists (T "5" ++ [newline]). reflexivity.
    + exists false, [T "0"; T "0"; T "5"], [0; 0; 5]%R. split; [exists (T " 0 0"); reflexivity|]. split; [now repeat constructor|].
      split; [reflexivity|]. split; [vm_compute; intuition discriminate|]. split; [repeat (constructor; [now apply whole_float|]); constructor|].
      split; [constructor|]. split; [discriminate|]. split; [reflexivity|].
      constructor; [|constructor; [|constructor]]; (split; [vm_compute; reflexivity|now apply NM]).
    + constructor; [|constructor]. exists (T "26056 0.25 6012 0.25" ++ [newline]). reflexivity.
    + exists (T "26056.70c 0.5 "). split.
      * split; [exists []; repeat split; cbn; lia|]. split; [discriminate|]. split; [reflexivity|]. split; [split; vm_compute; intuition discriminate|].
        constructor; [|constructor]. split; [split; vm_compute; intuition discriminate|]. split; [exists (T "26056 0.25 6012 0.25"); reflexivity|reflexivity].
      * split; [vm_compute; reflexivity|]. split.
        -- repeat (constructor; [split; [unfold no_eq; vm_compute; intuition discriminate|split; [unfold no_eq; vm_compute; intuition discriminate|vm_compute; discriminate]]|]). constructor.
        -- constructor; [|constructor; [|constructor]]; vm_compute; reflexivity.
    + constructor.
    + split; [intros [(r & E)|(r & E)]; discriminate|]. constructor; [|constructor]. split; [vm_compute; reflexivity|now apply NM].
  - eexists [_; _; _], _, _. split; [reflexivity|]. split; discriminate.
Qed.

(** The file is read: two cells, two surfaces, one transform, one material with 0.75 of iron. *)
Example C81_example : exists p tr m,
  read_file 1 file81 = Some p /\ Forall2 (fun x y => cell_got (snd x) y) cells81 (f_cells p) /\
  Forall2 (fun x y => surf_got (snd x) y) surfs81 (f_surfs p) /\
  (exists t, pget NEUTRON (f_imps p) = Some t /\ words t = [T "1"; T "0"]) /\
  dget (T "7") (f_trans p) = Some tr /\ motion_of tr = Motion (Pt 0 0 5) (Pt 1 0 0) (Pt 0 1 0) (Pt 0 0 1) /\
  dget (T "1") (f_mats p) = Some m /\ forall v, dget (T "26056") (m_comp m) = Some v -> (v == 3 # 4)%Q.
Proof.
  destruct (C81_file_partial file81 _ _ cells81 [newline] surfs81 [newline] data81 file81_read) as (p & R & _ & C & S & I & Tr & M);
    [vm_compute; reflexivity|exact comments81|discriminate|reflexivity|discriminate|reflexivity|exact says_cells81|exact says_surfs81|exact says_datas81|].
  destruct I as [_ I]. destruct (I [] (skipn 1 (map snd data81)) NEUTRON [T "1"; T "0"] eq_refl) as (t & E & W).
  { intros ws J. cbn in J. intuition discriminate. }
  destruct Tr as [_ Tr]. destruct (Tr (T "7") (Motion (Pt 0 0 5) (Pt 1 0 0) (Pt 0 1 0) (Pt 0 0 1))) as (tr & ET & MT); [exists [], []; split; [reflexivity|intros []]|].
  destruct M as [_ M]. destruct (M (T "1") [Nuclide (T "26056.70c") (T "0.5"); Nuclide (T "26056") (T "0.25"); Nuclide (T "6012") (T "0.25")]) as (m & EM & _ & _ & FM);
    [exists [], []; split; [reflexivity|intros []]|].
  exists p, tr, m. split; [exact (R 0)|]. split; [exact C|]. split; [exact S|]. split; [exists t; now split|]. split; [exact ET|]. split; [exact MT|]. split; [exact EM|].
  intros v Ev. destruct (FM (T "26056")) as (_ & F2 & _). rewrite (F2 v Ev). vm_compute. reflexivity.
Qed.
