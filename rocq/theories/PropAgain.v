(** C91: the MCNP file that is written is again a file that the program converts (csg2csg/__main__.py 74-134,
    MCNPInput.py 1303-1412). *)
From Coq Require Import QArith Qabs Reals Lra Lia Permutation.
From Verif Require Import PyStr PyStrFacts PyInt PyIntFacts PyDict FortranNumber RegionSpec RegionFacts LexSpec CellModel CellProofs CellText CellWriters CellWritersProofs
  CellWritersOut SurfModel GeomSpec SurfSpec SurfProofs PropSurf SurfWriters SurfWritersProofs SurfTargets FlattenModel NotsModel BoundaryModel MaterialModel MaterialProofs MaterialWriters PropMaterial
  PropMaterialOut PropMaterialTargets KeywordModel DeckScan FileModel FileProofs PropKeyword PropDeck ProcessModel PropProcess PropRead ConvertModel LayoutProofs
  MainModel PropPlace PropMain PropCards PropProgram PropTexts WrapProofs PropFile.
From Verif Require Import NamesModel MacroModel FlattenProofs ProcessSpec PropVacuum PropProgramMcnp.
From Verif Require PropProgramPhits PropSurfOut.
Open Scope nat_scope.
Open Scope list_scope.

(* ------------------------------------------------------------------ *)
(** * The file is of the form that is read *)

(** ** Cells *)

(** What the card of a cell says. *)
Definition cell_said (show : Q -> text) (c : gcell) (s : cell_says) : Prop :=
  cs_id s = g_id c /\
  (if (g_mat c =? 0)%Z then cs_mat s = None
   else exists q, cs_mat s = Some (g_mat c, q) /\ get_fortran_formatted_number (g_dens c) = Some q) /\
  expr (toks (g_items c)) (cs_region s) /\
  exists tr, map e_kw (cs_keys s) = kinds_of show c tr /\
    match tr with
    | None => placement (g_offset c) (g_rot c) = []
    | Some (_, inner) => placement (g_offset c) (g_rot c) <> [] /\ words inner = placement (g_offset c) (g_rot c)
    end.

Lemma int_word_plain w : int_word w -> CellText.plain w.
Proof. intro I. split; [now apply int_word_nonempty|now apply int_word_plain_char]. Qed.

Lemma hash_word w X b : int_word w -> hash_ok b (w ++ X) = hash_ok false X.
Proof.
  intro IW. assert (NE := int_word_nonempty w IW). assert (CH := int_word_chars w IW). clear IW. revert b.
  assert (K : forall w : text, (forall c, In c w -> is_digit c = true \/ c = "-"%char) -> forall b, hash_ok b (w ++ X) = match w with [] => hash_ok b X | _ => hash_ok false X end).
  { clear. induction w as [|c w IH]; intros CH b; [reflexivity|]. cbn [app hash_ok].
    assert (D : is_space c = false /\ Ascii.eqb c "+" = false /\ Ascii.eqb c "#" = false /\ is_delim c = false).
    { destruct (CH c (or_introl eq_refl)) as [D| ->]; [|repeat split; reflexivity]. unfold is_delim.
      destruct (is_space c) eqn:S; [apply space_not_digit in S; congruence|].
      repeat match goal with |- context [Ascii.eqb c ?d] => destruct (Ascii.eqb_spec c d); [subst; discriminate|] end. auto. }
    destruct D as (-> & -> & -> & ->). rewrite IH by (intros; apply CH; now right). now destruct w. }
  intro b. rewrite K by exact CH. now destruct w.
Qed.

Lemma hash_items l : forall ok b, spaced ok l = true -> Forall int_word (words_of l) -> hash_ok b (flat_map mcnp_op l ++ [blank]) = true.
Proof.
  induction l as [|i l IH]; intros ok b S F; [reflexivity|]. cbn [flat_map]. rewrite <- app_assoc.
  destruct i as [[| |]|s]; cbn [spaced] in S; cbn [words_of flat_map] in F.
  - cbn [mcnp_op]. change (T "  " ++ ?x) with (blank :: blank :: x). cbn [hash_ok]. change (is_space blank) with true. cbv iota. now apply (IH true).
  - cbn [mcnp_op]. change (T " : " ++ ?x) with (blank :: ":"%char :: blank :: x). cbn [hash_ok]. change (is_space blank) with true. change (is_space ":") with false.
    change (Ascii.eqb ":" "+") with false. change (Ascii.eqb ":" "#") with false. change (is_delim ":") with true. cbv iota. now apply (IH false).
  - cbn [mcnp_op]. change (T " #" ++ ?x) with (blank :: "#"%char :: x). cbn [hash_ok]. change (is_space blank) with true. change (is_space "#") with false.
    change (Ascii.eqb "#" "+") with false. change (Ascii.eqb "#" "#") with true. cbv iota. rewrite (IH false false S F), andb_true_r. cbn [andb].
    destruct (mcnp_words l false S F) as [_ B]. destruct (B eq_refl) as [-> | (t & ->)]; reflexivity.
  - unfold is_word in *. cbn [mcnp_op]. destruct (text_eqb_spec s (T "(")) as [E|N1].
    { change (T " ( " ++ ?x) with (blank :: "("%char :: blank :: x). cbn [hash_ok]. change (is_space blank) with true. change (is_space "(") with false.
      change (Ascii.eqb "(" "+") with false. change (Ascii.eqb "(" "#") with false. change (is_delim "(") with true. cbv iota. now apply (IH true). }
    destruct (text_eqb_spec s (T ")")) as [E|N2].
    { change (T " ) " ++ ?x) with (blank :: ")"%char :: blank :: x). cbn [hash_ok]. change (is_space blank) with true. change (is_space ")") with false.
      change (Ascii.eqb ")" "+") with false. change (Ascii.eqb ")" "#") with false. change (is_delim ")") with true. cbv iota. now apply (IH false). }
    cbn [orb negb app] in S, F. apply andb_true_iff in S as [_ S]. inversion F as [|? ? IW F']; subst. rewrite hash_word by exact IW. now apply (IH false).
Qed.

Lemma cell_says_card show c r : good_gcell show c r -> exists l0 ls N, (forall fuel, N <= fuel -> write_mcnp_cell fuel true (to_w show c) = Some (with_ends (l0 :: ls))) /\
  card_good (l0, ls) /\ exists s, says_cell (PropDeck.card_text (wrapped_card l0 ls)) s /\ cell_said show c s.
Proof.
  intro G. destruct (cell_shape show c r G) as (l0 & ls & N & F1 & W1 & W2 & W3 & W4 & b' & es & tr & E1 & WB' & GB & NB & FE & ND & EN & KK & PL).
  exists l0, ls, N. split; [exact F1|]. split; [exact (conj W1 (conj W2 W4))|].
  destruct (text_facts show c r G) as [WB _]. destruct G as (L1 & L2 & GM & GD & GS & EX & GW & _).
  assert (IW : Forall int_word (words_of (g_items c))) by (apply (Forall_impl _) with (2 := GW); now intros a [A _]).
  assert (OA : Forall (one_atom mcnp_lex) (words_of (g_items c))) by (apply (Forall_impl _) with (2 := IW); intros a A; now apply plain_one_atom, int_word_plain).
  set (geom := flat_map mcnp_op (g_items c) ++ [blank]).
  assert (WG : words geom = flat_map item_text (g_items c)).
  { unfold geom. rewrite words_app_space_r by reflexivity. now apply (mcnp_words _ false). }
  assert (LG : mcnp_lex geom = toks (g_items c)).
  { unfold geom. rewrite (mcnp_render _ false) by (eauto || (left; now exists [])). unfold mcnp_lex. cbn [lex]. now rewrite app_nil_r. }
  assert (HG : hash_ok true geom = true).
  { unfold geom. now apply (hash_items _ false). }
  assert (DG : ~ In "$"%char geom).
  { unfold geom. clear - IW. rewrite in_app_iff. intros [I|[I|[]]]; [|discriminate]. apply in_flat_map in I as (i & J & I). destruct i as [[| |]|s]; cbn [mcnp_op] in I;
      try (revert I; vm_compute; intuition discriminate).
    destruct (text_eqb_spec s (T "(")) as [E|N1]; [revert I; vm_compute; intuition discriminate|]. destruct (text_eqb_spec s (T ")")) as [E|N2]; [revert I; vm_compute; intuition discriminate|].
    assert (IS : int_word s).
    { rewrite Forall_forall in IW. apply IW. unfold words_of. apply in_flat_map. exists (Str s). split; [exact J|]. unfold is_word.
      destruct (text_eqb_spec s (T "(")); [contradiction|]. destruct (text_eqb_spec s (T ")")); [contradiction|]. now left. }
    apply (int_word_chars s IS) in I as [I|I]; discriminate. }
  assert (PZ : forall z, CellText.plain (str_Z z)) by (intro z; apply int_word_plain, int_word_str).
  unfold mcnp_head in WB. cbn [w_id w_mat w_dens to_w] in WB.
  destruct (Z.eqb_spec (g_mat c) 0) as [EM|EM].
  - exists (mkCS (g_id c) None r es). split.
    + exists b', [newline], (str_Z (g_id c)), (str_Z (g_mat c)), geom. unfold says_parts. cbn [cs_id cs_mat cs_region cs_keys]. rewrite W2, LG, HG, WG, WB', WB, !py_int_str_Z, EM.
      split; [exact E1|]. split; [reflexivity|]. repeat (split; [first [assumption | apply PZ | reflexivity]|]). reflexivity.
    + unfold cell_said. cbn [cs_id cs_mat cs_region cs_keys]. rewrite EM. change (0 =? 0)%Z with true. cbv iota. split; [reflexivity|]. split; [reflexivity|]. split; [exact EX|]. now exists tr.
  - destruct (GD EM) as (NU & NP & FN). destruct (get_fortran_formatted_number (g_dens c)) as [q|] eqn:EQ; [|tauto].
    exists (mkCS (g_id c) (Some (g_mat c, q)) r es). split.
    + exists b', [newline], (str_Z (g_id c)), (str_Z (g_mat c)), geom. unfold says_parts. cbn [cs_id cs_mat cs_region cs_keys]. rewrite W2, LG, HG, WG, WB', WB, !py_int_str_Z.
      split; [exact E1|]. split; [reflexivity|]. repeat (split; [first [assumption | apply PZ | reflexivity]|]). split; [lia|].
      exists (g_dens c). split; [|split; [exact EQ|reflexivity]]. clear - NU NP. split; [now destruct NU|].
      apply forallb_forall. intros x I. assert (B := numeral_body _ NU NP). rewrite forallb_forall in B. specialize (B x I).
        destruct NU as (_ & _ & F). rewrite forallb_forall in F. specialize (F x I).
        apply orb_true_iff in F as [F|F].
        * unfold plain_char, is_delim. destruct (is_space x) eqn:S; [apply space_not_digit in S; congruence|].
          repeat match goal with |- context [Ascii.eqb x ?d] => destruct (Ascii.eqb_spec x d); [subst; discriminate|] end. reflexivity.
        * apply existsb_exists in F as (d & J & Q0). apply Ascii.eqb_eq in Q0. subst d. cbn in J. destruct J as [<-|[<-|[<-|[<-|[]]]]]; try reflexivity. contradiction.
    + unfold cell_said. cbn [cs_id cs_mat cs_region cs_keys]. destruct (Z.eqb_spec (g_mat c) 0); [contradiction|]. split; [reflexivity|]. split; [now exists q|]. split; [exact EX|]. now exists tr.
Qed.

(** ** Surfaces *)

Lemma to_float_words str vals : Forall (fun x => to_float (str x) = Some x /\ numeral (str x)) vals -> reads (map str vals) vals.
Proof. unfold reads. induction 1 as [|x l [H _] F IH]; cbn [map]; constructor; assumption. Qed.

Lemma T_inj a b : T a = T b -> a = b.
Proof. intro E. apply (f_equal string_of_list_ascii) in E. unfold T in E. now rewrite !string_of_list_ascii_of_string in E. Qed.

Lemma reads_once toks vals vals' : reads toks vals -> reads toks vals' -> vals = vals'.
Proof.
  unfold reads. intro F. revert vals'. induction F as [|t v toks vals E F IH]; intros vals' F'; inversion F' as [|? v' ? ? E' F2]; subst; [reflexivity|].
  rewrite E in E'. injection E' as ->. f_equal. now apply IH.
Qed.

(** What is said by the card of a surface. *)
Definition surf_said (s : surface) (x : card * surf_says) : Prop :=
  ss_id (snd x) = s_id s /\ ss_tr (snd x) = None /\
  (exists sn sn', surf_sense s = Some sn /\ ss_shape (snd x) = Plain sn' /\ same_sense sn' sn) /\
  forall m vals, spells (card_words (fst x)) None m vals -> ~ cut m vals /\ (torus_card m -> is_torus (s_type s) = true /\ vals = s_coef s).

Lemma surf_says_card str s sn : good_surface str s sn -> plain_bc s ->
  exists l0 ls N, (forall fuel b, N <= fuel -> mcnp_surface str fuel (s, b) = Some (with_ends (l0 :: ls))) /\
  card_good (l0, ls) /\ exists x, says_surf (card_words (wrapped_card l0 ls)) x /\ surf_said s (wrapped_card l0 ls, x).
Proof.
  intros G B. destruct (surf_card str s sn G) as (l0 & ls & N0 & W0 & G1 & G2 & G3 & G4 & _ & bt & m & vals & sn' & EB & WW & M & SS & IN & T1 & T2 & T3 & _).
  exists l0, ls, N0. split; [exact W0|]. split; [exact (conj G1 (conj G2 G4))|].
  assert (bt = []) by (destruct B as [B|B]; rewrite B in EB; cbn [mcnp_boundary] in EB; now injection EB as <-). subst bt. cbn [app] in WW.
  rewrite <- G2, words_card in WW by exact G1. destruct G as (E & _ & _ & PI & _ & P).
  assert (RD : reads (map str vals) vals).
  { apply to_float_words. apply Forall_forall. intros x I. rewrite Forall_forall in P. apply P, IN, I. }
  exists (mkSS (s_id s) None (Plain sn')). split.
  - exists (str_Z (s_id s)), m, (map str vals), vals. cbn [ss_id ss_tr ss_shape]. split; [apply py_int_str_Z|]. split.
    { intro I. apply (int_word_chars _ (int_word_str (s_id s))) in I as [I|I]; discriminate. }
    split; [exact WW|]. split; [exact RD|now constructor].
  - unfold surf_said. cbn [fst snd ss_id ss_tr ss_shape]. split; [reflexivity|]. split; [reflexivity|]. split; [now exists sn, sn'|].
    intros m2 vals2 (idtok & toks & E2 & RD2). rewrite WW in E2. injection E2 as _ EM ET. apply T_inj in EM. subst m2 toks.
    assert (vals2 = vals).
    { apply (reads_once _ _ _ RD2 RD). }
    subst vals2. split.
    + intro C. inversion C; subst; try (apply T2; cbn [In]; tauto); (cbn [In length] in T1; assert (X : 5 = 4) by (apply T1; tauto); discriminate).
    + intro TC. apply T3. unfold torus_card in TC. cbn [In]. intuition.
Qed.

(** ** Materials *)

Definition mat_entries (show : Q -> text) (m : material) : list PropMaterial.entry := map (fun e => Nuclide (fst e) (show (snd e))) (m_comp m).

Lemma mat_says show m : good_material show false m -> Forall (fun e => numeral (show (snd e))) (m_comp m) ->
  says_data (mat_card show false m) (DMat (m_num m) (mat_entries show m)).
Proof.
  intros G NQ. destruct (mat_card_ok show false m G) as (rest & MC & W). assert (MD := mat_data show m G NQ). split.
  - split.
    + destruct MC as ((a & A & L & E) & _). intros (r & H). unfold PropDeck.printed in H. rewrite E, <- app_assoc in H. clear - A L H.
      assert (K : forall k (a : text) y, forallb (Ascii.eqb blank) a = true -> length a < k -> a ++ "m"%char :: y <> repeat blank k ++ r).
      { clear. induction k as [|k IH]; intros a y A L H; [lia|]. destruct a as [|c a]; [discriminate|]. cbn [repeat app] in H. injection H as _ H.
        cbn [forallb] in A. apply andb_true_iff in A as [_ A]. apply (IH a y A); [cbn [length] in L; lia|exact H]. }
      cbn [app] in H. exact (K 5 a _ A L H).
    + destruct MC as (_ & _ & _ & _ & F). apply (Forall_impl _) with (2 := F). intros l (_ & (r & E) & _). unfold indented, PropDeck.printed. rewrite E, <- app_assoc. eauto.
  - exists rest. split; [exact MC|]. split; [|split].
    + rewrite W. unfold mat_entries. clear. induction (m_comp m) as [|e es IH]; [reflexivity|]. cbn [flat_map map entry_words]. rewrite IH. unfold PropMaterialOut.token. cbv iota. now rewrite app_nil_r.
    + destruct G as (_ & _ & _ & _ & F). unfold mat_entries. apply Forall_map. rewrite Forall_forall in *. intros e I. destruct (F e I) as ([_ Z] & (_ & v & V & _) & _).
      cbn [PropMaterial.entry_ok]. split; [|split].
      * intro J. rewrite forallb_forall in Z. apply Z in J. discriminate.
      * intro J. destruct (NQ e I) as (_ & _ & N). rewrite forallb_forall in N. apply N in J. discriminate.
      * rewrite V. discriminate.
    + apply (Forall_impl _) with (2 := MD). intros x [N _]. destruct (sub_in (T "imp") x) eqn:S; [|reflexivity].
      exfalso. apply N. apply FlattenProofs.sub_in_app in S as (a & b & ->). rewrite !in_app_iff. right. left. now left.
Qed.

(** ** The file *)

Lemma cells_say show cells : Forall (fun c => exists r, good_gcell show c r) cells ->
  exists cl ss N, (forall fuel, N <= fuel -> texts (fun c => write_mcnp_cell fuel true (to_w show c)) cells = Some (with_ends (lines_of cl))) /\ Forall card_good cl /\
    says_cells (combine (map (fun p => wrapped_card (fst p) (snd p)) cl) ss) /\ length cl = length ss /\ Forall2 (cell_said show) cells ss.
Proof.
  intro F. assert (K : exists cl ss N, (forall fuel, N <= fuel -> mapM (fun c => write_mcnp_cell fuel true (to_w show c)) cells = Some (map (fun p => with_ends (fst p :: snd p)) cl)) /\ Forall card_good cl /\
    says_cells (combine (map (fun p => wrapped_card (fst p) (snd p)) cl) ss) /\ length cl = length ss /\ Forall2 (cell_said show) cells ss).
  { induction F as [|c cells (r & G) F (cl & ss & N & W & FG & S1 & S2 & S3)].
    - exists [], [], 0. repeat split; constructor.
    - destruct (cell_says_card show c r G) as (l0 & ls & N0 & W0 & G1 & s & H1 & H2).
      exists ((l0, ls) :: cl), (s :: ss), (Nat.max N0 N). split; [|split; [|split; [|split]]].
      + intros fuel L. cbn [mapM]. rewrite W0, W by lia. reflexivity.
      + now constructor.
      + unfold says_cells in *. cbn [map combine fst snd]. constructor; [|exact S1]. cbn [fst snd]. split; [apply G1|exact H1].
      + cbn [length]. now rewrite S2.
      + now constructor. }
  destruct K as (cl & ss & N & W & FG & R). exists cl, ss, N. split; [|now split]. intros fuel L. unfold texts. rewrite W by exact L. cbn [option_map]. now rewrite with_ends_lines.
Qed.

Lemma surfs_say str ss : Forall (fun s => (exists sn, good_surface str (fst s) sn) /\ plain_bc (fst s)) ss ->
  exists cl xs N, (forall fuel, N <= fuel -> texts (mcnp_surface str fuel) ss = Some (with_ends (lines_of cl))) /\ Forall card_good cl /\
    map fst xs = map (fun p => wrapped_card (fst p) (snd p)) cl /\ says_surfs xs /\ Forall2 (fun s => surf_said (fst s)) ss xs.
Proof.
  intro F. assert (K : exists cl xs N, (forall fuel, N <= fuel -> mapM (mcnp_surface str fuel) ss = Some (map (fun p => with_ends (fst p :: snd p)) cl)) /\ Forall card_good cl /\
    map fst xs = map (fun p => wrapped_card (fst p) (snd p)) cl /\ says_surfs xs /\ Forall2 (fun s => surf_said (fst s)) ss xs).
  { induction F as [|[s b] ss ((sn & G) & B) F (cl & xs & N & W & FG & S1 & S2 & S3)].
    - exists [], [], 0. repeat split; constructor.
    - destruct (surf_says_card str s sn G B) as (l0 & ls & N0 & W0 & G1 & x & H1 & H2).
      exists ((l0, ls) :: cl), ((wrapped_card l0 ls, x) :: xs), (Nat.max N0 N). split; [|split; [|split; [|split]]].
      + intros fuel L. cbn [mapM]. rewrite W0, W by lia. reflexivity.
      + now constructor.
      + cbn [map fst snd]. now rewrite S1.
      + unfold says_surfs in *. constructor; [|exact S2]. cbn [fst snd]. split; [apply G1|exact H1].
      + now constructor. }
  destruct K as (cl & xs & N & W & FG & R). exists cl, xs, N. split; [|now split]. intros fuel L. unfold texts. rewrite W by exact L. cbn [option_map]. now rewrite with_ends_lines.
Qed.

Lemma comments_cards cl rest rest' : Forall card_good cl -> with_comments rest rest' ->
  with_comments (flat_map card_lines (map (fun p => wrapped_card (fst p) (snd p)) cl) ++ rest) (map (fun l => lower l ++ [newline]) (lines_of cl) ++ rest').
Proof.
  intros F H. rewrite lower_lines. induction F as [|p cl (_ & _ & C) F IH]; [exact H|]. cbn [map flat_map]. rewrite <- !app_assoc.
  assert (K : forall u v l, Forall (fun x => is_comment_line x = false /\ exists y, x = y ++ [newline] /\ ~ In newline y) l -> with_comments u v -> with_comments (l ++ u) (l ++ v)).
  { clear. intros u v l C IH. induction C as [|x l [N _] C IH2]; [exact IH|]. cbn [app]. constructor; [|exact IH2]. intros r ->. discriminate. }
  now apply K.
Qed.

Lemma comments_mats show l : Forall (good_material show false) l -> 
  with_comments (flat_map (fun m => card_lines (mat_card show false m)) l) (map (fun l => lower l ++ [newline]) (flat_map (mat_lines show false true) l)).
Proof.
  induction 1 as [|m l G F IH]; [constructor|]. cbn [flat_map]. rewrite map_app. destruct G as (NU & NM & NE & ND & FE). unfold mat_lines, mat_card. destruct (m_comp m) as [|e es] eqn:CE; [tauto|].
  inversion FE as [|? ? (Z & P & X) FE']; subst. destruct (nuc_code_facts show false m e Z P X) as (L & _).
  assert (NZ := zaid_wordy _ NU). cbn [app map]. apply wc_comment.
  unfold card_lines at 1. cbn [fst snd app]. 
  replace (lower (T "M" ++ m_num m ++ nuc_code show false m e) ++ [newline]) with (PropDeck.printed (mkL (T "m" ++ m_num m ++ nuc_code show false m e) None)).
  2:{ unfold PropDeck.printed. cbn [PropDeck.code PropDeck.remark app]. rewrite !lower_app, L. destruct NZ as (_ & _ & ->). reflexivity. }
  constructor; [intros r H; discriminate|]. clear - FE' IH. 
  induction FE' as [|x es (Z & P & X) FE IH2]; [exact IH|]. cbn [map app]. destruct (nuc_code_facts show false m x Z P X) as (L & _).
  replace (lower (nuc_code show false m x) ++ [newline]) with (PropDeck.printed (mkL (nuc_code show false m x) None)) by (unfold PropDeck.printed; cbn [PropDeck.code PropDeck.remark app]; now rewrite L).
  constructor; [intros r H; discriminate|exact IH2].
Qed.

Lemma fst_combine {A B} (l : list A) : forall l' : list B, length l = length l' -> map fst (combine l l') = l /\ map snd (combine l l') = l'.
Proof. induction l as [|x l IH]; intros [|y l'] L; try discriminate; [split; reflexivity|]. cbn [combine map fst snd length] in *. destruct (IH l') as [-> ->]; [lia|]. split; reflexivity. Qed.
Lemma lines_fst {A} (l : list (card * A)) : flat_map (fun x => card_lines (fst x)) l = flat_map card_lines (map fst l).
Proof. induction l as [|x l IH]; [reflexivity|]. cbn [map flat_map]. now rewrite IH. Qed.

(** C91: the file that is written for a deck is one of the files that the program reads. *)
Theorem C91_file_partial str show d : good_deck str show d -> Forall (fun s => plain_bc (fst s)) (d_surfs d) -> d_mats d <> [] ->
  exists N t cells ss l, (forall fuel, N <= fuel -> mcnp_file str show fuel d = Some t) /\
    describes t cells ss (map (fun m => DMat (m_num m) (mat_entries show m)) l) /\
    Forall2 (cell_said show) (d_cells d) cells /\ Forall2 (fun s => surf_said (fst s)) (d_surfs d) ss /\
    NoDup (map m_num l) /\ (forall k m, In (k, m) (d_mats d) <-> In m l /\ k = m_num m).
Proof.
  intros (GC & GS & GM & ND) PB NM.
  destruct (sorted_ok (d_mats d)) as (l & SE & SM & SI); [intros k m I; now apply GM|exact ND|].
  assert (SP : Permutation (map m_num l) (keys (d_mats d))) by (rewrite SM; apply sort_perm).
  assert (NL : l <> []).
  { intros ->. destruct (d_mats d) as [|[k m] r]; [tauto|]. destruct (proj1 (SI k m) (or_introl eq_refl)) as [[] _]. }
  destruct (cells_say show _ GC) as (cc & cs & NC & WC & FC & RC & LC & HC).
  destruct (surfs_say str (d_surfs d)) as (sc & ss & NS & WS & FS & ES & RS & HS).
  { rewrite Forall_forall in *. intros s I. split; [now apply GS|now apply PB]. }
  assert (F : Forall (good_material show false) l).
  { apply Forall_forall. intros m I. apply (GM (m_num m) m). apply SI. now split. }
  assert (FN : Forall (fun m => Forall (fun e => numeral (show (snd e))) (m_comp m)) l).
  { apply Forall_forall. intros m I. apply (GM (m_num m) m). apply SI. now split. }
  set (ml := flat_map (mat_lines show false true) l).
  assert (MO : mat_out show false true l = with_ends ml).
  { unfold mat_out, ml, with_ends. clear. induction l as [|m l IH]; [reflexivity|]. cbn [map concat flat_map]. now rewrite concat_lines_app, IH. }
  set (L := T "C cell definitions" :: lines_of cc ++ [] :: T "C surface definitions" :: lines_of sc ++ [] :: T "C material definitions" :: ml).
  exists (Nat.max NC NS), (with_ends L), cs, ss, l. split; [|split; [|split; [exact HC|split; [exact HS|split; [|exact SI]]]]].
  - intros fuel LF. unfold mcnp_file, write_mcnp_materials. rewrite SE. unfold ConvertModel.line. rewrite WC, WS by lia. rewrite write_all_ok by exact F. rewrite MO. cbn [option_map seqs ConvertModel.seq].
    f_equal. unfold L.
    change (T "C cell definitions" :: lines_of cc ++ [] :: T "C surface definitions" :: lines_of sc ++ [] :: T "C material definitions" :: ml)
      with ([T "C cell definitions"] ++ lines_of cc ++ [[]] ++ [T "C surface definitions"] ++ lines_of sc ++ [[]] ++ [T "C material definitions"] ++ ml).
    rewrite !with_ends_app. rewrite app_nil_r. reflexivity.
  - assert (NMT : Forall (fun x => ~ In newline x) ml).
    { unfold ml. apply Forall_flat_map. apply (Forall_impl _) with (2 := F). intros m' G'. now destruct (read_mat_lines show false true m' G'). }
    assert (NH : forall s : text, forallb (fun x => negb (Ascii.eqb x newline)) s = true -> ~ In newline s).
    { intros s S I. rewrite forallb_forall in S. specialize (S _ I). discriminate. }
    assert (NLN : Forall (fun x => ~ In newline x) L).
    { unfold L. constructor; [now apply NH|]. apply Forall_app. split; [now apply lines_no_newline|]. constructor; [now apply NH|]. constructor; [now apply NH|].
      apply Forall_app. split; [now apply lines_no_newline|]. constructor; [now apply NH|]. constructor; [now apply NH|exact NMT]. }
    exists (T "c cell definitions" ++ [newline]), (map (fun l => lower l ++ [newline]) (tl L)), (combine (map (fun p => wrapped_card (fst p) (snd p)) cc) cs),
      [newline], [newline], (map (fun m => (mat_card show false m, DMat (m_num m) (mat_entries show m))) l).
    destruct (fst_combine (map (fun p => wrapped_card (fst p) (snd p)) cc) cs) as [FC1 FC2]; [now rewrite map_length|].
    split; [|split; [reflexivity|split; [|split; [discriminate|split; [reflexivity|split; [discriminate|split; [reflexivity|split; [exact RC|split; [exact RS|split; [|split]]]]]]]]]].
    + exists (map (fun x => x ++ [newline]) L). split; [reflexivity|]. split.
      * apply Forall_map. apply (Forall_impl _) with (2 := NLN). intros x N. now exists x.
      * rewrite map_map. unfold L at 1. cbn [map]. f_equal. apply map_ext. intro x. apply lower_app.
    + rewrite !lines_fst, FC1, ES. replace (map fst (map (fun m => (mat_card show false m, DMat (m_num m) (mat_entries show m))) l)) with (map (mat_card show false) l) by (now rewrite map_map).
      unfold L. cbn [tl]. rewrite map_app. cbn [map]. rewrite map_app. cbn [map]. apply comments_cards; [exact FC|].
      apply wc_line; [intros r H; discriminate|]. apply wc_comment. apply comments_cards; [exact FS|]. apply wc_line; [intros r H; discriminate|]. apply wc_comment.
      rewrite flat_map_concat_map, map_map, <- flat_map_concat_map. now apply comments_mats.
    + split.
      * apply Forall_map. rewrite Forall_forall in *. intros m I. cbn [fst snd]. apply mat_says; auto.
      * destruct (exists_last NL) as (l0 & m & EL). rewrite EL. rewrite map_app. eexists _, _, _. split; [reflexivity|]. split; discriminate.
    + now rewrite FC2.
    + now rewrite map_map.
  - apply (Permutation_NoDup (Permutation_sym SP)). exact ND.
Qed.
Print Assumptions C91_file_partial.

(** The deck of C73 without its reflecting surface: its file says three cells, the second filled with universe 7 at three
    numbers, three surfaces and one material. *)
Definition deck91 : ConvertModel.deck :=
  ConvertModel.mkDeck [(mkS 3 None SPHERE_GENERAL [0; 1; 0; 1]%R TRANSMISSION, []); (mkS 4 None PLANE_X [1; 0; 0; 1]%R TRANSMISSION, []); (mkS 40 None PLANE_Z [0; 0; 1; 0]%R VACUUM, [])]
    cells_ex [(T "12", steel_ex)] [].
Lemma deck91_good : good_deck PropSurfOut.str01 show_ex deck91.
Proof.
  destruct C73_deck as (GC & GS & GM & ND). split; [exact GC|]. split; [|split; [exact GM|exact ND]].
  cbn [d_surfs deck_ex] in GS. inversion GS as [|x l (sn & H1) F E]; subst. cbn [d_surfs deck91]. constructor; [|exact F].
  exists sn. destruct H1 as (A & B & _ & C). split; [exact A|]. split; [exact B|]. split; [discriminate|exact C].
Qed.
Example C91_file_example : exists N t c1 c2 c3 ss sep inner, (forall fuel, N <= fuel -> mcnp_file PropSurfOut.str01 show_ex fuel deck91 = Some t) /\
  describes t [c1; c2; c3] ss [DMat (T "12") [Nuclide (T "26056") (show_ex (3 # 4)); Nuclide (T "6012") (show_ex (1 # 4))]] /\
  map ss_id (map snd ss) = [3; 4; 40]%Z /\ has_kw (KFill false (T "7") (Some (sep, inner))) (cs_keys c2) /\ words inner = [T "1.5"; T "0.0"; T "-2e-07"] /\
  cs_region c1 = RAtom (T "-3").
Proof.
  destruct (C91_file_partial PropSurfOut.str01 show_ex deck91 deck91_good) as (N & t & cells & ss & l & W & DS & FC & FS & NL & LI).
  { cbn [d_surfs deck91]. constructor; [now left|]. constructor; [now left|]. constructor; [now right|constructor]. }
  { discriminate. }
  assert (EL : l = [steel_ex]).
  { assert (I1 : In steel_ex l) by (apply (LI (T "12")); now left).
    assert (ALL : forall m, In m l -> m = steel_ex) by (intros m I; destruct (proj2 (LI (m_num m) m) (conj I eq_refl)) as [E|[]]; now injection E).
    destruct l as [|a [|b r]]; [destruct I1|now rewrite (ALL a (or_introl eq_refl))|]. exfalso. rewrite (ALL a), (ALL b) in NL by (cbn [In]; auto).
    inversion NL as [|? ? N1 _]; subst. apply N1. now left. }
  subst l. cbn [d_cells deck91 cells_ex] in FC. inversion FC as [|g1 c1 ? ? S1 F1]; subst. inversion F1 as [|g2 c2 ? ? S2 F2]; subst. inversion F2 as [|g3 c3 ? ? S3 F3]; subst. inversion F3; subst.
  destruct S2 as (_ & _ & _ & tr & KK & PL). destruct tr as [[sep inner]|]; [|discriminate PL]. destruct PL as [_ PL].
  exists N, t, c1, c2, c3, ss, sep, inner. split; [exact W|]. split; [exact DS|]. split.
  { cbn [d_surfs deck91] in FS. inversion FS as [|? x1 ? ? (X1 & _) G1]; subst. inversion G1 as [|? x2 ? ? (X2 & _) G2]; subst. inversion G2 as [|? x3 ? ? (X3 & _) G3]; subst. inversion G3; subst.
    cbn [map]. rewrite X1, X2, X3. reflexivity. }
  split; [unfold has_kw; rewrite KK; left; reflexivity|]. split; [exact PL|].
  destruct S1 as (_ & _ & EX & _). apply (expr_unique _ _ _ EX). apply parse_sound. vm_compute. reflexivity.
Qed.
