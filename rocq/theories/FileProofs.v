(** Facts for the property C73 (PropFile.v): the cards of a written MCNP file. *)
From Coq Require Import Reals QArith Permutation ZifyBool Lia.
From Verif Require Import PyStr PyStrFacts PyInt PyIntFacts PyDict Formatter FormatterProofs WrapProofs FortranNumber FortranNumberProofs
  RegionSpec RegionFacts CellModel CellProofs CellText CellWriters CellWritersProofs CellWritersOut
  SurfModel GeomSpec SurfSpec SurfProofs SurfWriters SurfWritersProofs TargetSpec PropSurf FlattenModel NamesModel MaterialModel MaterialWriters KeywordModel
  DeckScan ConvertModel FileModel PropSurfOut PropKeyword PropDeck PropMaterialOut.
Open Scope nat_scope.
Open Scope list_scope.

(* ------------------------------------------------------------------ *)
(** * Blanks in a row *)

(** At most two blanks in a row, [n] of which have been seen. *)
Fixpoint airy (n : nat) (s : text) : bool :=
  match s with
  | [] => true
  | c :: r => if Ascii.eqb c blank then (n <? 2) && airy (S n) r else airy 0 r
  end.

Lemma airy_le s : forall n m, m <= n -> airy n s = true -> airy m s = true.
Proof.
  induction s as [|c s IH]; intros n m L H; [reflexivity|]. cbn [airy] in *. destruct (Ascii.eqb c blank); [|exact H].
  apply andb_true_iff in H as [H1 H2]. apply andb_true_iff. split; [lia|]. apply (IH (S n)); [lia|exact H2].
Qed.
Lemma airy_mid a c b : c <> blank -> forall n, airy n (a ++ c :: b) = airy n a && airy 0 b.
Proof.
  intro N. induction a as [|d a IH]; intro n; cbn [app airy].
  - destruct (Ascii.eqb_spec c blank); [contradiction|reflexivity].
  - destruct (Ascii.eqb d blank); [|apply IH]. rewrite IH. now rewrite andb_assoc.
Qed.
Lemma airy_word w b : w <> [] -> ~ In blank w -> forall n, airy n (w ++ b) = airy 0 b.
Proof.
  induction w as [|c w IH]; [tauto|]. intros _ N n. cbn [app airy]. destruct (Ascii.eqb_spec c blank); [exfalso; apply N; now left|].
  destruct w as [|d w]; [reflexivity|]. apply IH; [discriminate|]. intro I. apply N. now right.
Qed.
Lemma airy_prefix a b : forall n, airy n (a ++ b) = true -> airy n a = true.
Proof.
  induction a as [|c a IH]; intros n H; [reflexivity|]. cbn [app airy] in *. destruct (Ascii.eqb c blank); [|now apply IH].
  apply andb_true_iff in H as [-> H]. now apply IH.
Qed.
Lemma airy_suffix a b : forall n, airy n (a ++ b) = true -> airy 0 b = true.
Proof.
  induction a as [|c a IH]; intros n H; [apply (airy_le b n); [lia|exact H]|]. cbn [app airy] in H. destruct (Ascii.eqb c blank); [|now apply IH in H].
  apply andb_true_iff in H as [_ H]. now apply IH in H.
Qed.
Lemma airy_airless s : airy 0 s = true -> airless s.
Proof. intros H a b ->. apply airy_suffix in H. discriminate. Qed.

Lemma airy_collapse s : airy 1 (collapse s) = true /\ (match s with c :: _ => c <> blank | [] => True end -> airy 2 (collapse s) = true).
Proof.
  induction s as [|c s [IH1 IH2]]; [now split|]. cbn [collapse]. destruct (Ascii.eqb_spec c blank) as [->|N].
  - split; [|tauto]. destruct s as [|d s]; [reflexivity|]. destruct (Ascii.eqb_spec d blank) as [->|N]; [exact IH1|].
    cbn [airy]. change (Ascii.eqb blank blank) with true. cbn iota. cbn [Nat.ltb Nat.leb andb]. apply IH2, N.
  - cbn [airy]. destruct (Ascii.eqb_spec c blank); [contradiction|]. split; [|intros _]; (apply (airy_le _ 1); [lia|exact IH1]).
Qed.

Lemma lstrip_suffix s : exists a, s = a ++ lstrip s.
Proof.
  induction s as [|c s (a & E)]; [now exists []|]. cbn [lstrip]. destruct (is_space c); [|now exists []].
  exists (c :: a). cbn [app]. now rewrite <- E.
Qed.
Lemma rstrip_prefix s : exists b, s = rstrip s ++ b.
Proof.
  destruct (lstrip_suffix (rev s)) as (a & E). exists (rev a). unfold rstrip. rewrite <- rev_app_distr, <- E. now rewrite rev_involutive.
Qed.
Lemma lstrip_head s : lstrip s = [] \/ exists c r, lstrip s = c :: r /\ is_space c = false.
Proof.
  induction s as [|c s IH]; [now left|]. cbn [lstrip]. destruct (is_space c) eqn:S; [exact IH|]. right. eauto.
Qed.
Lemma rstrip_last s : rstrip s = [] \/ exists r c, rstrip s = r ++ [c] /\ is_space c = false.
Proof.
  unfold rstrip. destruct (lstrip_head (rev s)) as [E|(c & r & E & S)]; rewrite E; [now left|]. right. exists (rev r), c. now split.
Qed.

(* ------------------------------------------------------------------ *)
(** * Words and the blanks put around parentheses *)

Lemma spacify_space c s : is_space c = true -> CellModel.spacify (c :: s) = c :: CellModel.spacify s.
Proof.
  intro S. rewrite !spacify_flat. cbn [flat_map]. assert (E : sp1 c = [c]); [|now rewrite E]. unfold sp1.
  destruct (Ascii.eqb_spec c "("); [subst; discriminate|]. destruct (Ascii.eqb_spec c ")"); [subst; discriminate|].
  destruct (Ascii.eqb_spec c ":"); [subst; discriminate|]. destruct (Ascii.eqb_spec c "+"); [subst; discriminate|reflexivity].
Qed.

Lemma words_spacify s : words (CellModel.spacify s) = flat_map (fun w => words (CellModel.spacify w)) (words s).
Proof.
  remember (length s) as n eqn:E. assert (L : length s <= n) by lia. clear E. revert s L.
  induction n as [|n IH]; intros s L.
  - destruct s; [reflexivity|cbn [length] in L; lia].
  - destruct (forallb (fun c => negb (is_space c)) s) eqn:F.
    + destruct s as [|c s]; [reflexivity|]. rewrite (words_single (c :: s)) by (exact F || discriminate). cbn [flat_map]. now rewrite app_nil_r.
    + assert (K : exists a c b, s = a ++ c :: b /\ is_space c = true).
      { clear - F. induction s as [|c s IH]; [discriminate|]. cbn [forallb] in F. destruct (is_space c) eqn:S.
        - exists [], c, s. now split.
        - destruct (IH F) as (a & d & b & -> & D). exists (c :: a), d, b. now split. }
      destruct K as (a & c & b & -> & S). rewrite app_length in L. cbn [length] in L.
      rewrite spacify_app, spacify_space by exact S. rewrite !words_app_space by exact S. rewrite flat_map_app. rewrite !IH by lia. reflexivity.
Qed.

(** The words of a description as it is written. *)
Definition item_text (i : item) : list text :=
  match i with Op AND => [] | Op UNION => [T ":"] | Op NOT => [T "#"] | Str s => [s] end.

Lemma mcnp_words l : forall ok, spaced ok l = true -> Forall int_word (words_of l) ->
  words (flat_map mcnp_op l) = flat_map item_text l /\
  (ok = false -> l = [] \/ exists t, flat_map mcnp_op l = blank :: t).
Proof.
  induction l as [|i l IH]; intros ok S F; [split; [reflexivity|now left]|]. cbn [flat_map].
  destruct i as [[| |]|s]; cbn [spaced] in S; cbn [words_of flat_map] in F.
  - destruct (IH _ S F) as [W _]. split; [|right; eexists; reflexivity]. cbn [mcnp_op item_text app].
    change (T "  " ++ ?x) with (blank :: blank :: x). rewrite !words_cons_space by reflexivity. exact W.
  - destruct (IH _ S F) as [W _]. split; [|right; eexists; reflexivity]. cbn [mcnp_op item_text app].
    change (T " : " ++ ?x) with ((blank :: T ":") ++ blank :: x). rewrite words_app_space by reflexivity. now rewrite W.
  - destruct (IH _ S F) as [W B]. split; [|right; eexists; reflexivity]. cbn [mcnp_op item_text app]. destruct (B eq_refl) as [->|(t & E)]; [reflexivity|].
    rewrite E in *. change (T " #" ++ blank :: t) with ((blank :: T "#") ++ blank :: t). rewrite words_app_space by reflexivity.
    rewrite words_cons_space in W by reflexivity. now rewrite W.
  - unfold is_word in *. cbn [mcnp_op item_text]. destruct (text_eqb_spec s (T "(")) as [E|N1].
    { subst s. cbn [orb negb] in *. cbn [app] in F. destruct (IH _ S F) as [W _]. split; [|right; eexists; reflexivity].
      change (T " ( " ++ ?x) with ((blank :: T "(") ++ blank :: x). rewrite words_app_space by reflexivity. now rewrite W. }
    destruct (text_eqb_spec s (T ")")) as [E|N2].
    { subst s. cbn [orb negb] in *. cbn [app] in F. destruct (IH _ S F) as [W _]. split; [|right; eexists; reflexivity].
      change (T " ) " ++ ?x) with ((blank :: T ")") ++ blank :: x). rewrite words_app_space by reflexivity. now rewrite W. }
    cbn [orb negb] in *. cbn [app] in F. inversion F as [|? ? IW F']; subst. apply andb_true_iff in S as [OK S]. destruct (IH _ S F') as [W B].
    split; [|intros ->; discriminate]. cbn [app].
    assert (NE := int_word_nonempty s IW). assert (NS := int_word_nonspace s IW). unfold nonspace in NS.
    destruct (B eq_refl) as [->|(t & E)].
    + cbn [flat_map]. rewrite app_nil_r. now apply words_single.
    + rewrite E in *. rewrite words_app_space by reflexivity. rewrite words_single by assumption. cbn [app].
      rewrite words_cons_space in W by reflexivity. now rewrite W.
Qed.

Lemma int_word_plain_char w : int_word w -> forallb plain_char w = true.
Proof.
  intro H. apply forallb_forall. intros c I. destruct (int_word_chars w H c I) as [D| ->]; [|reflexivity].
  unfold plain_char, is_delim. destruct (is_space c) eqn:S; [apply space_not_digit in S; congruence|].
  repeat match goal with |- context [Ascii.eqb c ?d] => destruct (Ascii.eqb_spec c d); [subst; discriminate|] end. reflexivity.
Qed.

(** Reading what was written. *)
Lemma items_read l : Forall int_word (words_of l) ->
  flat_map (fun w => words (CellModel.spacify w)) (flat_map item_text l) = flat_map item_text l /\
  map word_tok (flat_map item_text l) = toks l.
Proof.
  induction l as [|i l IH]; intro F; [now split|]. cbn [words_of flat_map] in F. apply Forall_app in F as [F1 F2]. destruct (IH F2) as [I1 I2].
  cbn [flat_map]. rewrite flat_map_app, map_app, I1, I2. unfold toks. cbn [flat_map].
  destruct i as [[| |]|s]; cbn [item_text item_toks flat_map map app]; try (split; reflexivity).
  unfold is_word in F1. destruct (text_eqb_spec s (T "(")) as [E|N1]; [subst s; split; reflexivity|].
  destruct (text_eqb_spec s (T ")")) as [E|N2]; [subst s; split; reflexivity|]. cbn [orb negb] in F1.
  inversion F1 as [|? ? IW _]; subst. rewrite plain_spacify by now apply int_word_plain_char.
  rewrite words_single by (apply int_word_nonempty || apply int_word_nonspace; exact IW). cbn [app]. split; [reflexivity|].
  unfold word_tok, str_tok.
  destruct (text_eqb_spec s (T ":")) as [E|N3]; [subst s; apply int_word_plain_char in IW; discriminate|].
  destruct (text_eqb_spec s (T "#")) as [E|N4]; [subst s; apply int_word_plain_char in IW; discriminate|].
  destruct (text_eqb_spec s (T "(")); [contradiction|]. destruct (text_eqb_spec s (T ")")); [contradiction|]. reflexivity.
Qed.

(* ------------------------------------------------------------------ *)
(** * Cells *)

(** A number as Python prints it: not too long, digits and the characters [- + . e]. *)
Definition numeral (w : text) : Prop :=
  w <> [] /\ length w <= 40 /\ forallb (fun c => is_digit c || existsb (Ascii.eqb c) (T "-+.e")) w = true.

Lemma numeral_facts w : numeral w -> w <> [] /\ length w <= 40 /\ nonspace w /\ ~ In blank w /\ ~ In newline w /\ ~ In "$"%char w /\ ~ In "i"%char w /\
  lower w = w /\ forallb calm w = true /\ words w = [w].
Proof.
  intros (N & L & F).
  assert (P : forall p, (forall c, is_digit c = true -> p c = true) -> forallb p (T "-+.e") = true -> forallb p w = true).
  { intros p D S. rewrite forallb_forall in *. intros c I. specialize (F c I). apply orb_true_iff in F as [F|F]; [auto|].
    apply existsb_exists in F as (d & J & E). apply Ascii.eqb_eq in E. subst d. auto. }
  assert (Q : forall d, is_digit d = false -> existsb (Ascii.eqb d) (T "-+.e") = false -> ~ In d w).
  { intros d D S I. rewrite forallb_forall in F. specialize (F d I). rewrite D, S in F. discriminate. }
  assert (NS : nonspace w).
  { apply P; [|reflexivity]. intros c D. destruct (is_space c) eqn:S; [|reflexivity]. apply space_not_digit in S. congruence. }
  split; [exact N|]. split; [exact L|]. split; [exact NS|]. split; [now apply Q|]. split; [now apply Q|]. split; [now apply Q|]. split; [now apply Q|].
  split; [|split; [|now apply words_single]].
  - assert (LW : forallb (fun c => Ascii.eqb (lower_char c) c) w = true).
    { apply P; [|reflexivity]. intros c D. apply Ascii.eqb_eq. now apply digit_plain. }
    clear - LW. induction w as [|c w IH]; [reflexivity|]. cbn [forallb] in LW. apply andb_true_iff in LW as [H1 H2].
    cbn [lower map]. apply Ascii.eqb_eq in H1. unfold lower in IH. now rewrite H1, IH.
  - apply P; [|reflexivity]. apply digit_calm.
Qed.

Lemma number_numeral v : number v -> length v <= 40 -> numeral v.
Proof.
  intros (sg & d & f & -> & SG & D & F & N) L. split; [|split; [exact L|]].
  - destruct SG as [-> | [-> | ->]]; cbn [app]; (exact N || discriminate).
  - assert (DD : forall x, all_digits x -> forallb (fun c => is_digit c || existsb (Ascii.eqb c) (T "-+.e")) x = true).
    { intros x X. unfold all_digits in X. rewrite forallb_forall in *. intros c I. now rewrite (X c I). }
    rewrite !forallb_app. apply andb_true_iff. split; [destruct SG as [-> | [-> | ->]]; reflexivity|]. apply andb_true_iff. split; [now apply DD|].
    destruct F as [->|(x & -> & X & _)]; [reflexivity|]. cbn [forallb]. now rewrite (DD x X).
Qed.

(** The values of the transformation of a fill: three offsets and, if there is a rotation, nine cosines. *)
Definition placement (off rot : option (list text)) : list text :=
  match off, rot with
  | None, None => []
  | _, _ => match off with Some o => o | None => [T "0"; T "0"; T "0"] end ++ match rot with Some r => r | None => [] end
  end.

(** What is asked of a cell.  [r] is its region. *)
Definition good_gcell (show : Q -> text) (c : gcell) (r : region) : Prop :=
  length (str_Z (g_id c)) <= 60 /\ length (str_Z (g_mat c)) <= 60 /\ (0 <= g_mat c)%Z /\
  (g_mat c <> 0%Z -> numeral (g_dens c) /\ ~ In "+"%char (g_dens c) /\ get_fortran_formatted_number (g_dens c) <> None) /\
  spaced false (g_items c) = true /\ expr (toks (g_items c)) r /\
  Forall (fun w => int_word w /\ length w <= 60) (words_of (g_items c)) /\
  (forall u, g_univ c = Some u -> number u /\ length u <= 40) /\
  (forall f, g_fill c = Some f -> number f /\ length f <= 40) /\
  (forall o, g_offset c = Some o -> length o = 3 /\ Forall numeral o) /\
  (forall o, g_rot c = Some o -> length o = 9 /\ Forall numeral o) /\
  number (show (g_imp c)) /\ length (show (g_imp c)) <= 40 /\ exists q, py_float (show (g_imp c)) = Some q /\ (q == g_imp c)%Q.

(** ** The keywords as they are written *)

Definition chunk_text (e : nat * text) : text := repeat blank (fst e) ++ snd e.
Definition good_chunk (e : nat * text) : Prop := (fst e = 1 \/ fst e = 2) /\ snd e <> [] /\ length (snd e) <= 50 /\ nonspace (snd e).

Lemma nonspace_no w d : nonspace w -> is_space d = true -> ~ In d w.
Proof. unfold nonspace. rewrite forallb_forall. intros H S I. specialize (H _ I). now rewrite S in H. Qed.
Lemma chunks_space es c : Forall good_chunk es -> In c (flat_map chunk_text es) -> c = blank \/ is_space c = false.
Proof.
  intros F I. apply in_flat_map in I as (e & J & I). rewrite Forall_forall in F. destruct (F e J) as (_ & _ & _ & N).
  unfold chunk_text in I. apply in_app_iff in I as [I|I]; [left; symmetry; now apply repeat_spec in I|]. right.
  destruct (is_space c) eqn:S; [|reflexivity]. exfalso. now apply (nonspace_no _ _ N S).
Qed.

Lemma chunks_airy es : Forall good_chunk es -> airy 0 (flat_map chunk_text es) = true /\ maxrun (flat_map chunk_text es) <= 50.
Proof.
  induction 1 as [|[n w] es (N & NE & L & NS) F [IH1 IH2]]; [split; [reflexivity|cbn; lia]|]. cbn [flat_map]. unfold chunk_text at 1 3. cbn [fst snd] in *. assert (NB : ~ In blank w) by now apply nonspace_no.
  rewrite <- !app_assoc. assert (ML : maxrun (w ++ flat_map chunk_text es) <= 50).
  { assert (X : flat_map chunk_text es = [] \/ exists t, flat_map chunk_text es = blank :: t).
    { destruct F as [|[m v] es ([E|E] & _) F]; [now left| |]; cbn [fst] in E; subst m; right; eexists; reflexivity. }
    pose proof (maxrun_noblank w). destruct X as [X|(t & X)]; rewrite X in *; [rewrite app_nil_r; lia|]. rewrite maxrun_app_blank.
    cbn [maxrun] in IH2. lia. }
  destruct N as [-> | ->]; cbn [repeat app airy maxrun lead]; change (Ascii.eqb blank blank) with true; cbn iota; cbn [Nat.ltb Nat.leb andb];
    rewrite airy_word by assumption; (split; [exact IH1|lia]).
Qed.

Section Keywords.
Context (show : Q -> text) (c : gcell) (r : region) (G : good_gcell show c r).

Definition kw_text : text := mcnp_keywords true (to_w show c).

(** The text between the parentheses of a fill, before lines are wrapped. *)
Definition off_text : text := match g_offset c with Some o => concat_sp (firstn 3 o) | None => T " 0 0 0 " end.
Definition rot_text : text := match g_rot c with Some l => concat_sp (firstn 9 l) | None => [] end.
Definition inner_text : text := off_text ++ rot_text.

Lemma words_concat_sp l : Forall numeral l -> words (concat_sp l) = l.
Proof.
  induction 1 as [|w l N F IH]; [reflexivity|]. unfold concat_sp in *. cbn [flat_map]. rewrite <- app_assoc.
  destruct (numeral_facts w N) as (NE & _ & NS & _). rewrite words_head by assumption. now rewrite IH.
Qed.
Lemma words_concat_app a l : Forall numeral l -> (exists t, a = t ++ T " ") -> words (a ++ concat_sp l) = words a ++ l.
Proof.
  intros F (t & ->). rewrite <- app_assoc. change (T " " ++ ?x) with (blank :: x). rewrite words_app_space by reflexivity.
  rewrite words_concat_sp by exact F. f_equal. symmetry. apply words_app_space_r. reflexivity.
Qed.

Lemma concat_sp_ends l : l <> [] -> exists t, concat_sp l = t ++ T " ".
Proof.
  intro N. destruct (exists_last N) as (l' & w & ->). exists (concat_sp l' ++ w). unfold concat_sp. rewrite flat_map_app. cbn [flat_map].
  now rewrite app_nil_r, app_assoc.
Qed.

Lemma inner_words : (g_offset c <> None \/ g_rot c <> None) -> words inner_text = placement (g_offset c) (g_rot c).
Proof.
  destruct G as (_ & _ & _ & _ & _ & _ & _ & _ & _ & GO & GR & _). unfold inner_text, off_text, rot_text, placement. intro H.
  destruct (g_offset c) as [o|].
  - destruct (GO o eq_refl) as [L F]. rewrite firstn_all2 by lia. assert (o <> []) by now destruct o. destruct (g_rot c) as [l|].
    + destruct (GR l eq_refl) as [L2 F2]. rewrite firstn_all2 by lia. rewrite words_concat_app; [now rewrite words_concat_sp|exact F2|now apply concat_sp_ends].
    + rewrite !app_nil_r. now apply words_concat_sp.
  - destruct (g_rot c) as [l|]; [|tauto].
    destruct (GR l eq_refl) as [L2 F2]. rewrite firstn_all2 by lia. rewrite words_concat_app; [reflexivity|exact F2|now exists (T " 0 0 0")].
Qed.

Lemma inner_calm : forallb calm inner_text = true /\ lower inner_text = inner_text /\ ~ In newline inner_text /\ ~ In "$"%char inner_text.
Proof.
  destruct G as (_ & _ & _ & _ & _ & _ & _ & _ & _ & GO & GR & _).
  assert (K : forall l, Forall numeral l -> forallb calm (concat_sp l) = true /\ lower (concat_sp l) = concat_sp l /\ ~ In newline (concat_sp l) /\ ~ In "$"%char (concat_sp l)).
  { induction 1 as [|w l N F (I1 & I2 & I3 & I4)]; [repeat split; intros []|]. unfold concat_sp in *. cbn [flat_map].
    destruct (numeral_facts w N) as (_ & _ & _ & _ & X1 & X2 & _ & X3 & X4 & _). rewrite !forallb_app, !lower_app, X4, X3, I1, I2, !in_app_iff.
    repeat split; try reflexivity; cbn [In T list_ascii_of_string]; intuition discriminate. }
  assert (KO : forallb calm off_text = true /\ lower off_text = off_text /\ ~ In newline off_text /\ ~ In "$"%char off_text).
  { unfold off_text. destruct (g_offset c) as [o|].
    - destruct (GO o eq_refl) as [L F]. rewrite firstn_all2 by lia. now apply K.
    - repeat split; vm_compute; intuition discriminate. }
  assert (KR : forallb calm rot_text = true /\ lower rot_text = rot_text /\ ~ In newline rot_text /\ ~ In "$"%char rot_text).
  { unfold rot_text. destruct (g_rot c) as [l|]; [|repeat split; intros []]. destruct (GR l eq_refl) as [L F]. rewrite firstn_all2 by lia. now apply K. }
  unfold inner_text. destruct KO as (A1 & A2 & A3 & A4), KR as (B1 & B2 & B3 & B4). rewrite forallb_app, lower_app, !in_app_iff, A1, B1, A2, B2. tauto.
Qed.

Lemma sp_chunks l X : T " " ++ concat_sp l ++ X = flat_map chunk_text (map (pair 1) l) ++ T " " ++ X.
Proof.
  induction l as [|w l IH]; [reflexivity|]. change (concat_sp (w :: l)) with ((w ++ T " ") ++ concat_sp l).
  change (flat_map chunk_text (map (pair 1) (w :: l))) with ((T " " ++ w) ++ flat_map chunk_text (map (pair 1) l)).
  rewrite <- !app_assoc, IH. reflexivity.
Qed.

(** The keywords are words after one or two blanks. *)
Lemma kw_chunks : exists es, kw_text = flat_map chunk_text es /\ Forall good_chunk es.
Proof.
  destruct G as (_ & _ & _ & _ & _ & _ & _ & GU & GF & GO & GR & GN & GL & _). unfold kw_text, mcnp_keywords, to_w. cbn [w_univ w_fill w_offset w_rot w_imp].
  assert (NI : numeral (show (g_imp c))) by now apply number_numeral.
  assert (CK : forall p v n, numeral v -> length p <= 10 -> nonspace p -> n = 1 \/ n = 2 -> good_chunk (n, p ++ v)).
  { intros p v n N L NB E. destruct (numeral_facts v N) as (V1 & V2 & V3 & _). split; [exact E|]. cbn [snd]. repeat split.
    - intro A. apply app_eq_nil in A as [_ A]. contradiction.
    - rewrite app_length. lia.
    - unfold nonspace in *. rewrite forallb_app. now rewrite NB, V3. }
  assert (CL : forall l, Forall numeral l -> Forall good_chunk (map (pair 1) l)).
  { induction 1 as [|v l N F IH]; [constructor|]. cbn [map]. constructor; [|exact IH]. apply (CK []); try assumption; [cbn; lia|reflexivity|now left]. }
  assert (UU : exists es, match g_univ c with Some u => T " u=" ++ u | None => [] end = flat_map chunk_text es /\ Forall good_chunk es).
  { destruct (g_univ c) as [u|]; [|exists []; split; constructor]. destruct (GU u eq_refl) as [N L]. exists [(1, T "u=" ++ u)]. split; [cbn; now rewrite app_nil_r|].
    constructor; [|constructor]. apply CK; [now apply number_numeral|cbn; lia|reflexivity|now left]. }
  destruct UU as (eu & -> & FU).
  assert (II : forall n, n = 1 \/ n = 2 -> good_chunk (n, T "IMP:N=" ++ show (g_imp c))) by (intros; apply CK; [assumption|cbn; lia|reflexivity|assumption]).
  destruct (g_fill c) as [f|].
  2:{ exists (eu ++ [(1, T "IMP:N=" ++ show (g_imp c))]). rewrite flat_map_app. split; [|apply Forall_app; split; [exact FU|constructor; [apply II; now left|constructor]]].
      cbn. now rewrite app_nil_r. }
  destruct (GF f eq_refl) as [N L]. assert (FF : good_chunk (1, T "fill=" ++ f)) by (apply CK; [now apply number_numeral|cbn; lia|reflexivity|now left]).
  assert (PP : forall o rt, length o = 3 -> Forall numeral o -> Forall numeral rt ->
     exists es, T " " ++ T "(" ++ concat_sp o ++ concat_sp rt ++ T ")" = flat_map chunk_text es /\ Forall good_chunk es).
  { intros o rt LO FO FR. destruct o as [|x [|y [|z [|? ?]]]]; try discriminate. inversion FO as [|? ? Nx FO1]; subst. inversion FO1 as [|? ? Ny FO2]; subst. inversion FO2 as [|? ? Nz _]; subst.
    exists ((1, T "(" ++ x) :: map (pair 1) [y; z] ++ map (pair 1) rt ++ [(1, T ")")]). split.
    - change (flat_map chunk_text ((1, T "(" ++ x) :: ?l)) with ((T " " ++ T "(" ++ x) ++ flat_map chunk_text l).
      change (concat_sp [x; y; z]) with ((x ++ T " ") ++ concat_sp [y; z]). rewrite <- !app_assoc. rewrite !flat_map_app.
      do 3 f_equal. rewrite sp_chunks. f_equal. rewrite sp_chunks. f_equal.
    - constructor; [apply CK; [exact Nx|cbn; lia|reflexivity|now left]|]. apply Forall_app. split; [now apply CL|]. apply Forall_app. split; [now apply CL|].
      constructor; [|constructor]. split; [now left|]. repeat split; [discriminate|cbn; lia]. }
  assert (PQ : forall rt, Forall numeral rt ->
     exists es, T " " ++ T "(" ++ T " 0 0 0 " ++ concat_sp rt ++ T ")" = flat_map chunk_text es /\ Forall good_chunk es).
  { intros rt FR. exists ([(1, T "("); (1, T "0"); (1, T "0"); (1, T "0")] ++ map (pair 1) rt ++ [(1, T ")")]). split.
    - rewrite !flat_map_app. change (T " " ++ T "(" ++ T " 0 0 0 " ++ ?x) with (T " ( 0 0 0" ++ (T " " ++ x)).
      change (flat_map chunk_text [(1, T "("); (1, T "0"); (1, T "0"); (1, T "0")]) with (T " ( 0 0 0"). f_equal. apply sp_chunks.
    - apply Forall_app. split; [|apply Forall_app; split; [now apply CL|]].
      + repeat (constructor; [split; [now left|]; repeat split; [discriminate|cbn; lia]|]). constructor.
      + constructor; [|constructor]. split; [now left|]. repeat split; [discriminate|cbn; lia]. }
  assert (FIN : forall X, (exists es, T " " ++ X = flat_map chunk_text es /\ Forall good_chunk es) ->
    exists es, flat_map chunk_text eu ++ (T " fill=" ++ f ++ T " " ++ X) ++ T " IMP:N=" ++ show (g_imp c) = flat_map chunk_text es /\ Forall good_chunk es).
  { intros X (ex & EX & FX). exists (eu ++ [(1, T "fill=" ++ f)] ++ ex ++ [(1, T "IMP:N=" ++ show (g_imp c))]). split.
    - rewrite !flat_map_app. f_equal. rewrite <- EX. cbn [flat_map]. unfold chunk_text. cbn [fst snd repeat]. rewrite !app_nil_r, <- !app_assoc. reflexivity.
    - apply Forall_app. split; [exact FU|]. constructor; [exact FF|]. apply Forall_app. split; [exact FX|]. constructor; [apply II; now left|constructor]. }
  destruct (g_offset c) as [o|].
  - destruct (GO o eq_refl) as [LO FO]. rewrite firstn_all2 by lia. apply FIN. destruct (g_rot c) as [rt|].
    + destruct (GR rt eq_refl) as [LR FR]. rewrite firstn_all2 by lia. now apply PP.
    + apply (PP o []); [exact LO|exact FO|constructor].
  - destruct (g_rot c) as [rt|].
    + destruct (GR rt eq_refl) as [LR FR]. rewrite firstn_all2 by lia. apply FIN. now apply PQ.
    + exists (eu ++ [(1, T "fill=" ++ f); (2, T "IMP:N=" ++ show (g_imp c))]). split.
      * rewrite !flat_map_app. f_equal. cbn [flat_map]. unfold chunk_text. cbn [fst snd repeat]. rewrite !app_nil_r, <- !app_assoc. reflexivity.
      * apply Forall_app. split; [exact FU|]. constructor; [exact FF|]. constructor; [apply II; now right|constructor].
Qed.

Lemma loosens_gap a g : loosens a g -> spaces a -> spaces g /\ (a <> [] -> g <> []).
Proof.
  intros L S. split; [now apply (loosens_forallb is_space a)|]. intros N ->. inversion L; subst. contradiction.
Qed.

Definition u_text : text := match g_univ c with Some u => T " " ++ (T "u=" ++ u) | None => [] end.
Definition f_text : text :=
  match g_fill c with
  | Some f => T " " ++ (T "fill=" ++ f) ++ T " " ++
      match g_offset c, g_rot c with None, None => [] | _, _ => T "(" ++ inner_text ++ T ")" end
  | None => []
  end.

Lemma number_lower v : number v -> lower v = v /\ ~ In blank v.
Proof.
  intros (sg & d & f & -> & SG & D & F & N).
  assert (K : forall x, all_digits x -> lower x = x /\ ~ In blank x).
  { intros x X. split.
    - induction x as [|y x IH]; [reflexivity|]. unfold all_digits in X. cbn [forallb] in X. apply andb_true_iff in X as [X1 X2].
      cbn [lower map]. unfold lower in IH. rewrite IH by exact X2. f_equal. now apply digit_plain.
    - intro I. unfold all_digits in X. rewrite forallb_forall in X. specialize (X _ I). discriminate. }
  destruct (K d D) as [D1 D2]. assert (SS : lower sg = sg /\ ~ In blank sg).
  { destruct SG as [-> | [-> | ->]]; split; try reflexivity; vm_compute; intuition discriminate. }
  destruct SS as [S1 S2]. assert (FF : lower f = f /\ ~ In blank f).
  { destruct F as [->|(x & -> & X & _)]; [split; [reflexivity|intros []]|]. destruct (K x X) as [X1 X2]. split; [cbn [lower map]; unfold lower in X1; now rewrite X1|].
    intros [A|A]; [discriminate|contradiction]. }
  destruct FF as [F1 F2]. rewrite !lower_app, D1, S1, F1, !in_app_iff. tauto.
Qed.

Lemma kw_lower : lower kw_text = u_text ++ f_text ++ T " " ++ (T "imp:n=" ++ show (g_imp c)).
Proof.
  destruct inner_calm as (_ & IL & _). destruct G as (_ & _ & _ & _ & _ & _ & _ & GU & GF & _ & _ & GN & _).
  unfold kw_text, mcnp_keywords, to_w, u_text, f_text. cbn [w_univ w_fill w_offset w_rot w_imp]. rewrite !lower_app.
  f_equal; [|f_equal].
  - destruct (g_univ c) as [u|]; [|reflexivity]. destruct (GU u eq_refl) as [N _]. destruct (number_lower u N) as [E _]. rewrite lower_app, E. reflexivity.
  - destruct (g_fill c) as [f|]; [|reflexivity]. destruct (GF f eq_refl) as [N _]. destruct (number_lower f N) as [E _]. rewrite !lower_app, E.
    assert (LI : forall x, lower (T "(" ++ off_text ++ rot_text ++ x) = T "(" ++ inner_text ++ lower x).
    { intro x. rewrite lower_app. unfold inner_text in *. rewrite <- app_assoc, lower_app. rewrite lower_app in IL. rewrite lower_app.
      rewrite (app_assoc (lower off_text)), IL, <- app_assoc. reflexivity. }
    unfold off_text, rot_text in LI. unfold inner_text, off_text, rot_text in *.
    destruct (g_offset c), (g_rot c); try (rewrite LI); reflexivity.
  - destruct (number_lower _ GN) as [E _]. rewrite E. reflexivity.
Qed.

Definition kinds_of (tr : option (text * text)) : list kwd :=
  match g_univ c with Some u => [KU u] | None => [] end ++
  match g_fill c with Some f => [KFill false f tr] | None => [] end ++ [KImp (show (g_imp c))].

Lemma kw_entries k : loosens (lower kw_text) k ->
  exists es tr, k = concat (map entry_text es) /\ Forall good_entry es /\ NoDup (map kind es) /\ es <> [] /\ map e_kw es = kinds_of tr /\
    match tr with
    | None => placement (g_offset c) (g_rot c) = []
    | Some (_, inner) => placement (g_offset c) (g_rot c) <> [] /\ words inner = placement (g_offset c) (g_rot c)
    end.
Proof.
  intro LO. rewrite kw_lower in LO. assert (IW := inner_words). destruct inner_calm as (IC & _).
  destruct G as (_ & _ & _ & _ & _ & _ & _ & GU & GF & GO & GR & GN & _).
  apply loosens_split in LO as (a & bd & -> & LA & LO). apply loosens_split in LO as (b & d & -> & LB & LD).
  assert (U : exists es, a = concat (map entry_text es) /\ Forall good_entry es /\ map e_kw es = match g_univ c with Some u => [KU u] | None => [] end).
  { unfold u_text in LA. destruct (g_univ c) as [u|]; [|inversion LA; subst; exists []; repeat split; constructor].
    destruct (GU u eq_refl) as [N _]. destruct (number_lower u N) as [_ NB]. apply loosens_split in LA as (g & w & -> & L1 & L2).
    apply loosens_tight in L2; [|rewrite in_app_iff; intros [I|I]; [vm_compute in I; intuition discriminate|contradiction]]. subst w.
    destruct (loosens_gap _ _ L1 eq_refl) as [S1 S2]. exists [mkE g (KU u) false false]. split; [|split; [|reflexivity]].
    - cbn [map concat]. unfold entry_text, render. cbn [e_gap e_kw e_b1 e_b2 kstar kname kvalue krest opt_blank]. rewrite !app_nil_r. reflexivity.
    - constructor; [|constructor]. split; [exact S1|]. split; [apply S2; discriminate|]. split; [exact N|exact I]. }
  destruct U as (eu & -> & FU & KU0).
  assert (V : exists es g0 tr, b = concat (map entry_text es) ++ g0 /\ spaces g0 /\ Forall good_entry es /\
     map e_kw es = match g_fill c with Some f => [KFill false f tr] | None => [] end /\
     match tr with
     | None => placement (g_offset c) (g_rot c) = []
     | Some (_, inner) => placement (g_offset c) (g_rot c) <> [] /\ words inner = placement (g_offset c) (g_rot c)
     end).
  { assert (PL : (g_offset c = None /\ g_rot c = None) \/ ((g_offset c <> None \/ g_rot c <> None) /\ placement (g_offset c) (g_rot c) <> [] /\
       (length (placement (g_offset c) (g_rot c)) = 3 \/ length (placement (g_offset c) (g_rot c)) = 12))).
    { destruct (g_offset c) as [o|] eqn:EO, (g_rot c) as [rt|] eqn:ER; [right|right|right|now left];
        (split; [first [left; discriminate | right; discriminate]|]); cbn [placement];
        try (destruct (GO o eq_refl) as [LO _]); try (destruct (GR rt eq_refl) as [LR _]).
      - split; [intro A; apply app_eq_nil in A as [-> _]; discriminate|right; rewrite app_length; lia].
      - split; [intro A; apply app_eq_nil in A as [-> _]; discriminate|left; rewrite app_length; cbn [length]; lia].
      - split; [discriminate|right; rewrite app_length; cbn [length]; lia]. }
    unfold f_text in LB. destruct (g_fill c) as [f|].
    2:{ inversion LB; subst. destruct PL as [[-> ->]|(H1 & H2 & H3)].
        - exists [], [], None. repeat split; constructor.
        - exists [], [], (Some ([], inner_text)). repeat split; try constructor; auto. }
    destruct (GF f eq_refl) as [N _]. destruct (number_lower f N) as [_ NB]. apply loosens_split in LB as (g & w & -> & L1 & L2).
    apply loosens_split in L2 as (h & w2 & -> & L2 & L3).
    apply loosens_tight in L2; [|rewrite in_app_iff; intros [I|I]; [vm_compute in I; intuition discriminate|contradiction]]. subst h.
    apply loosens_split in L3 as (g2 & w3 & -> & L3 & L4).
    destruct (loosens_gap _ _ L1 eq_refl) as [S1 S2]. destruct (loosens_gap _ _ L3 eq_refl) as [S3 S4].
    destruct PL as [[EO ER]|(H1 & H2 & H3)].
    - rewrite EO, ER in *. inversion L4; subst. exists [mkE g (KFill false f None) false false], g2, None. split; [|split; [|split; [|split; reflexivity]]].
      + cbn [map concat]. unfold entry_text, render. cbn [e_gap e_kw e_b1 e_b2 kstar kname kvalue krest opt_blank]. rewrite !app_nil_r, <- !app_assoc. reflexivity.
      + exact S3.
      + constructor; [|constructor]. split; [exact S1|]. split; [apply S2; discriminate|]. split; [exact N|exact I].
    - assert (E4 : loosens (T "(" ++ inner_text ++ T ")") w3) by (destruct (g_offset c), (g_rot c); try exact L4; tauto). clear L4.
      apply loosens_split in E4 as (p1 & w4 & -> & L5 & L6). apply loosens_split in L6 as (inner & p2 & -> & L6 & L7).
      apply loosens_tight in L5; [|vm_compute; intuition discriminate]. apply loosens_tight in L7; [|vm_compute; intuition discriminate]. subst p1 p2.
      assert (WI : words inner = placement (g_offset c) (g_rot c)) by (rewrite (loosens_words _ _ L6); now apply IW).
      exists [mkE g (KFill false f (Some (g2, inner))) false false], [], (Some (g2, inner)). split; [|split; [|split; [|split; [reflexivity|now split]]]].
      + cbn [map concat]. unfold entry_text, render. cbn [e_gap e_kw e_b1 e_b2 kstar kname kvalue krest opt_blank]. rewrite !app_nil_r, <- !app_assoc. reflexivity.
      + reflexivity.
      + constructor; [|constructor]. split; [exact S1|]. split; [apply S2; discriminate|]. split; [exact N|].
        cbn [e_kw]. split; [exact S3|]. split; [now apply (loosens_forallb calm inner_text)|]. rewrite WI. split; [tauto|discriminate]. }
  destruct V as (ev & g0 & tr & -> & S0 & FV & KV & PLC).
  apply loosens_split in LD as (g & w & -> & L1 & L2). destruct (number_lower _ GN) as [_ NB].
  apply loosens_tight in L2; [|rewrite in_app_iff; intros [I|I]; [vm_compute in I; intuition discriminate|contradiction]]. subst w.
  destruct (loosens_gap _ _ L1 eq_refl) as [S1 S2].
  set (ei := mkE (g0 ++ g) (KImp (show (g_imp c))) false false).
  exists (eu ++ ev ++ [ei]), tr. assert (KK : map e_kw (eu ++ ev ++ [ei]) = kinds_of tr) by (rewrite !map_app, KU0, KV; reflexivity).
  split; [|split; [|split; [|split; [|split; [exact KK|exact PLC]]]]].
  - rewrite !map_app, !concat_app. cbn [map concat].
    assert (EI : entry_text ei = g0 ++ g ++ T "imp:n=" ++ show (g_imp c)).
    { unfold ei, entry_text, render. cbn [e_gap e_kw e_b1 e_b2 kstar kname kvalue krest opt_blank]. rewrite !app_nil_r, <- !app_assoc. reflexivity. }
    rewrite EI, !app_nil_r, <- !app_assoc. reflexivity.
  - apply Forall_app. split; [exact FU|]. apply Forall_app. split; [exact FV|]. constructor; [|constructor]. split.
    + unfold spaces, ei. cbn [e_gap]. rewrite forallb_app. apply andb_true_iff. now split.
    + split; [unfold ei; cbn [e_gap]; intro A; apply app_eq_nil in A as [_ A]; apply S2 in A; [exact A|discriminate]|]. split; [exact GN|exact I].
  - set (kk := fun k0 => match k0 with KU _ => 0 | KFill _ _ _ => 1 | KImp _ => 2 | KVol _ => 3 | KTmp _ => 4 end).
    assert (E : map kind (eu ++ ev ++ [ei]) = map kk (kinds_of tr)) by (rewrite <- KK, map_map; reflexivity). rewrite E. unfold kinds_of.
    destruct (g_univ c), (g_fill c); cbn; repeat constructor; cbn; intuition discriminate.
  - intro A. apply app_eq_nil in A as [_ A]. apply app_eq_nil in A as [_ A]. discriminate.
Qed.
End Keywords.

(** ** The geometry as it is written *)

Lemma collapse_in c s : In c (collapse s) -> In c s.
Proof.
  induction s as [|d s IH]; [trivial|]. cbn [collapse]. destruct (Ascii.eqb d blank).
  - destruct s as [|e s]; [trivial|]. destruct (Ascii.eqb e blank); intro I; [right; auto|]. destruct I as [->|I]; [now left|right; auto].
  - intros [->|I]; [now left|right; auto].
Qed.
Lemma collapse_end s : collapse (s ++ [newline]) = collapse s ++ [newline].
Proof.
  induction s as [|d s IH]; [reflexivity|]. cbn [app collapse]. destruct (Ascii.eqb d blank); [|rewrite IH; reflexivity].
  destruct s as [|e s]; [reflexivity|]. cbn [app] in *. destruct (Ascii.eqb e blank); rewrite IH; reflexivity.
Qed.

Lemma strip_end s : ~ In newline s -> ~ In newline (strip (s ++ [newline])) /\ (forall c, In c (strip (s ++ [newline])) -> In c s) /\
  (strip (s ++ [newline]) = [] \/ exists r c, strip (s ++ [newline]) = r ++ [c] /\ is_space c = false) /\
  (exists a b, s ++ [newline] = a ++ strip (s ++ [newline]) ++ b).
Proof.
  intro N. unfold strip. destruct (lstrip_suffix (s ++ [newline])) as (a & EA). destruct (rstrip_prefix (lstrip (s ++ [newline]))) as (b & EB).
  set (x := rstrip (lstrip (s ++ [newline]))) in *.
  assert (E : s ++ [newline] = a ++ x ++ b) by (rewrite <- EB; exact EA).
  assert (NX : ~ In newline x).
  { destruct (rstrip_last (lstrip (s ++ [newline]))) as [Z|(r & c & Z & S)]; fold x in Z; rewrite Z in *; [intros []|].
    intro I. apply in_app_iff in I as [I|[->|[]]]; [|discriminate].
    destruct (exists_last (l := [c] ++ b)) as (y & l & EY); [discriminate|].
    rewrite <- app_assoc, EY, (app_assoc r), app_assoc in E. apply app_inj_tail in E as [E _]. apply N. rewrite E, !in_app_iff. tauto. }
  split; [exact NX|]. split; [|split; [apply rstrip_last|now exists a, b]].
  intros c I. assert (J : In c (s ++ [newline])) by (rewrite E, !in_app_iff; tauto).
  apply in_app_iff in J as [J|[<-|[]]]; [exact J|contradiction].
Qed.

Definition body_char (c : ascii) : bool := is_digit c || existsb (Ascii.eqb c) (T " -.e():#").
Lemma body_char_facts p : (forall c, is_digit c = true -> p c = true) -> forallb p (T " -.e():#") = true -> forall c, body_char c = true -> p c = true.
Proof.
  intros D S c H. apply orb_true_iff in H as [H|H]; [auto|]. apply existsb_exists in H as (d & I & E). apply Ascii.eqb_eq in E. subst d.
  rewrite forallb_forall in S. auto.
Qed.

Lemma int_word_body w : int_word w -> forallb body_char w = true.
Proof. intro H. apply forallb_forall. intros c I. unfold body_char. destruct (int_word_chars w H c I) as [-> | ->]; reflexivity. Qed.
Lemma numeral_body w : numeral w -> ~ In "+"%char w -> forallb body_char w = true.
Proof.
  intros (_ & _ & F) N. apply forallb_forall. intros c I. rewrite forallb_forall in F. specialize (F c I). unfold body_char.
  apply orb_true_iff in F as [-> | F]; [reflexivity|]. apply existsb_exists in F as (d & J & E). apply Ascii.eqb_eq in E. subst d.
  cbn in J. destruct J as [<-|[<-|[<-|[<-|[]]]]]; try reflexivity. contradiction.
Qed.
Lemma items_body l : Forall int_word (words_of l) -> forallb body_char (flat_map mcnp_op l) = true.
Proof.
  induction l as [|i l IH]; intro F; [reflexivity|]. cbn [words_of flat_map] in *. apply Forall_app in F as [F1 F2]. rewrite forallb_app, IH by exact F2. rewrite andb_true_r.
  destruct i as [[| |]|s]; try reflexivity. unfold is_word in F1. cbn [mcnp_op].
  destruct (text_eqb s (T "(")); [reflexivity|]. destruct (text_eqb s (T ")")); [reflexivity|]. cbn [orb negb] in F1. inversion F1; subst. now apply int_word_body.
Qed.
Section Cell.
Context (show : Q -> text) (c : gcell) (r : region) (G : good_gcell show c r).

Definition raw : text :=
  str_Z (g_id c) ++ T " " ++ str_Z (g_mat c) ++ T " " ++ (if (g_mat c =? 0)%Z then [] else g_dens c ++ T " ") ++ flat_map mcnp_op (g_items c).
Definition body : text := CellWriters.mcnp_body (to_w show c).

Lemma raw_body : forallb body_char raw = true.
Proof.
  destruct G as (_ & _ & _ & GD & _ & _ & GW & _). unfold raw. rewrite !forallb_app.
  assert (I : Forall int_word (words_of (g_items c))) by (apply (Forall_impl _) with (2 := GW); now intros a [A _]).
  rewrite items_body by exact I. rewrite (int_word_body (str_Z (g_id c))), (int_word_body (str_Z (g_mat c))) by apply int_word_str. change (forallb body_char (T " ")) with true. cbn [andb]. rewrite andb_true_r.
  destruct (Z.eqb_spec (g_mat c) 0) as [E|E]; [reflexivity|]. destruct (GD E) as (N & P & _). rewrite forallb_app, numeral_body by assumption. reflexivity.
Qed.

Lemma body_eq : body = strip (collapse raw ++ [newline]).
Proof.
  unfold body, CellWriters.mcnp_body, to_w. cbn [w_id w_mat w_dens w_items]. rewrite <- collapse_end. do 2 f_equal. unfold raw. rewrite <- !app_assoc. reflexivity.
Qed.

Lemma body_facts : forallb body_char body = true /\ ~ In newline body /\ airy 0 body = true /\
  (body = [] \/ exists t d, body = t ++ [d] /\ is_space d = false).
Proof.
  assert (C : forall x, In x (collapse raw) -> body_char x = true).
  { intros x I. apply collapse_in in I. assert (R := raw_body). rewrite forallb_forall in R. auto. }
  assert (N : ~ In newline (collapse raw)) by (intro I; apply C in I; discriminate).
  destruct (strip_end _ N) as (S1 & S2 & S3 & a & b & S4). rewrite <- body_eq in *.
  split; [apply forallb_forall; auto|]. split; [exact S1|]. split; [|exact S3].
  destruct (airy_collapse (raw ++ [newline])) as [A _]. rewrite collapse_end, S4 in A. apply airy_suffix in A. now apply airy_prefix in A.
Qed.

Lemma kw_runs : airy 0 (kw_text show c) = true /\ maxrun (kw_text show c) <= 50.
Proof. destruct (kw_chunks show c r G) as (es & -> & F). now apply chunks_airy. Qed.

Lemma text_facts : words body = mcnp_head (to_w show c) ++ flat_map item_text (g_items c) /\ maxrun (mcnp_text true (to_w show c)) <= 65.
Proof.
  destruct kw_runs as [_ K]. destruct G as (G1 & G2 & G3 & GD & GS & GE & GW & _).
  assert (WU : forall z, length (str_Z z) <= 60 -> word_upto 60 (str_Z z)).
  { intros z L. destruct (str_Z_word_upto z) as [A B]. repeat split; assumption. }
  destruct (mcnp_text_facts true (to_w show c) false) as (F1 & _ & F3).
  - now apply WU.
  - exact G2.
  - intro M. destruct (GD M) as (N & _). destruct (numeral_facts _ N) as (A & B & D & _). repeat split; [exact A|exact D|cbn [w_dens to_w]; lia].
  - exact GS.
  - apply (Forall_impl _) with (2 := GW). now intros a [_ A].
  - apply runs_maxrun. unfold kw_text in K. lia.
  - split; [|exact F3]. unfold body. rewrite F1. f_equal. rewrite words_app_space_r by reflexivity.
    apply (mcnp_words _ false); [exact GS|]. apply (Forall_impl _) with (2 := GW). now intros a [A _].
Qed.
End Cell.

(** ** A card that was wrapped *)

Lemma lower_char_facts c : (is_space c = false -> is_space (lower_char c) = false) /\ (lower_char c = newline -> c = newline) /\
  (lower_char c = "$"%char -> c = "$"%char) /\ (lower_char c = blank -> c = blank).
Proof. destruct c as [[][][][][][][][]]; vm_compute; repeat split; (trivial || discriminate). Qed.

Definition wrapped_card (l0 : text) (ls : list text) : card := (mkL (lower l0) None, map (fun l => mkL (lower l) None) ls).

Lemma lower_with_ends L : lower (with_ends L) = concat (map (fun l => lower l ++ [newline]) L).
Proof.
  unfold with_ends. induction L as [|l L IH]; [reflexivity|]. cbn [map concat]. rewrite !lower_app, IH. reflexivity.
Qed.

Lemma wrapped_card_ok s l0 ls t d s' : loosens s (with_ends (l0 :: ls)) -> wrapped_lines l0 ls -> l0 ++ t = s -> ~ In "$"%char s ->
  s = d :: s' -> is_space d = false -> lower_char d <> "c"%char ->
  good_card (wrapped_card l0 ls) /\ card_text (wrapped_card l0 ls) = lower (with_ends (l0 :: ls)) /\
  concat (card_lines (wrapped_card l0 ls)) = lower (with_ends (l0 :: ls)) /\
  Forall (fun x => is_comment_line x = false /\ exists y, x = y ++ [newline] /\ ~ In newline y) (card_lines (wrapped_card l0 ls)).
Proof.
  intros LO (V0 & N0 & FL) P ND ES SD CD.
  assert (DL : forall l, In l (l0 :: ls) -> ~ In "$"%char (lower l)).
  { intros l IL I. assert (F : forallb (fun x => negb (Ascii.eqb x "$")) (with_ends (l0 :: ls)) = true).
    { apply (loosens_forallb _ s); try reflexivity; [exact LO|]. apply forallb_forall. intros x X. destruct (Ascii.eqb_spec x "$"); [subst; contradiction|reflexivity]. }
    unfold lower in I. apply in_map_iff in I as (x & E & I). apply lower_char_facts in E. subst x. rewrite forallb_forall in F.
    assert (J : In "$"%char (with_ends (l0 :: ls))); [|specialize (F _ J); discriminate].
    unfold with_ends. apply in_concat. exists (l ++ [newline]). split; [apply in_map_iff; eauto|apply in_app_iff; now left]. }
  assert (VL : forall l, seen l -> visible (lower l)).
  { intros l (x & I & S). exists (lower_char x). split; [now apply in_map|now apply lower_char_facts]. }
  assert (NL : forall l, ~ In newline l -> ~ In newline (lower l)).
  { intros l N I. unfold lower in I. apply in_map_iff in I as (x & E & I). apply lower_char_facts in E. now subst x. }
  assert (HD : exists z, l0 = d :: z).
  { destruct l0 as [|y z]; [destruct V0 as (x & [] & _)|]. subst s. cbn [app] in ES. injection ES as -> _. eauto. }
  destruct HD as (z & EZ).
  assert (DB : lower_char d <> blank) by (intro A; apply lower_char_facts in A; subst d; discriminate).
  assert (KT : forall l, kept_text (mkL (lower l) None) = lower l ++ [newline]) by reflexivity.
  assert (PT : forall l, printed (mkL (lower l) None) = lower l ++ [newline]) by reflexivity.
  split; [|split; [|split]].
  - split; [split; [now apply DL; left|now apply VL]|]. split.
    + subst l0. cbn [wrapped_card fst code]. intros (q & E). cbn [lower map T list_ascii_of_string app] in E. injection E as E _. apply DB, E.
    + cbn [wrapped_card snd]. apply Forall_map. apply Forall_forall. intros l I. rewrite Forall_forall in FL. destruct (FL l I) as (V & N & q & E).
      split; [split; [apply DL; now right|now apply VL]|]. cbn [code]. exists (lower q). rewrite E. apply lower_app.
  - rewrite lower_with_ends. unfold card_text, wrapped_card. cbn [fst snd map concat]. rewrite KT. do 2 f_equal. rewrite map_map. now apply map_ext.
  - rewrite lower_with_ends. unfold card_lines, wrapped_card. cbn [fst snd map concat]. rewrite PT. do 2 f_equal. rewrite map_map. now apply map_ext.
  - unfold card_lines, wrapped_card. cbn [fst snd]. constructor.
    + rewrite PT. split; [|exists (lower l0); split; [reflexivity|now apply NL]]. subst l0. cbn [lower map app is_comment_line].
      now destruct (Ascii.eqb_spec (lower_char d) "c").
    + apply Forall_map, Forall_map. apply Forall_forall. intros l I. rewrite Forall_forall in FL. destruct (FL l I) as (V & N & q & E). rewrite PT.
      split; [subst l; reflexivity|]. exists (lower l). split; [reflexivity|now apply NL].
Qed.

(** ** A cell *)

(** The fields of a cell that was read are those of the cell that was written. *)
Definition cell_read (show : Q -> text) (c : gcell) (x : cell * keywords) : Prop :=
  c_id (fst x) = g_id c /\ c_mat (fst x) = g_mat c /\
  (g_mat c <> 0%Z -> get_fortran_formatted_number (g_dens c) = Some (c_dens (fst x))) /\
  toks (c_items (fst x)) = toks (g_items c) /\
  k_univ (snd x) = g_univ c /\ k_fill (snd x) = g_fill c /\ (k_imp (snd x) == g_imp c)%Q /\ k_trid (snd x) = T "0" /\
  match k_offset (snd x) with Some (a, b, d) => [RText a; RText b; RText d] | None => [] end ++ match k_rot (snd x) with Some l => l | None => [] end
    = map RText (match g_fill c with Some _ => placement (g_offset c) (g_rot c) | None => [] end) /\
  (k_offset (snd x) = None -> k_rot (snd x) = None) /\ spaced false (c_items (fst x)) = true.

Section Cell2.
Context (show : Q -> text) (c : gcell) (r : region) (G : good_gcell show c r).

Lemma body_head : exists d t, body show c = d :: t /\ is_space d = false.
Proof.
  destruct (text_facts show c r G) as [W _]. unfold body, CellWriters.mcnp_body, strip in *.
  set (x := collapse _) in *. destruct (rstrip_prefix (lstrip x)) as (b & E).
  destruct (rstrip (lstrip x)) as [|d t]; [discriminate|]. exists d, t. split; [reflexivity|].
  destruct (lstrip_head x) as [Z|(e & q & Z & S)]; rewrite Z in E; [discriminate|]. injection E as -> _. exact S.
Qed.

Lemma read_words f s w : words s = words (body show c) -> forallb geometric s = true -> spaces w ->
  exists x, interpret (S f) (s ++ w) = Some x /\ c_id x = g_id c /\ c_mat x = g_mat c /\
    (g_mat c <> 0%Z -> get_fortran_formatted_number (g_dens c) = Some (c_dens x)) /\ toks (c_items x) = toks (g_items c) /\ spaced false (c_items x) = true.
Proof.
  intros W GE SW. destruct (text_facts show c r G) as [WB _]. destruct G as (_ & _ & GM & GD & _ & EX & GW & _).
  assert (IW : Forall int_word (words_of (g_items c))) by (apply (Forall_impl _) with (2 := GW); now intros a [A _]).
  unfold interpret. rewrite drop_dollars_none.
  2:{ intro I. apply in_spacify in I as [I|[I|I]]; try discriminate. apply in_app_iff in I as [I|I].
      - rewrite forallb_forall in GE. specialize (GE _ I). discriminate.
      - unfold spaces in SW. rewrite forallb_forall in SW. specialize (SW _ I). discriminate. }
  rewrite words_spacify, words_app_space_r by exact SW. rewrite W, WB, flat_map_app. destruct (items_read (g_items c) IW) as [I1 I2]. rewrite I1.
  rewrite <- I2 in EX. destruct (generalise_toks _ _ EX) as (o & y & GG & TO). assert (SO := generalise_spaced _ _ _ _ EX GG).
  assert (PW : forall w, w <> [] -> forallb plain_char w = true -> words (CellModel.spacify w) = [w]).
  { intros v N P. rewrite plain_spacify by exact P. apply words_single; [exact N|now apply plain_nonspace]. }
  assert (PZ : forall z, words (CellModel.spacify (str_Z z)) = [str_Z z]).
  { intro z. apply PW; [apply int_word_nonempty, int_word_str|apply int_word_plain_char, int_word_str]. }
  unfold mcnp_head, to_w. cbn [w_id w_mat w_dens]. cbn [flat_map]. rewrite !PZ. cbn [app cell_of_words]. rewrite !py_int_str_Z.
  destruct (Z.eqb_spec (g_mat c) 0) as [E|E].
  - cbn [flat_map app]. rewrite E. cbn [Z.ltb Z.compare]. rewrite GG. eexists. split; [reflexivity|]. cbn [c_id c_mat c_dens c_items]. rewrite <- I2. now repeat split.
  - destruct (GD E) as (N & NP & FN). destruct (numeral_facts _ N) as (A & _).
    cbn [flat_map]. rewrite PW; [|exact A|].
    2:{ apply forallb_forall. intros x I. assert (B := numeral_body _ N NP). rewrite forallb_forall in B. specialize (B x I).
        destruct N as (_ & _ & F). rewrite forallb_forall in F. specialize (F x I).
        apply orb_true_iff in F as [F|F].
        - unfold plain_char, is_delim. destruct (is_space x) eqn:S; [apply space_not_digit in S; congruence|].
          repeat match goal with |- context [Ascii.eqb x ?d] => destruct (Ascii.eqb_spec x d); [subst; discriminate|] end. reflexivity.
        - apply existsb_exists in F as (d & J & Q0). apply Ascii.eqb_eq in Q0. subst d. cbn in J. destruct J as [<-|[<-|[<-|[<-|[]]]]]; try reflexivity. contradiction. }
    cbn [app]. destruct (Z.ltb_spec 0 (g_mat c)); [|lia]. destruct (get_fortran_formatted_number (g_dens c)) as [q|] eqn:EQ; [|tauto].
    rewrite GG. eexists. split; [reflexivity|]. cbn [c_id c_mat c_dens c_items]. rewrite <- I2. now repeat split.
Qed.

(** The card that is written: its lines, and in it the geometry and the keywords. *)
Lemma cell_shape : exists l0 ls N, (forall fuel, N <= fuel -> write_mcnp_cell fuel true (to_w show c) = Some (with_ends (l0 :: ls))) /\
  good_card (wrapped_card l0 ls) /\ card_text (wrapped_card l0 ls) = lower (with_ends (l0 :: ls)) /\
  concat (card_lines (wrapped_card l0 ls)) = lower (with_ends (l0 :: ls)) /\
  Forall (fun x => is_comment_line x = false /\ exists y, x = y ++ [newline] /\ ~ In newline y) (card_lines (wrapped_card l0 ls)) /\
  exists b' es tr, lower (with_ends (l0 :: ls)) = kcard b' es [newline] /\ words b' = words (body show c) /\ forallb geometric b' = true /\ b' <> [] /\
    Forall good_entry es /\ NoDup (map kind es) /\ es <> [] /\ map e_kw es = kinds_of show c tr /\
    match tr with
    | None => placement (g_offset c) (g_rot c) = []
    | Some (_, inner) => placement (g_offset c) (g_rot c) <> [] /\ words inner = placement (g_offset c) (g_rot c)
    end.
Proof.
  destruct (body_facts show c r G) as (B1 & B2 & B3 & B4). destruct body_head as (d & t & BH & SD). destruct (text_facts show c r G) as [WB MR].
  destruct (kw_runs show c r G) as [K1 K2]. destruct (kw_chunks show c r G) as (ch & KC & FC).
  assert (TE : mcnp_text true (to_w show c) = body show c ++ kw_text show c ++ [newline]) by reflexivity.
  destruct B4 as [B4|(bt & bd & B4 & SBD)]; [rewrite BH in B4; discriminate|].
  assert (GN : number (show (g_imp c))) by (destruct G as (_ & _ & _ & _ & _ & _ & _ & _ & _ & _ & _ & A & _); exact A).
  assert (NI : numeral (show (g_imp c))) by (destruct G as (_ & _ & _ & _ & _ & _ & _ & _ & _ & _ & _ & A & B & _); now apply number_numeral).
  assert (KN : ~ In newline (kw_text show c)) by (rewrite KC; intro I; apply (chunks_space _ _ FC) in I as [I|I]; discriminate).
  destruct (formatter_shape (mcnp_text true (to_w show c))) as (l0 & ls & N & F1 & F2 & F3 & u & F4).
  - destruct (numeral_facts _ NI) as (NE & _ & NS & _). destruct (exists_last NE) as (vi & vl & EV).
    exists (body show c ++ match g_univ c with Some u => T " u=" ++ u | None => [] end ++
      match g_fill c with
      | Some f => T " fill=" ++ f ++ T " " ++ match g_offset c, g_rot c with None, None => [] | off, rot =>
          T "(" ++ match off with Some o => concat_sp (firstn 3 o) | None => T " 0 0 0 " end ++ match rot with Some r => concat_sp (firstn 9 r) | None => [] end ++ T ")" end
      | None => [] end ++ T " IMP:N=" ++ vi), vl. split.
    + rewrite TE. unfold kw_text, mcnp_keywords, to_w. cbn [w_univ w_fill w_offset w_rot w_imp]. rewrite EV. rewrite <- !app_assoc. reflexivity.
    + unfold nonspace in NS. rewrite forallb_forall in NS. assert (I : In vl (show (g_imp c))) by (rewrite EV, in_app_iff; cbn; tauto). apply NS in I. now destruct (is_space vl).
  - rewrite TE, app_assoc, removelast_last, in_app_iff. tauto.
  - apply airy_airless. rewrite TE, B4. rewrite <- app_assoc. cbn [app]. rewrite airy_mid by (intros ->; discriminate). rewrite B4 in B3. apply airy_prefix in B3. rewrite B3.
    cbn [andb]. rewrite airy_mid by discriminate. now rewrite K1.
  - apply runs_maxrun. lia.
  - rewrite TE. apply Forall_forall. intros x I S. rewrite !in_app_iff in I. destruct I as [I|[I|[<-|[]]]]; [| |now right].
    + left. rewrite forallb_forall in B1. specialize (B1 x I). apply orb_true_iff in B1 as [B1|B1]; [apply space_not_digit in S; congruence|].
      apply existsb_exists in B1 as (y & J & E). apply Ascii.eqb_eq in E. subst y. cbn in J. repeat (destruct J as [<-|J]; [first [discriminate|reflexivity]|]). contradiction.
    + rewrite KC in I. apply (chunks_space _ _ FC) in I as [->|I]; [now left|congruence].
  - assert (LB : lower (body show c) = body show c).
    { clear - B1. induction (body show c) as [|x b IH]; [reflexivity|]. cbn [forallb] in B1. apply andb_true_iff in B1 as [X1 X2]. cbn [lower map]. unfold lower in IH. rewrite IH by exact X2. f_equal.
      revert x X1. assert (K := body_char_facts (fun y => Ascii.eqb (lower_char y) y)). intros x X1. apply Ascii.eqb_eq. apply K; [|reflexivity|exact X1].
      intros y Y. apply Ascii.eqb_eq. now apply digit_plain. }
    assert (NDL : ~ In "$"%char (mcnp_text true (to_w show c))).
    { rewrite TE, !in_app_iff. intros [I|[I|[I|[]]]]; [rewrite forallb_forall in B1; specialize (B1 _ I); discriminate| |discriminate].
      assert (J : In "$"%char (lower (kw_text show c))) by (change "$"%char with (lower_char "$"%char); now apply in_map).
      destruct (kw_entries show c r G (lower (kw_text show c)) (loosens_refl _)) as (es & tr & EK & FE & _). rewrite EK in J.
      revert J. apply entries_no; [exact FE|cbn; tauto| |].
      + intros e _. destruct (e_kw e) as [?|[|] ? ?|?|?|?]; try exact Logic.I. discriminate.
      + intros e _. destruct (e_kw e) as [?|? ? [?|]|?|?|?]; try exact Logic.I. split; discriminate. }
    assert (HD : mcnp_text true (to_w show c) = d :: (t ++ kw_text show c ++ [newline])) by (rewrite TE, BH; reflexivity).
    assert (DC : lower_char d <> "c"%char).
    { rewrite BH in LB. cbn [lower map] in LB. injection LB as LB _. rewrite LB. intros ->. rewrite BH in B1. discriminate. }
    destruct (wrapped_card_ok _ l0 ls u d _ F2 F3 F4 NDL HD SD DC) as (W1 & W2 & W3 & W4).
    exists l0, ls, N. split; [exact F1|]. split; [exact W1|]. split; [exact W2|]. split; [exact W3|]. split; [exact W4|].
    apply loosens_lower in F2. rewrite TE, !lower_app, LB in F2. apply loosens_split in F2 as (b' & x1 & E1 & L1 & L2).
    apply loosens_split in L2 as (k' & n' & -> & L2 & L3). apply loosens_tight in L3; [|vm_compute; intuition discriminate]. subst n'.
    destruct (kw_entries show c r G _ L2) as (es & tr & -> & FE & ND & EN & KK & PL).
    assert (GB : forallb geometric b' = true).
    { apply (loosens_forallb _ (body show c)); try reflexivity; [exact L1|]. apply forallb_forall. intros y Y. rewrite forallb_forall in B1. specialize (B1 y Y).
      revert B1. apply body_char_facts; [|reflexivity]. intros q Q0. apply (digit_calm q) in Q0. unfold calm, geometric in *. clear - Q0.
      cbn [existsb T list_ascii_of_string] in *. rewrite !negb_true_iff in *. rewrite !orb_false_iff in *. tauto. }
    assert (NB : b' <> []) by (intros ->; rewrite BH in L1; inversion L1).
    exists b', es, tr. split; [unfold kcard; rewrite E1; reflexivity|]. split; [exact (loosens_words _ _ L1)|]. split; [exact GB|]. split; [exact NB|].
    split; [exact FE|]. split; [exact ND|]. split; [exact EN|]. split; [exact KK|exact PL].
Qed.

Theorem cell_card : exists l0 ls N, (forall fuel, N <= fuel -> write_mcnp_cell fuel true (to_w show c) = Some (with_ends (l0 :: ls))) /\
  good_card (wrapped_card l0 ls) /\ card_text (wrapped_card l0 ls) = lower (with_ends (l0 :: ls)) /\
  concat (card_lines (wrapped_card l0 ls)) = lower (with_ends (l0 :: ls)) /\
  Forall (fun x => is_comment_line x = false /\ exists y, x = y ++ [newline] /\ ~ In newline y) (card_lines (wrapped_card l0 ls)) /\
  forall f, exists x, read_cell_card (S f) (lower (with_ends (l0 :: ls))) = Some x /\ cell_read show c x.
Proof.
  destruct cell_shape as (l0 & ls & N & F1 & W1 & W2 & W3 & W4 & b' & es & tr & E1 & WB' & GB & NB & FE & ND & EN & KK & PL).
    exists l0, ls, N. split; [exact F1|]. split; [exact W1|]. split; [exact W2|]. split; [exact W3|]. split; [exact W4|]. intro f.
    destruct (C53_keywords_partial b' es [newline] NB GB EN FE ND eq_refl) as (k & w & DK & SW & KR).
    unfold read_cell_card. rewrite E1, DK.
    destruct (read_words f b' w WB' GB SW) as (x & IX & R1 & R2 & R3 & R4 & R5). rewrite IX. eexists. split; [reflexivity|].
    unfold cell_read. cbn [fst snd]. do 4 (split; [assumption|]).
    destruct KR as (KU1 & KU2 & KF1 & KF2 & KI1 & KI2). unfold has_kw in *. rewrite KK in *. unfold kinds_of in *. destruct G as (_ & _ & _ & _ & _ & _ & _ & _ & _ & GO & GR & _ & _ & q & PQ & EQ).
    split; [|split; [|split]].
    + destruct (g_univ c) as [v|].
      * apply KU1. now left.
      * apply KU2. intros v I. cbn [app] in I. destruct (g_fill c); cbn in I; intuition discriminate.
    + destruct (g_fill c) as [v|].
      * destruct (KF1 false v tr) as [A _]; [rewrite !in_app_iff; cbn; tauto|exact A].
      * destruct KF2 as [A _]; [|exact A]. intros s v tr0 I. destruct (g_univ c); cbn in I; intuition discriminate.
    + assert (A := KI1 (show (g_imp c)) ltac:(rewrite !in_app_iff; cbn; tauto)). rewrite PQ in A. injection A as <-. exact EQ.
    + destruct (g_fill c) as [v|].
      * destruct (KF1 false v tr) as [_ A]; [rewrite !in_app_iff; cbn; tauto|]. unfold transformation_read in A. destruct tr as [[sep inner]|].
        -- destruct PL as [PN PW]. rewrite PW in A. clear PW. unfold placement in *. destruct (g_offset c) as [[|o1 [|o2 [|o3 [|? ?]]]]|] eqn:EO;
             try (destruct (GO _ eq_refl) as [X _]; discriminate X).
           ++ destruct (g_rot c) as [rt|] eqn:ER.
              ** destruct (GR _ eq_refl) as [X _]. cbn [app] in A. destruct rt as [|r1 rt]; [discriminate|]. destruct A as (A1 & A2 & rot & A3 & ->). rewrite A1, A2, A3. (split; [reflexivity|split; [reflexivity|split; [first [reflexivity|discriminate]|exact R5]]]).
              ** cbn [app] in A. destruct A as (A1 & A2 & A3). rewrite A1, A2, A3. (split; [reflexivity|split; [reflexivity|split; [first [reflexivity|discriminate]|exact R5]]]).
           ++ destruct (g_rot c) as [rt|] eqn:ER; [|contradiction]. destruct (GR _ eq_refl) as [X _]. cbn [app] in A. destruct rt as [|r1 rt]; [discriminate|].
              destruct A as (A1 & A2 & rot & A3 & ->). rewrite A1, A2, A3. (split; [reflexivity|split; [reflexivity|split; [first [reflexivity|discriminate]|exact R5]]]).
        -- destruct A as (A1 & A2 & A3). rewrite A1, A2, A3, PL. (split; [reflexivity|split; [reflexivity|split; [first [reflexivity|discriminate]|exact R5]]]).
      * destruct KF2 as (_ & A1 & A2 & A3); [|rewrite A1, A2, A3; split; [reflexivity|split; [reflexivity|split; [reflexivity|exact R5]]]]. intros s v tr0 I. destruct (g_univ c); cbn in I; intuition discriminate.
Qed.
End Cell2.
