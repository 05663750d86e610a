From Coq Require Import ZifyBool.
From Verif Require Import PyStr PyStrFacts Formatter FormatterProofs FortranNumberProofs PyInt PyIntFacts
  RegionSpec RegionFacts LexSpec CellModel CellProofs CellText CellWriters.

(** * Lexers and words *)

(** The lexer sees only the words of a text. *)
Lemma glex_words_gen d n : forall s cur, length s <= n -> nonspace cur ->
  glex d s cur =
  match s with
  | c :: r => if is_space c then flush cur ++ flat_map (fun w => glex d w []) (words r)
              else match words s with
                   | w :: ws => glex d w cur ++ flat_map (fun w => glex d w []) ws
                   | [] => flush cur
                   end
  | [] => flush cur
  end.
Proof.
  induction n as [|n IH]; intros s cur L N.
  - destruct s; [reflexivity|cbn in L; lia].
  - destruct s as [|c r]; [reflexivity|]. cbn [length] in L.
    assert (R : glex d r [] = flat_map (fun w => glex d w []) (words r)).
    { rewrite (IH r []) by (lia || reflexivity). destruct r as [|x r']; [reflexivity|].
      destruct (is_space x) eqn:Sx.
      - cbn [flush app]. now rewrite words_cons_space.
      - destruct (words (x :: r')) eqn:W.
        + apply words_nil_inv in W. cbn in W. rewrite Sx in W. discriminate.
        + reflexivity. }
    cbn [glex]. destruct (is_space c) eqn:Sc; [now rewrite R|].
    assert (W : exists w ws, words (c :: r) = (c :: w) :: ws /\
       ((w = [] /\ ws = words r /\ (r = [] \/ exists x r', r = x :: r' /\ is_space x = true)) \/
        (words r = w :: ws /\ exists x r', r = x :: r' /\ is_space x = false))).
    { cbn [words]. rewrite Sc. destruct r as [|x r'].
      - exists [], []. split; [reflexivity|]. left. auto.
      - destruct (is_space x) eqn:Sx.
        + exists [], (words (x :: r')). split; [reflexivity|]. left. repeat split. right. now exists x, r'.
        + destruct (words (x :: r')) as [|w ws] eqn:W.
          { apply words_nil_inv in W. cbn in W. rewrite Sx in W. discriminate. }
          exists w, ws. split; [reflexivity|]. right. split; [reflexivity|]. now exists x, r'. }
    destruct W as (w & ws & -> & [(-> & -> & Hr)|(Wr & x & r' & -> & Sx)]).
    + cbn [glex]. rewrite Sc. destruct (d c).
      * rewrite <- app_assoc. cbn [app]. now rewrite R.
      * cbn [glex]. destruct Hr as [->|(x & r' & -> & Sx)]; [reflexivity|].
        cbn [glex]. rewrite Sx. f_equal.
        rewrite words_cons_space by assumption.
        rewrite (IH r' []) by (cbn in L; lia || reflexivity). destruct r' as [|y r'']; [reflexivity|].
        destruct (is_space y) eqn:Sy.
        -- cbn [flush app]. now rewrite words_cons_space.
        -- destruct (words (y :: r'')) eqn:W.
           ++ apply words_nil_inv in W. cbn in W. rewrite Sy in W. discriminate.
           ++ reflexivity.
    + change (glex d (c :: w) cur) with (if is_space c then flush cur ++ glex d w []
         else match d c with Some t => flush cur ++ t :: glex d w [] | None => glex d w (c :: cur) end).
      rewrite Sc. destruct (d c) as [t|].
      * rewrite R, Wr. cbn [flat_map]. rewrite <- app_assoc. reflexivity.
      * rewrite (IH (x :: r') (c :: cur)).
        -- rewrite Sx, Wr. reflexivity.
        -- lia.
        -- unfold nonspace. cbn [forallb]. rewrite Sc. exact N.
Qed.

Lemma glex_words d s : glex d s [] = flat_map (fun w => glex d w []) (words s).
Proof.
  rewrite (glex_words_gen d (length s)) by (lia || reflexivity).
  destruct s as [|c r]; [reflexivity|]. destruct (is_space c) eqn:Sc.
  - cbn [flush app]. now rewrite words_cons_space.
  - destruct (words (c :: r)) eqn:W.
    + apply words_nil_inv in W. cbn in W. rewrite Sc in W. discriminate.
    + reflexivity.
Qed.

Lemma glex_words_eq d a b : words a = words b -> glex d a [] = glex d b [].
Proof. intro H. rewrite !glex_words, H. reflexivity. Qed.

(** The MCNP lexer likewise. *)
Lemma lex_app_space s : forall cur c b, is_space c = true ->
  lex (s ++ c :: b) cur = lex s cur ++ lex b [].
Proof.
  induction s as [|x s IH]; intros cur c b H.
  - cbn [app lex]. rewrite H. reflexivity.
  - cbn [app lex]. destruct (is_space x); [rewrite IH by assumption; now rewrite app_assoc|].
    destruct (Ascii.eqb x "+"); [now apply IH|].
    destruct (Ascii.eqb x "#").
    + destruct s as [|y s'].
      * cbn [app]. rewrite space_not_digit by assumption. cbn [lex]. rewrite H. cbn [flush app].
        rewrite <- app_assoc. reflexivity.
      * cbn [app] in *. destruct (is_digit y).
        -- rewrite (IH [x] c b H). now rewrite app_assoc.
        -- rewrite (IH [] c b H). rewrite <- app_assoc. reflexivity.
    + destruct (is_delim x).
      * rewrite IH by assumption. rewrite <- app_assoc. reflexivity.
      * now apply IH.
Qed.

(** Any text is white space around its words. *)
Lemma words_split s : forallb is_space s = true \/
  exists a w b, s = a ++ w ++ b /\ forallb is_space a = true /\ w <> [] /\ nonspace w /\
    (b = [] \/ exists c b', b = c :: b' /\ is_space c = true) /\ words s = w :: words b.
Proof.
  induction s as [|c s IH]; [now left|].
  destruct (is_space c) eqn:Sc.
  - destruct IH as [IH|(a & w & b & -> & Ha & Nw & Hw & Hb & W)].
    + left. cbn. now rewrite Sc.
    + right. exists (c :: a), w, b. repeat split; auto.
      * cbn. now rewrite Sc.
      * now rewrite words_cons_space.
  - right.
    assert (G : exists w b, s = w ++ b /\ nonspace w /\ (b = [] \/ exists d b', b = d :: b' /\ is_space d = true)).
    { clear IH. induction s as [|d s IHs].
      - exists [], []. repeat split. now left.
      - destruct (is_space d) eqn:Sd.
        + exists [], (d :: s). repeat split. right. now exists d, s.
        + destruct IHs as (w & b & -> & Hw & Hb). exists (d :: w), b. repeat split; auto.
          unfold nonspace in *. cbn. now rewrite Sd. }
    destruct G as (w & b & -> & Hw & Hb).
    exists [], (c :: w), b. repeat split; auto; try discriminate.
    + unfold nonspace in *. cbn. now rewrite Sc.
    + assert (N : nonspace (c :: w)) by (unfold nonspace in *; cbn; now rewrite Sc).
      destruct Hb as [->|(d & b' & -> & Sd)].
      * rewrite app_nil_r. now apply words_single.
      * change (c :: w ++ d :: b') with ((c :: w) ++ d :: b').
        rewrite words_word_space by (discriminate || assumption). now rewrite words_cons_space.
Qed.

Lemma lex_spaces a s : forallb is_space a = true -> lex (a ++ s) [] = lex s [].
Proof.
  induction a as [|c a IH]; intro H; [reflexivity|]. cbn in H. apply andb_prop in H as [H1 H2].
  cbn [app lex]. rewrite H1. cbn [flush app]. now apply IH.
Qed.

Lemma lex_words_eqn s : mcnp_lex s = flat_map mcnp_lex (words s).
Proof.
  remember (length s) as n eqn:E. assert (L : length s <= n) by lia. clear E. revert s L.
  induction n as [|n IH]; intros s L.
  - destruct s; [reflexivity|cbn in L; lia].
  - destruct (words_split s) as [H|(a & w & b & -> & Ha & Nw & Hw & Hb & W)].
    + pose proof H as H'. apply words_nil_inv in H'. rewrite H'. unfold mcnp_lex.
      rewrite <- (app_nil_r s). rewrite lex_spaces by assumption. reflexivity.
    + rewrite W. cbn [flat_map]. unfold mcnp_lex at 1. rewrite lex_spaces by assumption.
      destruct Hb as [->|(c & b' & -> & Sc)].
      * rewrite app_nil_r. cbn. now rewrite app_nil_r.
      * rewrite lex_app_space by assumption. f_equal. rewrite words_cons_space by assumption.
        apply IH. rewrite !app_length in L. cbn [length] in L. destruct w; [congruence|]. cbn [length] in L. lia.
Qed.

Lemma glex_app d : forall s cur c b,
  (is_space c = true \/ d c <> None) -> glex d (s ++ c :: b) cur = glex d s cur ++ glex d (c :: b) [].
Proof.
  induction s as [|x s IH]; intros cur c b H.
  - cbn [app glex]. destruct (is_space c); [reflexivity|].
    destruct H as [H|H]; [discriminate|]. destruct (d c); [reflexivity|congruence].
  - cbn [app glex]. destruct (is_space x); [rewrite IH by assumption; now rewrite app_assoc|].
    destruct (d x).
    + rewrite IH by assumption. rewrite <- app_assoc. reflexivity.
    + now apply IH.
Qed.

Lemma glex_app_l d s t : s = [] \/ (exists s' c, s = s' ++ [c] /\ is_space c = true) ->
  glex d (s ++ t) [] = glex d s [] ++ glex d t [].
Proof.
  intros [->|(s' & c & -> & H)]; [reflexivity|].
  rewrite <- app_assoc. cbn [app]. rewrite glex_app by (now left).
  rewrite (glex_app d s' [] c []) by (now left). cbn [glex]. rewrite H. cbn [flush app].
  rewrite app_nil_r. reflexivity.
Qed.

(** * Blanks *)

Lemma collapse_words s : words (collapse s) = words s /\
  (forall c r, s = c :: r -> exists r', collapse s = c :: r').
Proof.
  induction s as [|c s [IH1 IH2]]; [split; [reflexivity|discriminate]|]. split.
  - cbn [collapse]. destruct (Ascii.eqb_spec c blank) as [->|N].
    + destruct s as [|d s']; [reflexivity|]. rewrite (words_cons_space blank (d :: s')) by reflexivity.
      destruct (Ascii.eqb d blank); [exact IH1|]. rewrite words_cons_space by reflexivity. exact IH1.
    + destruct (is_space c) eqn:Sc; [rewrite !words_cons_space by assumption; exact IH1|].
      destruct s as [|d s']; [reflexivity|]. destruct (IH2 d s' eq_refl) as (r' & E).
      rewrite E in *. cbn [words] in *. rewrite Sc.
      destruct (is_space d); [now rewrite IH1|]. now rewrite IH1.
  - intros c' r E. injection E as <- <-. cbn [collapse].
    destruct (Ascii.eqb_spec c blank) as [->|N]; [|eexists; reflexivity].
    destruct s as [|d s']; [eexists; reflexivity|].
    destruct (Ascii.eqb_spec d blank) as [->|N]; [|eexists; reflexivity].
    apply (IH2 blank s' eq_refl).
Qed.

Lemma lstrip_words s : words (lstrip s) = words s.
Proof.
  induction s as [|c s IH]; [reflexivity|]. cbn [lstrip]. destruct (is_space c) eqn:E; [|reflexivity].
  now rewrite words_cons_space.
Qed.

Lemma lstrip_split s : exists a, s = a ++ lstrip s /\ forallb is_space a = true.
Proof.
  induction s as [|c s (a & E & H)]; [exists []; auto|]. cbn [lstrip]. destruct (is_space c) eqn:Sc.
  - exists (c :: a). cbn. rewrite Sc. split; [now rewrite <- E|assumption].
  - exists []. auto.
Qed.

Lemma rstrip_words s : words (rstrip s) = words s.
Proof.
  unfold rstrip. destruct (lstrip_split (rev s)) as (a & E & H).
  assert (F : s = rev (lstrip (rev s)) ++ rev a).
  { rewrite <- rev_app_distr, <- E, rev_involutive. reflexivity. }
  rewrite F at 2. rewrite words_app_space_r; [reflexivity|].
  rewrite forallb_forall in *. intros x I. apply H. now apply in_rev.
Qed.

Lemma strip_words s : words (strip s) = words s.
Proof. unfold strip. rewrite rstrip_words. apply lstrip_words. Qed.

(** * Runs of non-blank characters *)

Fixpoint lead (s : text) : nat :=
  match s with [] => 0 | c :: r => if Ascii.eqb c blank then 0 else S (lead r) end.

Fixpoint maxrun (s : text) : nat :=
  match s with [] => 0 | c :: r => Nat.max (lead s) (maxrun r) end.

Lemma lead_bound w b : noblank w -> length w <= lead (w ++ b).
Proof.
  induction w as [|c w IH]; intro N; [cbn; lia|]. cbn [app lead length].
  destruct (Ascii.eqb_spec c blank); [exfalso; apply N; now left|].
  assert (N' : noblank w) by (intro I; apply N; now right). specialize (IH N'). lia.
Qed.

Lemma maxrun_app_r a b : maxrun b <= maxrun (a ++ b).
Proof. induction a as [|c a IH]; [cbn; lia|]. cbn [app maxrun]. lia. Qed.

Lemma lead_le_maxrun s : lead s <= maxrun s.
Proof. destruct s; cbn [maxrun]; [cbn; lia|lia]. Qed.

Lemma runs_maxrun s n : maxrun s <= n -> runs_at_most n s.
Proof.
  intros H a w b -> N. pose proof (maxrun_app_r a (w ++ b)). pose proof (lead_le_maxrun (w ++ b)).
  pose proof (lead_bound w b N). lia.
Qed.

(** Length of the trailing non-blank run plus the leading one of the next part. *)
Lemma lead_app a b : lead (a ++ b) <= Nat.max (lead a) (length a + lead b) /\
  (In blank a -> lead (a ++ b) = lead a) /\ (~ In blank a -> lead (a ++ b) = length a + lead b).
Proof.
  induction a as [|c a (IH1 & IH2 & IH3)].
  - cbn. split; [lia|split; [intros []|auto]].
  - cbn [app lead length]. destruct (Ascii.eqb_spec c blank) as [->|N].
    + split; [lia|split; [auto|intro F; exfalso; apply F; now left]].
    + split; [lia|split].
      * intros [F|F]; [congruence|]. now rewrite IH2.
      * intro F. rewrite IH3; [reflexivity|]. intro; apply F; now right.
Qed.

Lemma maxrun_app_blank a b : maxrun (a ++ blank :: b) = Nat.max (maxrun a) (maxrun b).
Proof.
  induction a as [|c a IH].
  - cbn. lia.
  - cbn [app maxrun]. rewrite IH.
    assert (E : lead (c :: a ++ blank :: b) = lead (c :: a)).
    { cbn [lead]. destruct (Ascii.eqb c blank); [reflexivity|]. f_equal.
      clear. induction a as [|d a IH]; [reflexivity|]. cbn [app lead]. destruct (Ascii.eqb d blank); [reflexivity|]. now rewrite IH. }
    rewrite E. lia.
Qed.

Lemma maxrun_noblank w : maxrun w <= length w.
Proof.
  induction w as [|c w IH]; [cbn; lia|]. cbn [maxrun length lead].
  pose proof (lead_le_maxrun w). destruct (Ascii.eqb c blank); lia.
Qed.

Lemma lead_collapse s : lead (collapse s) = lead s.
Proof.
  induction s as [|c s IH]; [reflexivity|]. cbn [collapse lead].
  destruct (Ascii.eqb_spec c blank) as [->|N].
  - destruct s as [|d s']; [reflexivity|]. destruct (Ascii.eqb_spec d blank) as [->|Nd].
    + rewrite IH. reflexivity.
    + reflexivity.
  - cbn [lead]. destruct (Ascii.eqb_spec c blank); [contradiction|]. now rewrite IH.
Qed.

Lemma maxrun_collapse s : maxrun (collapse s) = maxrun s.
Proof.
  induction s as [|c s IH]; [reflexivity|].
  pose proof (lead_collapse (c :: s)) as L.
  cbn [collapse] in *. destruct (Ascii.eqb_spec c blank) as [->|N].
  - destruct s as [|d s']; [reflexivity|]. destruct (Ascii.eqb_spec d blank) as [->|Nd].
    + rewrite IH. cbn [maxrun lead]. rewrite Ascii.eqb_refl. lia.
    + cbn [maxrun] in *. rewrite IH. reflexivity.
  - cbn [maxrun]. rewrite L, IH. reflexivity.
Qed.

Lemma maxrun_lstrip s : maxrun (lstrip s) <= maxrun s.
Proof. destruct (lstrip_split s) as (a & E & _). rewrite E at 2. apply maxrun_app_r. Qed.

Lemma maxrun_app_l a b : maxrun a <= maxrun (a ++ b).
Proof.
  induction a as [|c a IH]; [cbn; lia|]. cbn [app maxrun].
  assert (lead (c :: a) <= lead (c :: a ++ b)).
  { change (c :: a ++ b) with ((c :: a) ++ b). destruct (lead_app (c :: a) b) as (_ & H2 & H3).
    destruct (in_dec ascii_dec blank (c :: a)) as [I|I]; [now rewrite H2|].
    rewrite H3 by assumption. pose proof (maxrun_noblank (c :: a)). pose proof (lead_le_maxrun (c :: a)). lia. }
  lia.
Qed.

Lemma maxrun_rstrip s : maxrun (rstrip s) <= maxrun s.
Proof.
  unfold rstrip. destruct (lstrip_split (rev s)) as (a & E & H).
  assert (F : s = rev (lstrip (rev s)) ++ rev a).
  { rewrite <- rev_app_distr, <- E, rev_involutive. reflexivity. }
  rewrite F at 2. apply maxrun_app_l.
Qed.

(** * From here: rendering of descriptions *)

Definition words_of (l : list item) : list text :=
  flat_map (fun i => match i with Str s => if is_word s then [s] else [] | Op _ => [] end) l.

Definition one_atom (lx : text -> list rtok) (w : text) : Prop := nonspace w /\ lx w = [TAtom w].

Definition nonword (i : item) : bool := match i with Str s => negb (is_word s) | Op _ => true end.

Definition starts_nonword (l : list item) : bool := match l with [] => true | i :: _ => nonword i end.

Lemma spaced_false_start l : spaced false l = true -> starts_nonword l = true.
Proof.
  destruct l as [|[o|s] r]; try reflexivity. cbn. destruct (is_word s); [discriminate|reflexivity].
Qed.

Lemma nonword_cases i : nonword i = true -> (exists o, i = Op o) \/ i = Str (T "(") \/ i = Str (T ")").
Proof.
  destruct i as [o|s]; [intros _; left; now exists o|]. cbn [nonword]. unfold is_word. intro H. right.
  destruct (text_eqb_spec s (T "(")) as [E|]; [left; now rewrite E|].
  destruct (text_eqb_spec s (T ")")) as [E|]; [right; now rewrite E|discriminate].
Qed.

Lemma spaced_cons ok i l : spaced ok (i :: l) = true ->
  (nonword i = true /\ spaced (match i with Op AND => true | Str s => text_eqb s (T "(") | _ => false end) l = true) \/
  (exists s, i = Str s /\ is_word s = true /\ ok = true /\ spaced false l = true).
Proof.
  destruct i as [o|s]; cbn [spaced nonword]; intro H; [left; destruct o; auto|].
  destruct (is_word s) eqn:W; [|left; cbn; auto].
  right. apply andb_prop in H as [H1 H2]. exists s. auto.
Qed.

Lemma words_of_cons_word s l : is_word s = true -> words_of (Str s :: l) = s :: words_of l.
Proof. intro H. unfold words_of. cbn [flat_map]. rewrite H. reflexivity. Qed.

Lemma words_of_cons_nonword i l : nonword i = true -> words_of (i :: l) = words_of l.
Proof. destruct i as [o|s]; [reflexivity|]. cbn. destruct (is_word s); [discriminate|reflexivity]. Qed.

Lemma toks_cons i l : toks (i :: l) = item_toks i ++ toks l.
Proof. reflexivity. Qed.

(** What makes a rendering function correct for a lexer. *)
Lemma render_glex d f
  (Hf : forall i X, nonword i = true -> glex d (f i ++ X) [] = item_toks i ++ glex d X [])
  (Hb : forall i, nonword i = true -> exists c t, f i = c :: t /\ (is_space c = true \/ d c <> None))
  (Hw : forall s, is_word s = true -> f (Str s) = s)
  l : forall ok X, spaced ok l = true -> Forall (one_atom (fun w => glex d w [])) (words_of l) ->
  (X = [] \/ exists c t, X = c :: t /\ (is_space c = true \/ d c <> None)) ->
  glex d (flat_map f l ++ X) [] = toks l ++ glex d X [].
Proof.
  induction l as [|i l IH]; intros ok X Sp A HX; [reflexivity|].
  cbn [flat_map]. rewrite toks_cons. rewrite <- !app_assoc. apply spaced_cons in Sp as [[N Sp]|(s & -> & W & -> & Sp)].
  - rewrite Hf by assumption. f_equal. rewrite words_of_cons_nonword in A by assumption. eapply IH; eauto.
  - rewrite words_of_cons_word in A by assumption. inversion A as [|? ? [A1 A2] A3]; subst.
    rewrite Hw by assumption. cbn [item_toks]. rewrite str_tok_word by assumption.
    rewrite <- (IH false X) by assumption.
    assert (St : flat_map f l ++ X = [] \/ exists c t, flat_map f l ++ X = c :: t /\ (is_space c = true \/ d c <> None)).
    { apply spaced_false_start in Sp. destruct l as [|i l]; [exact HX|]. cbn in Sp.
      destruct (Hb i Sp) as (c & t & E & H). right. cbn [flat_map]. rewrite E. cbn [app]. eauto. }
    destruct St as [->|(c & t & -> & H)]; [rewrite app_nil_r; exact A2|].
    rewrite glex_app by assumption. now rewrite A2.
Qed.

Ltac nonword_tac H := apply nonword_cases in H as [([] & ->)|[->| ->]].

Lemma serpent_glex l ok X : spaced ok l = true -> Forall (one_atom (fun w => glex serpent_delim w [])) (words_of l) ->
  (X = [] \/ exists c t, X = c :: t /\ (is_space c = true \/ serpent_delim c <> None)) ->
  glex serpent_delim (flat_map serpent_op l ++ X) [] = toks l ++ glex serpent_delim X [].
Proof.
  apply render_glex.
  - intros i Y N. nonword_tac N; reflexivity.
  - intros i N. nonword_tac N; (do 2 eexists; split; [reflexivity|]); try (left; reflexivity); right; discriminate.
  - intros s W. unfold is_word in W. unfold serpent_op. destruct (text_eqb s (T "(")); [discriminate|].
    destruct (text_eqb s (T ")")); [discriminate|reflexivity].
Qed.

Lemma scone_glex l ok X : spaced ok l = true -> Forall (one_atom (fun w => glex scone_delim w [])) (words_of l) ->
  (X = [] \/ exists c t, X = c :: t /\ (is_space c = true \/ scone_delim c <> None)) ->
  glex scone_delim (flat_map scone_op l ++ X) [] = toks l ++ glex scone_delim X [].
Proof.
  apply render_glex.
  - intros i Y N. nonword_tac N; reflexivity.
  - intros i N. nonword_tac N; (do 2 eexists; split; [reflexivity|]); left; reflexivity.
  - intros s W. unfold is_word in W. unfold scone_op. destruct (text_eqb s (T "(")); [discriminate|].
    destruct (text_eqb s (T ")")); [discriminate|reflexivity].
Qed.

(** OpenMC: padding parentheses does not change the tokens. *)
Lemma replace_char_cons c t d s : replace_char c t (d :: s) = (if Ascii.eqb c d then t else [d]) ++ replace_char c t s.
Proof. reflexivity. Qed.

Lemma replace_open_glex s : forall cur,
  glex openmc_delim (replace_char ")" (T " ) ") (replace_char "(" (T " ( ") s)) cur = glex openmc_delim s cur.
Proof.
  induction s as [|c s IH]; intro cur; [reflexivity|].
  rewrite replace_char_cons. destruct (Ascii.eqb_spec "(" c) as [<-|N].
  - change (T " ( " ++ replace_char "(" (T " ( ") s) with (" "%char :: "("%char :: " "%char :: replace_char "(" (T " ( ") s).
    rewrite !replace_char_cons. change (Ascii.eqb ")" " ") with false. change (Ascii.eqb ")" "(") with false. cbv iota.
    cbn [app glex]. change (is_space "(") with false. change (is_space " ") with true.
    change (openmc_delim "(") with (Some TOpen). cbv iota. cbn [flush app]. rewrite IH. reflexivity.
  - cbn [app]. rewrite replace_char_cons. destruct (Ascii.eqb_spec ")" c) as [<-|N'].
    + change (T " ) " ++ ?x) with (" "%char :: ")"%char :: " "%char :: x).
      cbn [app glex]. change (is_space ")") with false. change (is_space " ") with true.
      change (openmc_delim ")") with (Some TClose). cbv iota. cbn [flush app]. rewrite IH. reflexivity.
    + cbn [app glex]. rewrite !IH. reflexivity.
Qed.

Lemma openmc_glex l ok : spaced ok l = true -> Forall (one_atom (fun w => glex openmc_delim w [])) (words_of l) ->
  glex openmc_delim (openmc_region l) [] = toks l.
Proof.
  intros Sp A. unfold openmc_region. rewrite replace_open_glex.
  rewrite <- (app_nil_r (flat_map openmc_op l)), <- (app_nil_r (toks l)).
  apply (render_glex openmc_delim openmc_op) with (ok := ok); auto.
  - intros i Y N. nonword_tac N; reflexivity.
  - intros i N. nonword_tac N; (do 2 eexists; split; [reflexivity|]); try (left; reflexivity); right; discriminate.
Qed.

(** MCNP. *)
Lemma lex_hash_blank X : lex (T " #" ++ blank :: X) [] = TNot :: lex X [].
Proof. reflexivity. Qed.

Lemma mcnp_render l : forall ok X, spaced ok l = true -> Forall (one_atom mcnp_lex) (words_of l) ->
  (exists t, X = blank :: t) \/ (exists t, X = newline :: t) ->
  mcnp_lex (flat_map mcnp_op l ++ X) = toks l ++ mcnp_lex X.
Proof.
  unfold mcnp_lex at 2 3. induction l as [|i l IH]; intros ok X Sp A HX; [reflexivity|].
  assert (St : forall ok', spaced ok' l = true -> starts_nonword l = true ->
     exists c t, flat_map mcnp_op l ++ X = c :: t /\ is_space c = true).
  { intros ok' Sp' H. destruct l as [|j l]; [destruct HX as [[t ->]|[t ->]]; do 2 eexists; split; reflexivity|].
    cbn in H. nonword_tac H; do 2 eexists; split; reflexivity. }
  cbn [flat_map]. rewrite toks_cons. rewrite <- !app_assoc. apply spaced_cons in Sp as [[N Sp]|(s & -> & W & -> & Sp)].
  - rewrite words_of_cons_nonword in A by assumption. rewrite <- (IH _ X Sp A HX).
    nonword_tac N; try reflexivity.
    apply spaced_false_start in Sp as Sp'. destruct (St _ Sp Sp') as (c & t & -> & Hc).
    unfold mcnp_lex. cbn [mcnp_op item_toks app T list_ascii_of_string lex].
    change (is_space " ") with true. change (is_space "#") with false. cbv iota.
    change (Ascii.eqb "#" "+") with false. change (Ascii.eqb "#" "#") with true. cbv iota.
    rewrite (space_not_digit c Hc). reflexivity.
  - rewrite words_of_cons_word in A by assumption. inversion A as [|? ? [A1 A2] A3]; subst.
    rewrite <- (IH _ X Sp A3 HX). cbn [item_toks]. rewrite str_tok_word by assumption.
    assert (E : mcnp_op (Str s) = s).
    { unfold is_word in W. unfold mcnp_op. destruct (text_eqb s (T "(")); [discriminate|].
      destruct (text_eqb s (T ")")); [discriminate|reflexivity]. }
    rewrite E. apply spaced_false_start in Sp as Sp'. destruct (St _ Sp Sp') as (c & t & -> & Hc).
    unfold mcnp_lex. rewrite lex_app_space by assumption. fold (mcnp_lex s). rewrite A2.
    cbn [app lex]. rewrite Hc. reflexivity.
Qed.

(** * Lengths of runs *)

Lemma maxrun_app a b : maxrun (a ++ b) <= Nat.max (maxrun a + lead b) (maxrun b).
Proof.
  induction a as [|c a IH]; [cbn; lia|]. cbn [app maxrun].
  assert (lead (c :: a ++ b) <= lead (c :: a) + lead b).
  { change (c :: a ++ b) with ((c :: a) ++ b). destruct (lead_app (c :: a) b) as (_ & H2 & H3).
    destruct (in_dec ascii_dec blank (c :: a)) as [I|I]; [rewrite H2 by assumption; lia|].
    rewrite H3 by assumption. cbn [lead].
    assert (G : forall x, ~ In blank x -> lead x = length x).
    { induction x as [|y x IHx]; [reflexivity|]. intro F. cbn [lead length].
      destruct (Ascii.eqb_spec y blank) as [->|]; [exfalso; apply F; now left|]. rewrite IHx; [reflexivity|].
      intro; apply F; now right. }
    rewrite <- (G (c :: a) I). cbn [lead]. lia. }
  lia.
Qed.

Definition ends_blank (s : text) : Prop := exists s', s = s' ++ [blank].

Lemma maxrun_app_ends a b : ends_blank a -> maxrun (a ++ b) = Nat.max (maxrun a) (maxrun b).
Proof.
  intros [s ->]. rewrite <- app_assoc. cbn [app]. rewrite !maxrun_app_blank. cbn. lia.
Qed.

Lemma maxrun_blank_mid a b : maxrun (a ++ T " " ++ b) = Nat.max (maxrun a) (maxrun b).
Proof. apply maxrun_app_blank. Qed.

Lemma render_runs f n l : 1 <= n ->
  (forall i, nonword i = true -> maxrun (f i) <= 1) ->
  (ends_blank (f (Op AND))) -> (ends_blank (f (Str (T "(")))) -> ends_blank (f (Str (T ")"))) ->
  (forall s, is_word s = true -> f (Str s) = s) ->
  (forall a l', l = a ++ l' -> starts_nonword l' = true -> lead (flat_map f l') <= 1) ->
  forall ok, spaced ok l = true -> Forall (fun w => length w <= n) (words_of l) ->
  maxrun (flat_map f l) <= S n.
Proof.
  intros Hn H1 H2 H3 H4 Hw. induction l as [|i l IH]; intros HL ok Sp A; [cbn; lia|].
  assert (HL' : forall a l', l = a ++ l' -> starts_nonword l' = true -> lead (flat_map f l') <= 1).
  { intros a l' E. apply (HL (i :: a)). now rewrite E. }
  specialize (IH HL').
  cbn [flat_map]. apply spaced_cons in Sp as [[N Sp]|(s & -> & W & -> & Sp)].
  - rewrite words_of_cons_nonword in A by assumption. specialize (IH _ Sp A). specialize (H1 i N).
    nonword_tac N.
    + rewrite maxrun_app_ends by assumption. lia.
    + apply spaced_false_start in Sp. pose proof (HL' [] l eq_refl Sp). pose proof (maxrun_app (f (Op UNION)) (flat_map f l)). lia.
    + apply spaced_false_start in Sp. pose proof (HL' [] l eq_refl Sp). pose proof (maxrun_app (f (Op NOT)) (flat_map f l)). lia.
    + rewrite maxrun_app_ends by assumption. lia.
    + rewrite maxrun_app_ends by assumption. lia.
  - rewrite words_of_cons_word in A by assumption. inversion A as [|? ? A1 A2]; subst.
    specialize (IH _ Sp A2). apply spaced_false_start in Sp. pose proof (HL' [] l eq_refl Sp).
    rewrite Hw by assumption. pose proof (maxrun_app s (flat_map f l)). pose proof (maxrun_noblank s). lia.
Qed.

(** No two unions in a row in a well-formed description. *)
Lemma run_no_double_union ts : forall f stk r, run ts f stk = Some r ->
  forall a b, ts <> a ++ TUnion :: TUnion :: b.
Proof.
  induction ts as [|t ts IH]; intros f stk r H a b E; [destruct a; discriminate|].
  destruct a as [|x a]; cbn [app] in E; injection E as -> E.
  - subst ts. cbn [run] in H. destruct (finish f); [|discriminate]. cbn in H. discriminate.
  - assert (exists f' stk', run ts f' stk' = Some r) as (f' & stk' & H').
    { cbn [run] in H. destruct x.
      - destruct (finish f); [eauto|discriminate].
      - destruct ts as [|[] ts']; try discriminate. destruct (f_neg f); [discriminate|]. eauto.
      - eauto.
      - destruct (finish f); [|discriminate]. destruct stk; [discriminate|]. eauto.
      - destruct (f_neg f); [discriminate|]. eauto. }
    eapply IH; eauto.
Qed.

Lemma lead_serpent l r : expr (toks l) r -> forall a l', l = a ++ l' ->
  starts_nonword l' = true -> spaced false l' = true -> lead (flat_map serpent_op l') <= 1.
Proof.
  intros E a l' -> N Sp. destruct l' as [|i l']; [cbn; lia|]. cbn in N.
  nonword_tac N; try (cbn; lia).
  cbn [spaced] in Sp. apply spaced_false_start in Sp.
  cbn [flat_map serpent_op T list_ascii_of_string app lead]. change (Ascii.eqb ":" blank) with false. cbv iota.
  destruct l' as [|j l'']; [cbn; lia|]. cbn in Sp. nonword_tac Sp; try (cbn; lia).
  exfalso. apply parse_complete in E. unfold parse in E. unfold toks in E. rewrite flat_map_app in E.
  eapply (run_no_double_union _ _ _ _ E). reflexivity.
Qed.

Lemma spaced_suffix l : forall ok a l', spaced ok l = true -> l = a ++ l' -> starts_nonword l' = true -> spaced false l' = true.
Proof.
  induction l as [|i l IH]; intros ok a l' Sp E N.
  - destruct a, l'; try discriminate. reflexivity.
  - destruct a as [|x a]; cbn [app] in E.
    + subst l'. cbn in N. apply spaced_cons in Sp as [[_ Sp]|(s & -> & W & _)].
      * nonword_tac N; exact Sp.
      * cbn in N. rewrite W in N. discriminate.
    + injection E as -> E. apply spaced_cons in Sp as [[_ Sp]|(s & -> & W & _ & Sp)]; eapply IH; eauto.
Qed.

Lemma mcnp_runs n l ok : 1 <= n -> spaced ok l = true -> Forall (fun w => length w <= n) (words_of l) ->
  maxrun (flat_map mcnp_op l) <= S n.
Proof.
  intros Hn Sp A. eapply render_runs; eauto.
  - intros i N. nonword_tac N; cbn; lia.
  - now exists (T " ").
  - now exists (T " (").
  - now exists (T " )").
  - intros s W. unfold is_word in W. unfold mcnp_op. destruct (text_eqb s (T "(")); [discriminate|].
    destruct (text_eqb s (T ")")); [discriminate|reflexivity].
  - intros a l' _ N. destruct l' as [|i l']; [cbn; lia|]. cbn in N. nonword_tac N; cbn; lia.
Qed.

Lemma scone_runs n l ok : 1 <= n -> spaced ok l = true -> Forall (fun w => length w <= n) (words_of l) ->
  maxrun (flat_map scone_op l) <= S n.
Proof.
  intros Hn Sp A. eapply render_runs; eauto.
  - intros i N. nonword_tac N; cbn; lia.
  - now exists [].
  - now exists (T " <").
  - now exists (T " >").
  - intros s W. unfold is_word in W. unfold scone_op. destruct (text_eqb s (T "(")); [discriminate|].
    destruct (text_eqb s (T ")")); [discriminate|reflexivity].
  - intros a l' _ N. destruct l' as [|i l']; [cbn; lia|]. cbn in N. nonword_tac N; cbn; lia.
Qed.

Lemma serpent_runs n l r ok : 1 <= n -> expr (toks l) r -> spaced ok l = true -> Forall (fun w => length w <= n) (words_of l) ->
  maxrun (flat_map serpent_op l) <= S n.
Proof.
  intros Hn E Sp A. eapply render_runs; eauto.
  - intros i N. nonword_tac N; cbn; lia.
  - now exists [].
  - now exists (T " (").
  - now exists (T " )").
  - intros s W. unfold is_word in W. unfold serpent_op. destruct (text_eqb s (T "(")); [discriminate|].
    destruct (text_eqb s (T ")")); [discriminate|reflexivity].
  - intros a l' El N. eapply lead_serpent; eauto. eapply spaced_suffix; eauto.
Qed.

(** * FLUKA *)

(** The lexer composed with the two rewrites, seen as a lexer of the original text. *)
Fixpoint flex (s cur : text) : list rtok :=
  match s with
  | [] => flush cur
  | c :: r =>
      if is_space c then flush cur ++ flex r []
      else match fluka_delim c with
           | Some t => flush cur ++ t :: flex r []
           | None =>
               if Ascii.eqb c "-" then
                 match r with
                 | b1 :: r1 =>
                     if Ascii.eqb b1 blank then
                       match r1 with
                       | x :: r2 =>
                           if Ascii.eqb x "+" then flush cur ++ flex r2 [c]
                           else if Ascii.eqb x blank then
                             match r2 with
                             | y :: r3 => if Ascii.eqb y "+" then flush cur ++ flex r3 [c] else flex r (c :: cur)
                             | [] => flex r (c :: cur)
                             end
                           else flex r (c :: cur)
                       | [] => flex r (c :: cur)
                       end
                     else flex r (c :: cur)
                 | [] => flex r (c :: cur)
                 end
               else flex r (c :: cur)
           end
  end.

Lemma halve_cons_other c r : c <> blank -> halve (c :: r) = c :: halve r.
Proof.
  intro N. cbn [halve]. destruct r as [|d r']; [reflexivity|].
  destruct (Ascii.eqb_spec c blank); [contradiction|]. reflexivity.
Qed.

Lemma halve_blank_other d r : d <> blank -> halve (blank :: d :: r) = blank :: halve (d :: r).
Proof.
  intro N. cbn [halve]. rewrite Ascii.eqb_refl. destruct (Ascii.eqb_spec d blank); [contradiction|]. reflexivity.
Qed.

Lemma halve_blank_blank r : halve (blank :: blank :: r) = blank :: halve r.
Proof. reflexivity. Qed.

Lemma halve_nil s : halve s = [] -> s = [].
Proof.
  destruct s as [|c [|d r]]; [reflexivity|discriminate|]. cbn [halve].
  destruct (Ascii.eqb c blank && Ascii.eqb d blank); discriminate.
Qed.

Lemma halve_head c r : exists r', halve (c :: r) = c :: r'.
Proof.
  destruct (ascii_dec c blank) as [->|N].
  - destruct r as [|d r]; [eexists; reflexivity|].
    destruct (ascii_dec d blank) as [->|N]; [eexists; reflexivity|].
    rewrite halve_blank_other by assumption. eexists; reflexivity.
  - rewrite halve_cons_other by assumption. eexists; reflexivity.
Qed.

Lemma fix_minus_other c r : c <> "-"%char -> fix_minus (c :: r) = c :: fix_minus r.
Proof.
  intro N. cbn [fix_minus]. destruct r as [|d [|e r]]; try reflexivity.
  destruct (Ascii.eqb_spec c "-"); [contradiction|]. reflexivity.
Qed.

Lemma fix_minus_second c d r : d <> blank -> fix_minus (c :: d :: r) = c :: fix_minus (d :: r).
Proof.
  intro N. cbn [fix_minus]. destruct r as [|e r]; try reflexivity.
  destruct (Ascii.eqb_spec d blank); [contradiction|]. rewrite andb_false_r. reflexivity.
Qed.

Lemma fix_minus_third c d e r : e <> "+"%char -> fix_minus (c :: d :: e :: r) = c :: fix_minus (d :: e :: r).
Proof.
  intro N. cbn [fix_minus]. destruct (Ascii.eqb_spec e "+"); [contradiction|]. rewrite andb_false_r. reflexivity.
Qed.

Lemma flex_ok n : forall s cur, length s <= n -> glex fluka_delim (fix_minus (halve s)) cur = flex s cur.
Proof.
  induction n as [|n IH]; intros s cur L; [destruct s; [reflexivity|cbn in L; lia]|].
  destruct s as [|c r]; [reflexivity|]. cbn [length] in L.
  destruct (ascii_dec c blank) as [->|Nb].
  { destruct r as [|d r]; [reflexivity|]. destruct (ascii_dec d blank) as [->|Nd].
    - rewrite halve_blank_blank, fix_minus_other by discriminate. cbn [glex flex].
      change (is_space blank) with true. cbv iota. f_equal. cbn [flush app]. apply IH. cbn in L; lia.
    - rewrite halve_blank_other, fix_minus_other by (assumption || discriminate). cbn [glex].
      change (is_space blank) with true. cbv iota. rewrite IH by lia. reflexivity. }
  rewrite halve_cons_other by assumption.
  destruct (ascii_dec c "-") as [->|Nm].
  2:{ rewrite fix_minus_other by assumption. cbn [glex flex].
      destruct (Ascii.eqb_spec c "-"); [contradiction|].
      destruct (is_space c); [f_equal; apply IH; lia|].
      destruct (fluka_delim c); [f_equal; f_equal; apply IH; lia|apply IH; lia]. }
  cbn [flex]. change (is_space "-") with false. change (fluka_delim "-") with (@None rtok).
  change (Ascii.eqb "-" "-") with true. cbv iota.
  assert (G : fix_minus ("-"%char :: halve r) = "-"%char :: fix_minus (halve r) ->
     glex fluka_delim (fix_minus ("-"%char :: halve r)) cur = flex r ("-"%char :: cur)).
  { intros ->. cbn [glex]. change (is_space "-") with false. change (fluka_delim "-") with (@None rtok). cbv iota.
    apply IH. lia. }
  destruct r as [|b1 r1]; [apply G; reflexivity|].
  destruct (Ascii.eqb_spec b1 blank) as [->|N1].
  2:{ apply G. destruct (halve_head b1 r1) as (r' & ->). now apply fix_minus_second. }
  destruct r1 as [|x r2]; [apply G; reflexivity|].
  destruct (Ascii.eqb_spec x "+") as [->|Nx].
  { rewrite halve_blank_other, halve_cons_other by discriminate. 
    change (fix_minus ("-"%char :: blank :: "+"%char :: halve r2)) with (blank :: "-"%char :: fix_minus (halve r2)).
    cbn [glex]. change (is_space blank) with true. change (is_space "-") with false.
    change (fluka_delim "-") with (@None rtok). cbv iota. f_equal. apply IH. cbn in L. lia. }
  destruct (Ascii.eqb_spec x blank) as [->|Nxb].
  2:{ apply G. rewrite halve_blank_other by assumption. destruct (halve_head x r2) as (r' & ->). now apply fix_minus_third. }
  destruct r2 as [|y r3]; [apply G; reflexivity|].
  destruct (Ascii.eqb_spec y "+") as [->|Ny].
  { rewrite halve_blank_blank, halve_cons_other by discriminate.
    change (fix_minus ("-"%char :: blank :: "+"%char :: halve r3)) with (blank :: "-"%char :: fix_minus (halve r3)).
    cbn [glex]. change (is_space blank) with true. change (is_space "-") with false.
    change (fluka_delim "-") with (@None rtok). cbv iota. f_equal. apply IH. cbn in L. lia. }
  apply G. rewrite halve_blank_blank. destruct (halve_head y r3) as (r' & ->). now apply fix_minus_third.
Qed.

(** Words that contain neither white space nor the FLUKA delimiters nor a minus. *)
Definition simple_char (c : ascii) : bool :=
  negb (is_space c) && negb (Ascii.eqb c "-") && match fluka_delim c with None => true | Some _ => false end.

Lemma flex_simple w : forall cur X, forallb simple_char w = true ->
  flex (w ++ X) cur = flex X (rev w ++ cur).
Proof.
  induction w as [|c w IH]; intros cur X H; [reflexivity|].
  cbn [forallb] in H. apply andb_prop in H as [H1 H2]. unfold simple_char in H1.
  apply andb_prop in H1 as [H1 H3]. apply andb_prop in H1 as [H0 H1].
  apply negb_true_iff in H0, H1. cbn [app flex]. rewrite H0, H1.
  destruct (fluka_delim c); [discriminate|]. rewrite IH by assumption. cbn [rev]. rewrite <- app_assoc. reflexivity.
Qed.

Lemma flex_blank X cur : flex (blank :: X) cur = flush cur ++ flex X [].
Proof. reflexivity. Qed.

Lemma digits_simple d : all_digits d -> forallb simple_char d = true.
Proof.
  unfold all_digits. rewrite !forallb_forall. intros H x I. specialize (H x I).
  assert (Sp : is_space x = false).
  { destruct (is_space x) eqn:S; [|reflexivity]. apply space_not_digit in S. congruence. }
  unfold simple_char, fluka_delim. rewrite Sp, !(digit_not x) by (assumption || reflexivity). reflexivity.
Qed.

Definition fluka_word (w : text) : text :=
  match py_int w with
  | None => w
  | Some z => if (z <? 0)%Z then T "+S" ++ str_Z (Z.abs z) else T "-S" ++ str_Z z
  end.

Lemma str_Z_digits z : (0 <= z)%Z -> all_digits (str_Z z).
Proof. intro H. unfold str_Z. destruct (Z.ltb_spec z 0); [lia|]. apply str_N_ok. Qed.

Lemma flush_rev w : w <> [] -> flush (rev w) = [TAtom w].
Proof.
  intro N. unfold flush. destruct (rev w) eqn:E.
  - apply (f_equal (@rev ascii)) in E. rewrite rev_involutive in E. contradiction.
  - rewrite <- E, rev_involutive. reflexivity.
Qed.

(** One word in front of a blank. *)
Lemma flex_word w z X : py_int w = Some z -> z <> 0%Z ->
  exists t, fluka_op (Str w) = Some t /\ is_word w = true /\
    flex (t ++ blank :: X) [] = TAtom (fluka_word w) :: flex X [] /\
    exists c t', t = blank :: c :: t' /\ c <> blank.
Proof.
  intros E N.
  assert (W : is_word w = true).
  { unfold is_word. destruct (text_eqb_spec w (T "(")) as [F|]; [rewrite F in E; vm_compute in E; discriminate|].
    destruct (text_eqb_spec w (T ")")) as [F|]; [rewrite F in E; vm_compute in E; discriminate|reflexivity]. }
  unfold fluka_op, fluka_word. rewrite E. pose proof W as W'. unfold is_word in W'.
  destruct (text_eqb w (T "(")); [discriminate|]. destruct (text_eqb w (T ")")); [discriminate|]. clear W'.
  destruct (Z.ltb_spec z 0).
  - eexists. split; [reflexivity|]. split; [assumption|]. split.
    + set (d := str_Z (Z.abs z)). change ((T " +S" ++ d) ++ blank :: X) with (blank :: (T "+S" ++ d) ++ blank :: X).
      rewrite flex_blank. cbn [flush app]. rewrite flex_simple.
      * rewrite flex_blank, app_nil_r, flush_rev by discriminate. reflexivity.
      * rewrite forallb_app. apply andb_true_intro. split; [reflexivity|].
        apply digits_simple, str_Z_digits. lia.
    + do 2 eexists. split; [reflexivity|discriminate].
  - destruct (Z.ltb_spec 0 z); [|lia]. eexists. split; [reflexivity|]. split; [assumption|]. split.
    + set (d := str_Z z). change ((T " -S" ++ d) ++ blank :: X) with (blank :: "-"%char :: (T "S" ++ d) ++ blank :: X).
      rewrite flex_blank. cbn [flush app].
      change (flex ("-"%char :: (T "S" ++ d) ++ blank :: X) []) with (flex ((T "S" ++ d) ++ blank :: X) (T "-")).
      rewrite flex_simple.
      * rewrite flex_blank. f_equal. change (rev (T "S" ++ d) ++ T "-") with (rev (T "S" ++ d) ++ rev (T "-")).
        rewrite <- rev_app_distr, flush_rev by discriminate. reflexivity.
      * rewrite forallb_app. apply andb_true_intro. split; [reflexivity|].
        apply digits_simple, str_Z_digits. lia.
    + do 2 eexists. split; [reflexivity|discriminate].
Qed.

Definition nonzero_ints (l : list item) : Prop :=
  forall s, In (Str s) l -> is_word s = true -> exists z, py_int s = Some z /\ z <> 0%Z.

Lemma fluka_signs_word w ts : fluka_signs (TAtom (fluka_word w) :: ts) = TAtom (fluka_word w) :: fluka_signs ts \/ py_int w = None.
Proof.
  unfold fluka_word. destruct (py_int w); [left|auto].
  cbn [fluka_signs]. destruct ts as [|[] ts]; try reflexivity.
  destruct (z <? 0)%Z.
  - destruct (text_eqb_spec (T "+S" ++ str_Z (Z.abs z)) (T "+")); [discriminate|].
    destruct (text_eqb_spec (T "+S" ++ str_Z (Z.abs z)) (T "-")); [discriminate|reflexivity].
  - destruct (text_eqb_spec (T "-S" ++ str_Z z) (T "+")); [discriminate|].
    destruct (text_eqb_spec (T "-S" ++ str_Z z) (T "-")); [discriminate|reflexivity].
Qed.

(** After a complement the well-formed description has an opening parenthesis. *)
Lemma run_not_open ts : forall f stk r, run ts f stk = Some r ->
  forall a b, ts = a ++ TNot :: b -> exists b', b = TOpen :: b'.
Proof.
  induction ts as [|t ts IH]; intros f stk r H a b E; [destruct a; discriminate|].
  destruct a as [|x a]; cbn [app] in E; injection E as -> E.
  - subst ts. cbn [run] in H. destruct b as [|[] b]; try discriminate. eauto.
  - assert (exists f' stk', run ts f' stk' = Some r) as (f' & stk' & H').
    { cbn [run] in H. destruct x.
      - destruct (finish f); [eauto|discriminate].
      - destruct ts as [|[] ts']; try discriminate. destruct (f_neg f); [discriminate|]. eauto.
      - eauto.
      - destruct (finish f); [|discriminate]. destruct stk; [discriminate|]. eauto.
      - destruct (f_neg f); [discriminate|]. eauto. }
    eapply IH; eauto.
Qed.

Definition nots_open (l : list item) : Prop :=
  forall a b, toks l = a ++ TNot :: b -> exists b', b = TOpen :: b'.

Lemma nots_open_cons i l : nots_open (i :: l) -> nots_open l.
Proof.
  intros H a b E. apply (H (item_toks i ++ a) b). rewrite toks_cons, E, app_assoc. reflexivity.
Qed.

Lemma fluka_op_blank i t : fluka_op i = Some t -> (forall s, i = Str s -> is_word s = true -> exists z, py_int s = Some z /\ z <> 0%Z) ->
  exists t', t = blank :: t'.
Proof.
  intros H N. destruct i as [[]|s]; [injection H as <-; eexists; reflexivity..|].
  destruct (is_word s) eqn:W.
  - destruct (N s eq_refl W) as (z & E & Nz). destruct (flex_word s z [] E Nz) as (t0 & Et & _ & _ & c & t' & -> & _).
    rewrite H in Et. injection Et as ->. eexists; reflexivity.
  - unfold is_word in W. unfold fluka_op in H. destruct (text_eqb s (T "(")); [injection H as <-; eexists; reflexivity|].
    destruct (text_eqb s (T ")")); [injection H as <-; eexists; reflexivity|discriminate].
Qed.

Lemma fluka_render l : tight l = true -> nots_open l -> nonzero_ints l ->
  exists t, fluka_ops l = Some t /\ (forall X, fluka_signs (flex (t ++ blank :: X) []) = map (map_tok fluka_word) (toks l) ++ fluka_signs (flex X [])) /\
    (t = [] \/ exists t', t = blank :: t').
Proof.
  induction l as [|i l IH]; intros Ti No Nz.
  { exists []. split; [reflexivity|]. split; [reflexivity|now left]. }
  assert (Nz' : nonzero_ints l) by (intros s I; apply Nz; now right).
  assert (Ti' : tight l = true).
  { cbn [tight] in Ti. destruct i as [[]|s]; try exact Ti. destruct l as [|[[]|s'] l]; try discriminate; [exact Ti|].
    apply andb_prop in Ti. apply Ti. }
  destruct (IH Ti' (nots_open_cons _ _ No) Nz') as (t & Et & Hl & Hb).
  assert (St : forall X, exists Y, t ++ blank :: X = blank :: Y).
  { intro X. destruct Hb as [->|[t' ->]]; eexists; reflexivity. }
  cbn [fluka_ops]. rewrite Et.
  destruct (nonword i) eqn:N.
  - nonword_tac N.
    + exists (T "  " ++ t). split; [reflexivity|]. split; [|right; eexists; reflexivity].
      intro X. rewrite <- app_assoc. cbn [T list_ascii_of_string app]. rewrite !flex_blank. exact (Hl X).
    + exists (T " | " ++ t). split; [reflexivity|]. split; [|right; eexists; reflexivity].
      intro X. rewrite toks_cons. cbn [item_toks app map map_tok]. rewrite <- Hl. reflexivity.
    + (* NOT *)
      destruct (No [] (toks l) eq_refl) as (b' & Eb).
      destruct l as [|j l]; [discriminate|].
      assert (j = Str (T "(")) as ->.
      { rewrite toks_cons in Eb. destruct j as [[]|s].
        - cbn [tight] in Ti'. destruct l as [|[[]|s'] l]; try discriminate.
          apply andb_prop in Ti' as [W _]. rewrite toks_cons in Eb. cbn [item_toks app] in Eb.
          rewrite str_tok_word in Eb by assumption. discriminate.
        - discriminate.
        - discriminate.
        - cbn [item_toks app] in Eb. unfold str_tok in Eb.
          destruct (text_eqb_spec s (T "(")) as [F|]; [now rewrite F|].
          destruct (text_eqb s (T ")")); discriminate. }
      exists (T " -" ++ t). split; [reflexivity|]. split; [|right; eexists; reflexivity].
      cbn [fluka_ops] in Et. change (fluka_op (Str (T "("))) with (Some (T " +( ")) in Et.
      destruct (fluka_ops l) as [tl|]; [|discriminate]. injection Et as <-.
      intro X. specialize (Hl X). rewrite !toks_cons in *.
      assert (Hl' : TOpen :: fluka_signs (flex (tl ++ blank :: X) []) =
        TOpen :: map (map_tok fluka_word) (toks l) ++ fluka_signs (flex X [])).
      { exact Hl. }
      change (TNot :: TOpen :: fluka_signs (flex (tl ++ blank :: X) []) =
        TNot :: TOpen :: map (map_tok fluka_word) (toks l) ++ fluka_signs (flex X [])).
      now rewrite Hl'.
    + exists (T " +( " ++ t). split; [reflexivity|]. split; [|right; eexists; reflexivity].
      intro X. rewrite toks_cons. cbn [item_toks]. change (str_tok (T "(")) with TOpen. cbn [app map map_tok]. rewrite <- Hl. reflexivity.
    + exists (T " ) " ++ t). split; [reflexivity|]. split; [|right; eexists; reflexivity].
      intro X. rewrite toks_cons. cbn [item_toks]. change (str_tok (T ")")) with TClose. cbn [app map map_tok]. rewrite <- Hl. reflexivity.
  - destruct i as [o|s]; [discriminate|]. cbn [nonword] in N. apply negb_false_iff in N.
    destruct (Nz s (or_introl eq_refl) N) as (z & E & Hz).
    destruct (flex_word s z [] E Hz) as (t0 & Et0 & _ & _ & c0 & t0' & Hc & _).
    rewrite Et0. exists (t0 ++ t). split; [reflexivity|]. split.
    + intro X. rewrite <- app_assoc, toks_cons. cbn [item_toks]. rewrite str_tok_word by assumption. cbn [app map map_tok].
      destruct (St X) as (Y & EY). specialize (Hl X). rewrite EY in Hl |- *.
      destruct (flex_word s z Y E Hz) as (t1 & Et1 & _ & F & _). rewrite Et0 in Et1. injection Et1 as <-.
      rewrite F. change (flex (blank :: Y) []) with (flex Y []) in Hl.
      destruct (fluka_signs_word s (flex Y [])) as [G|G]; [|congruence]. rewrite G, Hl. reflexivity.
    + right. subst t0. eexists; reflexivity.
Qed.

Lemma fluka_out c r : tight (w_items c) = true -> nonzero_ints (w_items c) -> expr (toks (w_items c)) r ->
  forallb simple_char (w_id c) = true ->
  exists out, write_fluka_cell c = Some out /\
    fluka_lex out = TAtom (T "C" ++ w_id c) :: TAtom (T "5") :: TOpen :: map (map_tok fluka_word) (toks (w_items c)) ++ [TClose].
Proof.
  intros Ti Nz E Hid.
  assert (No : nots_open (w_items c)).
  { intros a b. apply parse_complete in E. eapply run_not_open. exact E. }
  destruct (fluka_render _ Ti No Nz) as (t & Et & Hl & Hb).
  unfold write_fluka_cell. rewrite Et. eexists. split; [reflexivity|].
  unfold fluka_lex. rewrite (flex_ok _ _ _ (le_n _)).
  change (T " C" ++ ?x) with (blank :: T "C" ++ x). rewrite flex_blank. cbn [flush app].
  rewrite (app_assoc (T "C") (w_id c)), flex_simple.
  2:{ rewrite forallb_app. now rewrite Hid. }
  change (T " 5 " ++ T "( " ++ ?x) with (blank :: "5"%char :: blank :: "("%char :: blank :: x).
  rewrite flex_blank, app_nil_r, flush_rev by discriminate.
  change (flex ("5"%char :: blank :: "("%char :: blank :: ?x) []) with (TAtom (T "5") :: TOpen :: flex x []).
  cbn [app]. change (T " ) " ++ [newline]) with (blank :: T ") " ++ [newline]). specialize (Hl (T ") " ++ [newline])).
  change (fluka_signs (flex (T ") " ++ [newline]) [])) with [TClose] in Hl.
  remember (flex (t ++ blank :: T ") " ++ [newline]) []) as Z.
  cbn [fluka_signs]. change (text_eqb (T "5") (T "+")) with false. change (text_eqb (T "5") (T "-")) with false.
  cbv iota. now rewrite Hl.
Qed.

(** Truth of the FLUKA atoms. *)
Lemma fluka_word_env inside sense w z : py_int w = Some z -> z <> 0%Z ->
  (forall n, (0 < n)%Z -> inside (T "S" ++ str_Z n) = negb (sense n)) ->
  fluka_env inside (fluka_word w) = zenv sense w.
Proof.
  intros E N H. unfold fluka_word, zenv. rewrite E. destruct (Z.ltb_spec z 0).
  - change (fluka_env inside (T "+S" ++ str_Z (Z.abs z))) with (inside (T "S" ++ str_Z (Z.abs z))).
    rewrite H by lia. f_equal. f_equal. lia.
  - change (fluka_env inside (T "-S" ++ str_Z z)) with (negb (inside (T "S" ++ str_Z z))).
    rewrite H by lia. apply negb_involutive.
Qed.
