(** From the text of a cell card to its tokens. *)
From Coq Require Import QArith ZifyBool.
From Verif Require Import PyStr PyStrFacts FortranNumber FortranNumberProofs PyInt PyIntFacts
  RegionSpec RegionFacts CellModel CellProofs.
Open Scope nat_scope.
Open Scope list_scope.

(** Specification of the cards considered: every hash stands at the beginning, after
    white space, a parenthesis or a colon, and is followed by a digit, white space,
    a parenthesis, a colon or the end.  [fresh]: no word has been started. *)
Definition next_ok (s : text) : bool :=
  match s with
  | [] => true
  | d :: _ => is_digit d || is_space d || Ascii.eqb d "(" || Ascii.eqb d ")" || Ascii.eqb d ":"
  end.

Fixpoint hash_ok (fresh : bool) (s : text) : bool :=
  match s with
  | [] => true
  | c :: r =>
      if is_space c then hash_ok true r
      else if Ascii.eqb c "+" then hash_ok fresh r
      else if Ascii.eqb c "#" then fresh && next_ok r && hash_ok false r
      else if is_delim c then hash_ok true r
      else hash_ok false r
  end.

Definition sp1 (c : ascii) : text :=
  if Ascii.eqb c "(" then T " ( " else if Ascii.eqb c ")" then T " ) "
  else if Ascii.eqb c ":" then T " : " else if Ascii.eqb c "+" then [] else [c].

Lemma spacify_app a b : spacify (a ++ b) = spacify a ++ spacify b.
Proof. unfold spacify. now rewrite !replace_char_app. Qed.

Lemma spacify_flat s : spacify s = flat_map sp1 s.
Proof.
  induction s as [|c s IH]; [reflexivity|].
  change (c :: s) with ([c] ++ s). rewrite spacify_app, IH. cbn [flat_map app]. f_equal.
  unfold sp1. destruct (Ascii.eqb_spec c "("); [subst; reflexivity|].
  destruct (Ascii.eqb_spec c ")"); [subst; reflexivity|].
  destruct (Ascii.eqb_spec c ":"); [subst; reflexivity|].
  destruct (Ascii.eqb_spec c "+"); [subst; reflexivity|].
  unfold spacify.
  assert (K : forall x t, c <> x -> replace_char x t [c] = [c]).
  { intros x t H. unfold replace_char. cbn. destruct (Ascii.eqb_spec x c); [congruence|reflexivity]. }
  rewrite !K by assumption. reflexivity.
Qed.

Definition nonspace (w : text) : Prop := forallb (fun c => negb (is_space c)) w = true.

Lemma nonspace_rev w : nonspace w -> nonspace (rev w).
Proof.
  unfold nonspace. rewrite !forallb_forall. intros H x I. apply H. now apply in_rev.
Qed.

(** The word being read: what it will become as a token. *)
Definition cur_ok (cur s : text) : Prop :=
  nonspace cur /\
  (cur <> [] -> word_tok (rev cur) = TAtom (rev cur) \/
     (cur = T "#" /\ match s with d :: _ => is_digit d = true | [] => False end)).

Lemma words_rev_cur cur : nonspace cur -> cur <> [] -> words (rev cur) = [rev cur].
Proof.
  intros N E. apply words_single.
  - intro F. apply E. rewrite <- (rev_involutive cur), F. reflexivity.
  - now apply nonspace_rev.
Qed.

Lemma flush_words cur s : cur_ok cur s ->
  (forall d, s = d :: skipn 1 s -> is_digit d = false) ->
  map word_tok (words (rev cur)) = flush cur.
Proof.
  intros [N K] D. destruct cur as [|c cur]; [reflexivity|].
  rewrite words_rev_cur by (assumption || discriminate). cbn [map].
  destruct K as [K|[K F]]; [discriminate| |].
  - rewrite K. reflexivity.
  - destruct s as [|d s]; [contradiction|]. rewrite (D d eq_refl) in F. discriminate.
Qed.

Lemma space_not_digit c : is_space c = true -> is_digit c = false.
Proof. unfold is_space, is_digit. lia. Qed.

Lemma rev_app_single (cur : text) c s : rev cur ++ c :: s = rev (c :: cur) ++ s.
Proof. cbn [rev]. rewrite <- app_assoc. reflexivity. Qed.

Lemma word_tok_single_inv w : word_tok w <> TAtom w -> exists c, w = [c] /\ is_delim c = true.
Proof.
  unfold word_tok, str_tok.
  destruct (text_eqb_spec w (T ":")); [intros _; exists ":"%char; auto|].
  destruct (text_eqb_spec w (T "#")); [intros _; exists "#"%char; auto|].
  destruct (text_eqb_spec w (T "(")); [intros _; exists "("%char; auto|].
  destruct (text_eqb_spec w (T ")")); [intros _; exists ")"%char; auto|].
  congruence.
Qed.

Lemma rtok_atom_dec w : {word_tok w = TAtom w} + {word_tok w <> TAtom w}.
Proof.
  unfold word_tok, str_tok.
  destruct (text_eqb w (T ":")); [right; discriminate|].
  destruct (text_eqb w (T "#")); [right; discriminate|].
  destruct (text_eqb w (T "(")); [right; discriminate|].
  destruct (text_eqb w (T ")")); [right; discriminate|]. now left.
Qed.

Definition fresh_of (cur : text) : bool := match cur with [] => true | _ => false end.

Lemma words_single_char c s : is_space c = false -> words (c :: blank :: s) = [c] :: words s.
Proof.
  intro H. change (c :: blank :: s) with ([c] ++ blank :: s).
  apply words_word_space; [discriminate| |reflexivity]. cbn. now rewrite H.
Qed.

Lemma lex_words s : forall cur,
  cur_ok cur s -> hash_ok (fresh_of cur) s = true ->
  map word_tok (words (rev cur ++ flat_map sp1 s)) = lex s cur.
Proof.
  induction s as [|c r IH]; intros cur C H.
  - cbn [flat_map lex]. rewrite app_nil_r. apply (flush_words cur []); [assumption|discriminate].
  - cbn [lex hash_ok flat_map] in *.
    destruct (is_space c) eqn:Sp.
    { assert (E : sp1 c = [c]).
      { unfold sp1. destruct (Ascii.eqb_spec c "("); [subst; discriminate|].
        destruct (Ascii.eqb_spec c ")"); [subst; discriminate|].
        destruct (Ascii.eqb_spec c ":"); [subst; discriminate|].
        destruct (Ascii.eqb_spec c "+"); [subst; discriminate|]. reflexivity. }
      rewrite E. cbn [app]. rewrite words_app_space by assumption. rewrite map_app. f_equal.
      - apply (flush_words cur (c :: r)); [assumption|].
        intros d F. injection F as <-. now apply space_not_digit.
      - apply (IH []); [split; [reflexivity|congruence]|exact H]. }
    destruct (Ascii.eqb_spec c "+") as [->|Nplus].
    { cbn [sp1]. change (sp1 "+") with (@nil ascii). cbn [app]. apply IH; [|exact H].
      destruct C as [C1 C2]. split; [assumption|]. intro Ne. destruct (C2 Ne) as [K|[K F]]; [now left|].
      exfalso. discriminate. }
    assert (Hdelim : forall d, is_delim c = true -> c <> "#"%char -> c = d -> is_digit d = false).
    { intros d F1 F2 <-. unfold is_delim in F1. unfold is_digit.
      destruct (Ascii.eqb_spec c "("); [subst; reflexivity|].
      destruct (Ascii.eqb_spec c ")"); [subst; reflexivity|].
      destruct (Ascii.eqb_spec c ":"); [subst; reflexivity|].
      destruct (Ascii.eqb_spec c "#"); [contradiction|discriminate]. }
    destruct (Ascii.eqb_spec c "#") as [->|Nhash].
    { apply andb_prop in H as [H H3]. apply andb_prop in H as [H1 H2].
      destruct cur as [|x cur]; [|discriminate]. cbn [rev app flush].
      change (sp1 "#") with (T "#"). cbn [app T list_ascii_of_string].
      destruct r as [|d r']; [reflexivity|].
      destruct (is_digit d) eqn:Dd.
      - apply (IH (T "#")); [|exact H3]. split; [reflexivity|]. intros _. right. auto.
      - assert (F : exists t, flat_map sp1 (d :: r') = t ++ skipn (length t) (flat_map sp1 (d :: r')) /\
                  exists e, t = [e] /\ is_space e = true).
        { cbn [next_ok] in H2. rewrite Dd in H2. cbn [orb] in H2.
          destruct (is_space d) eqn:Sd.
          - exists [d]. split; [|now exists d].
            cbn [flat_map]. assert (E : sp1 d = [d]).
            { unfold sp1. destruct (Ascii.eqb_spec d "("); [subst; discriminate|].
              destruct (Ascii.eqb_spec d ")"); [subst; discriminate|].
              destruct (Ascii.eqb_spec d ":"); [subst; discriminate|].
              destruct (Ascii.eqb_spec d "+"); [subst; discriminate|]. reflexivity. }
            now rewrite E.
          - exists [blank]. split; [|now exists blank]. cbn [flat_map]. unfold sp1.
            destruct (Ascii.eqb_spec d "("); [reflexivity|].
            destruct (Ascii.eqb_spec d ")"); [reflexivity|].
            destruct (Ascii.eqb_spec d ":"); [reflexivity|]. cbn in H2. discriminate. }
        destruct F as (t & F & e & -> & Se). cbn [app length] in F.
        remember (flat_map sp1 (d :: r')) as Y. rewrite F.
        change ("#"%char :: e :: skipn 1 Y) with (T "#" ++ e :: skipn 1 Y).
        rewrite words_word_space by (discriminate || reflexivity || assumption).
        cbn [map]. f_equal.
        rewrite <- (words_cons_space e (skipn 1 Y)) by assumption. rewrite <- F.
        apply (IH []); [split; [reflexivity|congruence]|].
        clear - H3 H2 Dd. cbn [hash_ok fresh_of next_ok] in *. rewrite Dd in H2. cbn [orb] in H2.
        destruct (is_space d); [assumption|]. cbn [orb] in H2.
        destruct (Ascii.eqb_spec d "+"); [subst; discriminate|].
        destruct (Ascii.eqb_spec d "#"); [subst; discriminate|].
        assert (D : is_delim d = true).
        { unfold is_delim. destruct (Ascii.eqb d "("); [reflexivity|]. destruct (Ascii.eqb d ")"); [reflexivity|].
          cbn in *. now rewrite H2. }
        rewrite D in *. assumption. }
    destruct (is_delim c) eqn:Dc.
    { assert (E : sp1 c = [blank; c; blank]).
      { unfold sp1. unfold is_delim in Dc.
        destruct (Ascii.eqb_spec c "("); [subst; reflexivity|].
        destruct (Ascii.eqb_spec c ")"); [subst; reflexivity|].
        destruct (Ascii.eqb_spec c ":"); [subst; reflexivity|].
        destruct (Ascii.eqb_spec c "#"); [contradiction|discriminate]. }
      rewrite E. cbn [app]. rewrite words_app_space by reflexivity. rewrite map_app.
      rewrite words_single_char by assumption. cbn [map]. f_equal; [|f_equal].
      - apply (flush_words cur (c :: r)); [assumption|].
        intros d F. injection F as <-. now apply Hdelim.
      - unfold is_delim in Dc. unfold delim_tok.
        destruct (Ascii.eqb_spec c "("); [subst; reflexivity|].
        destruct (Ascii.eqb_spec c ")"); [subst; reflexivity|].
        destruct (Ascii.eqb_spec c ":"); [subst; reflexivity|].
        destruct (Ascii.eqb_spec c "#"); [contradiction|discriminate].
      - apply (IH []); [split; [reflexivity|congruence]|exact H]. }
    assert (E : sp1 c = [c]).
    { unfold sp1. unfold is_delim in Dc.
      destruct (Ascii.eqb c "("); [discriminate|].
      destruct (Ascii.eqb c ")"); [discriminate|].
      destruct (Ascii.eqb c ":"); [discriminate|].
      destruct (Ascii.eqb_spec c "+"); [contradiction|reflexivity]. }
    rewrite E. cbn [app]. rewrite rev_app_single. apply IH; [|exact H].
    destruct C as [C1 C2]. split.
    + unfold nonspace. cbn [forallb]. rewrite Sp. exact C1.
    + intros _. left. destruct (rtok_atom_dec (rev (c :: cur))) as [|K]; [assumption|exfalso].
      apply word_tok_single_inv in K as (x & K & Kd). cbn [rev] in K.
      destruct (rev cur) as [|y ry]; [|destruct ry; discriminate].
      cbn in K. injection K as <-. congruence.
Qed.

Lemma spacify_lex s : hash_ok true s = true -> map word_tok (words (spacify s)) = mcnp_lex s.
Proof.
  intro H. rewrite spacify_flat. apply (lex_words s []); [|assumption].
  split; [reflexivity|congruence].
Qed.

(** * Dollar signs *)
Lemma find_neg c s : ~ In c s -> find c s = (-1)%Z.
Proof.
  induction s as [|d s IH]; intro H; [reflexivity|]. cbn [find].
  destruct (Ascii.eqb_spec c d); [exfalso; apply H; now left|].
  rewrite IH; [reflexivity|]. intro; apply H; now right.
Qed.

Lemma drop_dollars_none f s : ~ In "$"%char s -> drop_dollars (S f) s = Some s.
Proof. intro H. cbn [drop_dollars]. rewrite find_neg by assumption. reflexivity. Qed.

Lemma in_spacify c s : In c (spacify s) -> In c s \/ c = blank \/ is_delim c = true.
Proof.
  rewrite spacify_flat. intro I. apply in_flat_map in I as (d & Id & I). unfold sp1 in I.
  destruct (Ascii.eqb_spec d "("); [cbn in I; intuition (subst; auto)|].
  destruct (Ascii.eqb_spec d ")"); [cbn in I; intuition (subst; auto)|].
  destruct (Ascii.eqb_spec d ":"); [cbn in I; intuition (subst; auto)|].
  destruct (Ascii.eqb d "+"); [destruct I|]. cbn in I. destruct I as [<-|[]]. auto.
Qed.

(** * The whole card *)

(** A plain word: not empty, no white space, none of the special characters. *)
Definition plain_char (c : ascii) : bool :=
  negb (is_space c || is_delim c || Ascii.eqb c "+" || Ascii.eqb c "$").
Definition plain (w : text) : Prop := w <> [] /\ forallb plain_char w = true.

Lemma plain_spacify w : forallb plain_char w = true -> spacify w = w.
Proof.
  rewrite spacify_flat. induction w as [|c w IH]; [reflexivity|]. cbn [forallb flat_map]. intro H.
  apply andb_prop in H as [H1 H2]. rewrite IH by assumption.
  unfold plain_char, is_delim in H1. unfold sp1.
  destruct (Ascii.eqb c "("); [rewrite !orb_true_r in H1; discriminate|].
  destruct (Ascii.eqb c ")"); [rewrite !orb_true_r in H1; discriminate|].
  destruct (Ascii.eqb c ":"); [rewrite !orb_true_r in H1; discriminate|].
  destruct (Ascii.eqb c "+"); [rewrite !orb_true_r in H1; discriminate|]. reflexivity.
Qed.

Lemma plain_nonspace w : forallb plain_char w = true -> nonspace w.
Proof.
  unfold nonspace. rewrite !forallb_forall. intros H x I. specialize (H x I).
  unfold plain_char in H. destruct (is_space x); [discriminate|reflexivity].
Qed.

Lemma plain_nodollar w : forallb plain_char w = true -> ~ In "$"%char w.
Proof. rewrite forallb_forall. intros H I. specialize (H _ I). discriminate. Qed.

Lemma words_plain w s : plain w -> words (spacify (w ++ blank :: s)) = w :: words (spacify s).
Proof.
  intros [N P]. change (w ++ blank :: s) with (w ++ T " " ++ s).
  rewrite !spacify_app, (plain_spacify w) by assumption.
  change (spacify (T " ")) with (T " "). cbn [T list_ascii_of_string app].
  apply words_word_space; [assumption|now apply plain_nonspace|reflexivity].
Qed.

Lemma in_nodollar_join w s : ~ In "$"%char w -> ~ In "$"%char s -> ~ In "$"%char (w ++ blank :: s).
Proof. intros H1 H2 I. apply in_app_iff in I as [I|[I|I]]; [auto|discriminate|auto]. Qed.

Lemma interpret_material wid wm wd geom id m d r f :
  plain wid -> plain wm -> plain wd -> ~ In "$"%char geom -> hash_ok true geom = true ->
  py_int wid = Some id -> py_int wm = Some m -> (0 < m)%Z ->
  get_fortran_formatted_number wd = Some d ->
  expr (mcnp_lex geom) r ->
  exists c, interpret (S f) (wid ++ blank :: wm ++ blank :: wd ++ blank :: geom) = Some c /\
    c_id c = id /\ c_mat c = m /\ c_dens c = d /\ toks (c_items c) = mcnp_lex geom /\
    spaced false (c_items c) = true /\ tight (c_items c) = true.
Proof.
  intros P0 P1 P2 ND HO I0 I1 M D E. unfold interpret.
  rewrite drop_dollars_none.
  2:{ intro I. apply in_spacify in I as [I|[I|I]]; try discriminate.
      revert I. apply in_nodollar_join; [apply plain_nodollar, P0|].
      apply in_nodollar_join; [apply plain_nodollar, P1|].
      apply in_nodollar_join; [apply plain_nodollar, P2|assumption]. }
  rewrite !words_plain by assumption. cbn [cell_of_words]. rewrite I0, I1.
  destruct (Z.ltb_spec 0 m); [|lia]. rewrite D.
  rewrite <- spacify_lex in E by assumption.
  destruct (generalise_toks _ _ E) as (o & z & G & Ht). rewrite G.
  eexists. split; [reflexivity|]. cbn [c_id c_mat c_dens c_items]. rewrite Ht, spacify_lex by assumption. repeat split.
  - eapply generalise_spaced; eassumption.
  - eapply generalise_tight; eassumption.
Qed.

Lemma interpret_void wid wm geom id m r f :
  plain wid -> plain wm -> ~ In "$"%char geom -> hash_ok true geom = true ->
  py_int wid = Some id -> py_int wm = Some m -> (m <= 0)%Z ->
  expr (mcnp_lex geom) r ->
  exists c, interpret (S f) (wid ++ blank :: wm ++ blank :: geom) = Some c /\
    c_id c = id /\ c_mat c = 0%Z /\ toks (c_items c) = mcnp_lex geom /\
    spaced false (c_items c) = true /\ tight (c_items c) = true.
Proof.
  intros P0 P1 ND HO I0 I1 M E. unfold interpret.
  rewrite drop_dollars_none.
  2:{ intro I. apply in_spacify in I as [I|[I|I]]; try discriminate.
      revert I. apply in_nodollar_join; [apply plain_nodollar, P0|].
      apply in_nodollar_join; [apply plain_nodollar, P1|assumption]. }
  rewrite !words_plain by assumption. cbn [cell_of_words]. rewrite I0, I1.
  destruct (Z.ltb_spec 0 m); [lia|].
  rewrite <- spacify_lex in E by assumption.
  destruct (generalise_toks _ _ E) as (o & z & G & Ht). rewrite G.
  eexists. split; [reflexivity|]. cbn [c_id c_mat c_dens c_items]. rewrite Ht, spacify_lex by assumption. repeat split.
  - eapply generalise_spaced; eassumption.
  - eapply generalise_tight; eassumption.
Qed.

(** * cell_surface_list *)

(** Which words are recorded: integers that do not follow an opening parenthesis. *)
Fixpoint recorded (after_open : bool) (l : list text) : list Z :=
  match l with
  | [] => []
  | s :: r =>
      if text_eqb s (T "(") then recorded true r
      else if after_open then recorded false r
      else surf_of s ++ recorded false r
  end.

Lemma surf_of_none s : (text_eqb s (T ":") = true \/ text_eqb s (T "#") = true \/ text_eqb s (T ")") = true) -> surf_of s = [].
Proof. intros [H|[H|H]]; apply text_eqb_eq in H; subst; reflexivity. Qed.

Lemma gen_loop_surfs l : forall prev o z,
  gen_loop prev l = Some (o, z) -> z = recorded (item_is (T "(") prev) l.
Proof.
  induction l as [|s l IH]; intros prev o z H; [discriminate|]. cbn [gen_loop recorded] in *.
  destruct (text_eqb s (T ":")) eqn:E1.
  { destruct (gen_loop (Op UNION) l) as [[o' z']|] eqn:G; [|discriminate]. injection H as <- <-.
    apply IH in G. cbn [item_is] in G. rewrite (surf_of_none s) by auto. apply text_eqb_eq in E1. subst s.
    change (text_eqb (T ":") (T "(")) with false. cbn [app]. destruct (item_is (T "(") prev); exact G. }
  destruct (text_eqb s (T "#")) eqn:E2.
  { destruct (gen_loop (Op NOT) l) as [[o' z']|] eqn:G; [|discriminate]. injection H as <- <-.
    apply IH in G. cbn [item_is] in G. rewrite (surf_of_none s) by auto. apply text_eqb_eq in E2. subst s.
    change (text_eqb (T "#") (T "(")) with false. cbn [app]. destruct (item_is (T "(") prev); exact G. }
  destruct (text_eqb s (T "(")) eqn:E3.
  { destruct (gen_loop (Str s) l) as [[o' z']|] eqn:G; [|discriminate]. injection H as <- <-.
    apply IH in G. cbn [item_is] in G. rewrite E3 in G. exact G. }
  assert (Q : snd (if negb (item_is (T "(") prev) && negb (text_eqb s (T ")")) then ([Op AND; Str s], surf_of s) else ([Str s], []))
            = if item_is (T "(") prev then [] else surf_of s).
  { destruct (item_is (T "(") prev); [reflexivity|]. cbn [negb andb].
    destruct (text_eqb s (T ")")) eqn:E4; [cbn; now rewrite surf_of_none by auto|reflexivity]. }
  destruct (if negb (item_is (T "(") prev) && negb (text_eqb s (T ")")) then _ else _) as [fr z0].
  cbn [snd] in Q. subst z0. remember (item_is (T "(") prev) as b0 eqn:Eb. clear Eb.
  destruct l as [|s' l'].
  { injection H as <- <-. cbn [recorded]. rewrite app_nil_r. destruct b0; reflexivity. }
  destruct (gen_loop (Str s) (s' :: l')) as [[o' z']|] eqn:G; [|discriminate]. injection H as <- <-.
  apply IH in G. cbn [item_is] in G. rewrite E3 in G. subst z'.
  destruct b0; reflexivity.
Qed.

Lemma recorded_in l a p s b n :
  l = a ++ p :: s :: b -> p <> T "(" -> py_int s = Some n ->
  forall ao, In (Z.abs n) (recorded ao l).
Proof.
  intros -> Np Hn.
  assert (Ns : text_eqb s (T "(") = false).
  { destruct (text_eqb_spec s (T "(")); [subst; discriminate|reflexivity]. }
  induction a as [|x a IH]; intro ao.
  - cbn [app recorded]. destruct (text_eqb_spec p (T "(")); [contradiction|].
    assert (G : In (Z.abs n) (recorded false (s :: b))).
    { cbn [recorded]. rewrite Ns. apply in_app_iff. left. unfold surf_of. rewrite Hn. now left. }
    cbn [recorded] in G. destruct ao; [exact G|]. apply in_app_iff. right. exact G.
  - cbn [app recorded]. destruct (text_eqb x (T "(")); [apply IH|]. destruct ao; [apply IH|].
    apply in_app_iff. right. apply IH.
Qed.

Lemma recorded_sound l : forall ao n, In n (recorded ao l) ->
  exists s z, In s l /\ py_int s = Some z /\ Z.abs z = n.
Proof.
  induction l as [|x l IH]; intros ao n I; [destruct I|]. cbn [recorded] in I.
  destruct (text_eqb x (T "(")).
  { destruct (IH _ _ I) as (s & z & ? & ? & ?). exists s, z. split; [now right|auto]. }
  destruct ao.
  { destruct (IH _ _ I) as (s & z & ? & ? & ?). exists s, z. split; [now right|auto]. }
  apply in_app_iff in I as [I|I].
  - unfold surf_of in I. destruct (py_int x) as [z|] eqn:E; [|destruct I]. destruct I as [<-|[]].
    exists x, z. split; [now left|auto].
  - destruct (IH _ _ I) as (s & z & ? & ? & ?). exists s, z. split; [now right|auto].
Qed.
