(** What the line formatter does to a card that ends in a word and a newline: some blanks become a newline and six
    blanks, and every line has something to read. *)
From Verif Require Import PyStr PyStrFacts Formatter FormatterProofs.
Open Scope nat_scope.
Open Scope list_scope.

(** Some blanks of the text have become a line end and six blanks. *)
Inductive loosens : text -> text -> Prop :=
| ls_nil : loosens [] []
| ls_char c s r : loosens s r -> loosens (c :: s) (c :: r)
| ls_break s r : loosens s r -> loosens (blank :: s) (newline :: T "     " ++ blank :: r).

Lemma loosens_refl s : loosens s s.
Proof. induction s; [constructor|now constructor]. Qed.

Lemma loosens_app a b a' b' : loosens a a' -> loosens b b' -> loosens (a ++ b) (a' ++ b').
Proof.
  intros A B. induction A as [|c s r A IH|s r A IH]; [exact B|now constructor|].
  change ((newline :: T "     " ++ blank :: r) ++ b') with (newline :: T "     " ++ blank :: (r ++ b')). now constructor.
Qed.

Lemma loosens_split a b r : loosens (a ++ b) r -> exists a' b', r = a' ++ b' /\ loosens a a' /\ loosens b b'.
Proof.
  revert r. induction a as [|c a IH]; intros r H.
  - exists [], r. repeat split; [constructor|exact H].
  - cbn [app] in H. inversion H as [|? ? r0 H0|? r0 H0]; subst; apply IH in H0 as (a' & b' & -> & A & B).
    + exists (c :: a'), b'. repeat split; [now constructor|exact B].
    + exists (newline :: T "     " ++ blank :: a'), b'. repeat split; [now constructor|exact B].
Qed.

Lemma loosens_tight a r : ~ In blank a -> loosens a r -> r = a.
Proof.
  intros N H. induction H as [|c s r H IH|s r H IH]; [reflexivity| |exfalso; apply N; now left].
  f_equal. apply IH. intro I. apply N. now right.
Qed.

Lemma loosens_forallb (P : ascii -> bool) a r : P blank = true -> P newline = true ->
  loosens a r -> forallb P a = true -> forallb P r = true.
Proof.
  intros B N H. induction H as [|c s r H IH|s r H IH]; [trivial| |]; cbn [forallb T list_ascii_of_string app]; rewrite ?andb_true_iff.
  - intros [P1 P2]. split; auto.
  - intros [P1 P2]. change " "%char with blank. repeat split; auto.
Qed.

Lemma loosens_words a r : loosens a r -> words r = words a.
Proof.
  intro H. assert (K : words r = words a /\ (forall x, words (x :: r) = words (x :: a))).
  { induction H as [|c s r H [IH1 IH2]|s r H [IH1 IH2]]; [now split| |].
    - split; [apply IH2|]. intro x.
      destruct (is_space c) eqn:S.
      + change (x :: c :: r) with ([x] ++ c :: r). change (x :: c :: s) with ([x] ++ c :: s).
        rewrite !words_app_space by exact S. now rewrite IH1.
      + cbn [words]. rewrite S. specialize (IH2 c). cbn [words] in IH2. rewrite S in IH2. now rewrite IH2.
    - assert (W : words (newline :: T "     " ++ blank :: r) = words (blank :: s)).
      { change (newline :: T "     " ++ blank :: r) with ((newline :: T "     ") ++ blank :: r).
        rewrite words_app_space by reflexivity. rewrite (words_cons_space blank) by reflexivity. exact IH1. }
      split; [exact W|]. intro x. change (x :: newline :: T "     " ++ blank :: r) with ([x] ++ newline :: (T "     " ++ blank :: r)).
      change (x :: blank :: s) with ([x] ++ blank :: s). rewrite !words_app_space by reflexivity. f_equal. exact IH1. }
  apply K.
Qed.

Lemma lower_blank : lower_char blank = blank. Proof. reflexivity. Qed.
Lemma loosens_lower a r : loosens a r -> loosens (lower a) (lower r).
Proof.
  intro H. induction H as [|c s r H IH|s r H IH]; [constructor|now constructor|].
  change (lower (newline :: T "     " ++ blank :: r)) with (newline :: T "     " ++ blank :: lower r).
  change (lower (blank :: s)) with (blank :: lower s). now constructor.
Qed.

(** No three blanks in a row. *)
Definition airless (s : text) : Prop := forall a b, s <> a ++ T "   " ++ b.
Lemma airless_skip a b : airless (a ++ b) -> airless b.
Proof. intros H x y E. apply (H (a ++ x) y). now rewrite E, !app_assoc. Qed.

(** A line with something to read. *)
Definition seen (s : text) : Prop := exists c, In c s /\ is_space c = false.
(** The lines of the wrapped text. *)
Definition wrapped_lines (l0 : text) (ls : list text) : Prop :=
  seen l0 /\ ~ In newline l0 /\ Forall (fun l => seen l /\ ~ In newline l /\ exists t, l = T "     " ++ t) ls.
Definition with_ends (L : list text) : text := concat (map (fun l => l ++ [newline]) L).

Definition ends_word (s : text) : Prop := exists t c, s = t ++ [c; newline] /\ is_space c = false.

Lemma seen_app_r a b : seen b -> seen (a ++ b).
Proof. intros (c & I & S). exists c. split; [apply in_app_iff; now right|exact S]. Qed.

Lemma ends_word_skip a c b : is_space c = true -> b <> [] -> ends_word (a ++ c :: b) -> ends_word b.
Proof.
  intros S N (t & d & E & D). destruct (exists_last N) as (b1 & e & ->).
  change (a ++ c :: b1 ++ [e]) with (a ++ (c :: b1) ++ [e]) in E. rewrite app_assoc in E.
  change (t ++ [d; newline]) with (t ++ [d] ++ [newline]) in E. rewrite app_assoc in E.
  apply app_inj_tail in E as [E ->]. destruct (exists_last (l := c :: b1)) as (b2 & x & E2); [discriminate|].
  rewrite E2, app_assoc in E. apply app_inj_tail in E as [_ ->].
  destruct b1 as [|y b1].
  - destruct b2 as [|? [|? ?]]; try discriminate. injection E2 as ->. congruence.
  - destruct b2 as [|z b2]; [discriminate|]. injection E2 as -> E2.
    exists b2, d. split; [|exact D]. rewrite E2. now rewrite <- app_assoc.
Qed.

Lemma ends_word_seen s : ends_word s -> isspace s = false /\ exists q, s = q ++ [newline] /\ seen q.
Proof.
  intros (t & c & -> & S). split.
  - unfold isspace. assert (F : forallb is_space (t ++ [c; newline]) = false).
    { rewrite forallb_app. cbn [forallb]. rewrite S. apply andb_false_r. }
    destruct (t ++ [c; newline]); [reflexivity|exact F].
  - exists (t ++ [c]). split; [now rewrite <- app_assoc|]. exists c. split; [apply in_app_iff; right; now left|exact S].
Qed.

(** A short beginning of a text without many blanks has something to read. *)
Lemma seen_cut a b : a <> [] -> noblank (firstn (71 - length a) b) -> 72 < length (a ++ blank :: b) ->
  airless (a ++ blank :: b) -> runs_at_most 69 (a ++ blank :: b) -> ~ In newline a -> forallb is_space a = true ->
  (forall c, In c a -> is_space c = true -> c = blank) -> False.
Proof.
  intros N NB L AL R NN S OB.
  assert (A : forall x, In x a -> x = blank) by (intros x I; apply OB; [exact I|]; rewrite forallb_forall in S; auto).
  destruct a as [|x [|y a]]; [tauto| |].
  - assert (x = blank) by (apply A; now left). subst x. cbn [length] in *. cbn [app] in *. 
    assert (LL : length (firstn 70 b) = 70) by (rewrite firstn_length; cbn [length] in L; lia).
    specialize (R (T "  ") (firstn 70 b) (skipn 70 b)). rewrite firstn_skipn in R. specialize (R eq_refl NB). lia.
  - assert (x = blank) by (apply A; now left). assert (y = blank) by (apply A; right; now left). subst x y.
    destruct a as [|z a].
    + apply (AL [] b). reflexivity.
    + assert (z = blank) by (apply A; right; right; now left). subst z. apply (AL [] (a ++ blank :: b)). reflexivity.
Qed.

Lemma fmt_shape fuel : forall tmp new r,
  ends_word tmp -> ~ In newline (removelast tmp) -> airless tmp -> runs_at_most 69 tmp ->
  Forall (fun c => is_space c = true -> c = blank \/ c = newline) tmp ->
  fmt_loop fuel tmp new = Some r ->
  exists l0 ls, r = new ++ with_ends (l0 :: ls) /\ loosens tmp (with_ends (l0 :: ls)) /\ wrapped_lines l0 ls /\
    exists t, l0 ++ t = tmp.
Proof.
  induction fuel as [|f IH]; intros tmp new r EW NL AL R OB H; [discriminate|]. cbn [fmt_loop] in H.
  destruct (ends_word_seen tmp EW) as (NS & q & Q & SQ).
  destruct (Nat.leb_spec (length tmp) 72) as [L|L].
  - rewrite NS in H. injection H as <-. exists q, []. unfold with_ends. cbn [map concat]. rewrite app_nil_r.
    split; [now rewrite Q|]. split; [rewrite Q; apply loosens_refl|]. split; [|exists [newline]; now symmetry].
    split; [exact SQ|]. split; [|constructor]. rewrite Q, removelast_last in NL. exact NL.
  - assert (R70 : runs_at_most 70 tmp) by (intros x w y E N; specialize (R x w y E N); lia).
    pose proof (blank_in_front tmp L R70) as I'. destruct (split_at_rfind tmp L I') as (a & b & Et & La & Nb & E1 & E2).
    rewrite E1, E2 in H. assert (AN : a <> []) by (eapply cut_not_at_start; eassumption).
    assert (NA : ~ In newline a). { rewrite Et, removelast_app in NL by discriminate. rewrite in_app_iff in NL. tauto. }
    assert (SA : seen a).
    { destruct (forallb is_space a) eqn:S.
      - exfalso. rewrite Et in L, AL, R. apply (seen_cut a b AN Nb L AL R NA S). intros c I Sc. rewrite Et in OB.
        rewrite Forall_forall in OB. destruct (OB c) as [?| ->]; [apply in_app_iff; now left|exact Sc|assumption|tauto].
      - clear - S. induction a as [|c a IH]; [discriminate|]. cbn [forallb] in S. destruct (is_space c) eqn:SC.
        + destruct (IH S) as (x & I & X). exists x. split; [now right|exact X].
        + exists c. split; [now left|exact SC]. }
    assert (BN : b <> []).
    { rewrite Et in EW. intros ->. destruct EW as (t & c & E & S). change [c; newline] with ([c] ++ [newline]) in E.
      rewrite app_assoc in E. apply app_inj_tail in E as [_ E]. discriminate. }
    assert (EB : ends_word (blank :: b)).
    { rewrite Et in EW. apply ends_word_skip in EW; [|reflexivity|exact BN]. destruct EW as (t & c & -> & S).
      exists (blank :: t), c. split; [reflexivity|exact S]. }
    destruct (ends_word_seen _ EB) as (NS2 & _). rewrite NS2 in H.
    apply IH in H.
    + destruct H as (l0 & ls & -> & LO & (S0 & N0 & F0) & t & TE).
      assert (L0 : exists l0', l0 = blank :: l0').
      { destruct l0 as [|x l0]; [destruct S0 as (? & [] & _)|]. injection TE as -> _. eauto. }
      destruct L0 as (l0' & ->).
      exists a, ((T "     " ++ blank :: l0') :: ls). unfold with_ends. cbn [map concat]. split; [|split; [|split]].
      * unfold with_ends. cbn [map concat]. rewrite <- !app_assoc. reflexivity.
      * rewrite Et. rewrite <- app_assoc. apply loosens_app; [apply loosens_refl|]. cbn [app].
        unfold with_ends in LO. cbn [map concat app] in LO. rewrite <- app_assoc in LO |- *.
        assert (LB : loosens b (l0' ++ [newline] ++ concat (map (fun l => l ++ [newline]) ls))).
        { inversion LO; subst. assumption. }
        change (newline :: T "     " ++ (blank :: l0') ++ ?x) with (newline :: T "     " ++ blank :: (l0' ++ x)). now constructor.
      * split; [exact SA|]. split; [exact NA|]. constructor; [|exact F0]. split; [now apply seen_app_r|]. split; [|eexists; reflexivity].
        rewrite in_app_iff. intros [I|I]; [|tauto]. revert I. vm_compute. intuition discriminate.
      * exists (blank :: b). now symmetry.
    + exact EB.
    + rewrite Et, removelast_app in NL by discriminate. rewrite in_app_iff in NL. tauto.
    + rewrite Et in AL. now apply airless_skip in AL.
    + rewrite Et in R. exact (runs_skip _ _ _ R).
    + rewrite Et in OB. apply Forall_app in OB. tauto.
Qed.

(** A card that ends in a word and a newline, without tabs and long stretches: the formatter returns, and its lines are
    as described. *)
Lemma formatter_shape s :
  ends_word s -> ~ In newline (removelast s) -> airless s -> runs_at_most 69 s ->
  Forall (fun c => is_space c = true -> c = blank \/ c = newline) s ->
  exists l0 ls N, (forall fuel, N <= fuel -> mcnp_line_formatter fuel s = Some (with_ends (l0 :: ls))) /\
    loosens s (with_ends (l0 :: ls)) /\ wrapped_lines l0 ls /\ exists t, l0 ++ t = s.
Proof.
  intros EW NL AL R OB. assert (R70 : runs_at_most 70 s) by (intros x w y E N; specialize (R x w y E N); lia).
  destruct (formatter_words s R70) as (r & (N & F) & _). unfold mcnp_line_formatter in *.
  destruct (Nat.ltb_spec (length s) 72) as [L|L].
  - destruct (ends_word_seen s EW) as (_ & q & Q & SQ). exists q, [], 0. unfold with_ends. cbn [map concat]. rewrite app_nil_r.
    split; [intros; now rewrite Q|]. split; [rewrite Q; apply loosens_refl|]. split; [|exists [newline]; now symmetry].
    split; [exact SQ|]. split; [|constructor]. rewrite Q, removelast_last in NL. exact NL.
  - destruct (fmt_shape N s [] r EW NL AL R OB F) as (l0 & ls & E & LO & W & P). exists l0, ls, N.
    split; [|now split]. intros fuel LF. cbn [app] in E. rewrite <- E. eapply fmt_loop_mono; eassumption.
Qed.
