From Verif Require Import PyStr.

Lemma words_cons_space c s : is_space c = true -> words (c :: s) = words s.
Proof. intro H. simpl. now rewrite H. Qed.

Lemma words_nil_inv s : words s = [] <-> forallb is_space s = true.
Proof.
  induction s as [|c s IH]; simpl; [tauto|].
  destruct (is_space c) eqn:E; simpl; [exact IH|].
  split; [|discriminate].
  destruct s as [|d s']; [discriminate|].
  destruct (is_space d); [discriminate|]. destruct (words (d :: s')); discriminate.
Qed.

Lemma words_app_space a c b :
  is_space c = true -> words (a ++ c :: b) = words a ++ words b.
Proof.
  intro Hc. induction a as [|x a IH].
  - simpl. now rewrite Hc.
  - cbn [app]. destruct (is_space x) eqn:Ex.
    + rewrite !words_cons_space by assumption. exact IH.
    + destruct a as [|y a'].
      * simpl. rewrite Ex, Hc. reflexivity.
      * cbn [app] in *. cbn [words] in *.
        rewrite Ex. destruct (is_space y) eqn:Ey.
        -- rewrite IH. reflexivity.
        -- rewrite IH.
           match goal with |- context [match ?m ++ _ with _ => _ end] => destruct m eqn:Em end.
           ++ exfalso. destruct a'; [discriminate|]. destruct (is_space a); [discriminate|].
              destruct (words (a :: a')); discriminate.
           ++ reflexivity.
Qed.

Lemma words_app_space_l a b : forallb is_space a = true -> words (a ++ b) = words b.
Proof.
  induction a as [|c a IH]; simpl; intro H; [reflexivity|].
  apply andb_prop in H as [H1 H2]. rewrite H1. auto.
Qed.

Lemma words_app_space_r a b : forallb is_space b = true -> words (a ++ b) = words a.
Proof.
  destruct b as [|c b]; intro H; [now rewrite app_nil_r|].
  simpl in H. apply andb_prop in H as [H1 H2].
  rewrite words_app_space by assumption. apply words_nil_inv in H2. rewrite H2. apply app_nil_r.
Qed.

(** A non-empty run without white space is a single word. *)
Lemma words_single w : w <> [] -> forallb (fun c => negb (is_space c)) w = true -> words w = [w].
Proof.
  induction w as [|c w IH]; [congruence|]. intros _ H.
  cbn [forallb] in H. apply andb_prop in H as [H1 H2]. apply negb_true_iff in H1.
  destruct w as [|d w].
  - simpl. now rewrite H1.
  - cbn [words]. rewrite H1. pose proof H2 as H3. cbn [forallb] in H3. apply andb_prop in H3 as [H3 _].
    apply negb_true_iff in H3. rewrite H3. cbn [words] in IH. rewrite H3 in IH. rewrite IH; [reflexivity|discriminate|exact H2].
Qed.

Lemma words_word_space w c s :
  w <> [] -> forallb (fun c => negb (is_space c)) w = true -> is_space c = true ->
  words (w ++ c :: s) = w :: words s.
Proof. intros. rewrite words_app_space by assumption. now rewrite words_single. Qed.

Lemma words_nonempty_nospace s w : In w (words s) ->
  w <> [] /\ forallb (fun c => negb (is_space c)) w = true.
Proof.
  revert w. induction s as [|c s IH]; [intros ? []|]. intros w.
  cbn [words]. destruct (is_space c) eqn:E; [apply IH|].
  destruct s as [|d s'].
  - intros [<-|[]]. split; [discriminate|]. simpl. now rewrite E.
  - destruct (is_space d) eqn:Ed.
    + intros [<-|H]; [|now apply IH]. split; [discriminate|]. simpl. now rewrite E.
    + destruct (words (d :: s')) as [|w0 ws].
      * intros [<-|[]]. split; [discriminate|]. simpl. now rewrite E.
      * intros [<-|H]; [|apply IH; now right].
        destruct (IH w0) as [H1 H2]; [now left|]. split; [discriminate|].
        simpl. now rewrite E.
Qed.

Lemma isspace_true s : isspace s = true -> forallb is_space s = true.
Proof. destruct s; [discriminate|trivial]. Qed.

Lemma rfind_bounds c s : (-1 <= rfind c s < Z.of_nat (length s))%Z.
Proof.
  induction s as [|d s IH]; cbn [rfind length]; [lia|].
  destruct (Z.ltb_spec (rfind c s) 0); [destruct (Ascii.eqb c d)|]; lia.
Qed.

Lemma rfind_neg c s : rfind c s = (-1)%Z <-> ~ In c s.
Proof.
  induction s as [|d s IH]; cbn [rfind In]; [tauto|].
  pose proof (rfind_bounds c s).
  destruct (Z.ltb_spec (rfind c s) 0).
  - assert (rfind c s = -1)%Z by lia.
    destruct (Ascii.eqb_spec c d).
    + split; [lia|]. intros F. exfalso. apply F. left. congruence.
    + split; intros F; [|reflexivity]. intros [G|G]; [congruence|]. apply IH in H1. tauto.
  - split; [lia|]. intros F. exfalso. assert (rfind c s <> -1)%Z by lia.
    apply H1. apply IH. tauto.
Qed.

(** [rfind] at a non-negative position splits the text at the last [c]. *)
Lemma rfind_split c s p : rfind c s = Z.of_nat p ->
  exists a b, s = a ++ c :: b /\ length a = p /\ ~ In c b.
Proof.
  revert p. induction s as [|d s IH]; cbn [rfind]; intros p H; [lia|].
  pose proof (rfind_bounds c s). 
  destruct (Z.ltb_spec (rfind c s) 0).
  - destruct (Ascii.eqb_spec c d); [|lia]. subst d. exists [], s. 
    assert (p = 0) by lia. subst. repeat split. apply rfind_neg. lia.
  - destruct p as [|p]; [lia|].
    destruct (IH p) as (a & b & -> & Ha & Hb); [lia|].
    exists (d :: a), b. simpl. auto.
Qed.

Lemma rfind_intro c a b : ~ In c b -> rfind c (a ++ c :: b) = Z.of_nat (length a).
Proof.
  intro Hb. induction a as [|d a IH]; cbn [rfind app length].
  - apply rfind_neg in Hb. rewrite Hb. cbn. now rewrite Ascii.eqb_refl.
  - rewrite IH. destruct (Z.ltb_spec (Z.of_nat (length a)) 0); lia.
Qed.

Lemma split_on_nonnil c s : split_on c s <> [].
Proof. destruct s; simpl; [discriminate|]. destruct (Ascii.eqb c a); [discriminate|]. destruct (split_on c s); discriminate. Qed.

Lemma split_on_app c a b : ~ In c a -> split_on c (a ++ c :: b) = a :: split_on c b.
Proof.
  induction a as [|d a IH]; intro H; cbn [app split_on].
  - now rewrite Ascii.eqb_refl.
  - destruct (Ascii.eqb_spec c d); [exfalso; apply H; now left|].
    rewrite IH; [reflexivity|]. intro; apply H; now right.
Qed.

Lemma split_on_none c a : ~ In c a -> split_on c a = [a].
Proof.
  induction a as [|d a IH]; intro H; cbn [split_on]; [reflexivity|].
  destruct (Ascii.eqb_spec c d); [exfalso; apply H; now left|].
  rewrite IH; [reflexivity|]. intro; apply H; now right.
Qed.

Lemma text_eqb_spec a b : reflect (a = b) (text_eqb a b).
Proof.
  revert b. induction a as [|x a IH]; destruct b as [|y b]; cbn [text_eqb]; try (constructor; congruence).
  destruct (Ascii.eqb_spec x y); simpl.
  - destruct (IH b); constructor; congruence.
  - constructor; congruence.
Qed.

Lemma text_eqb_refl a : text_eqb a a = true.
Proof. destruct (text_eqb_spec a a); congruence. Qed.

Lemma text_eqb_eq a b : text_eqb a b = true <-> a = b.
Proof. destruct (text_eqb_spec a b); split; congruence. Qed.

Lemma text_eq_dec (a b : text) : {a = b} + {a <> b}.
Proof. destruct (text_eqb_spec a b); [left|right]; assumption. Qed.

Lemma blank_is_space : is_space blank = true.
Proof. reflexivity. Qed.
Lemma newline_is_space : is_space newline = true.
Proof. reflexivity. Qed.
