From Verif Require Import PyStr PyStrFacts Formatter.

(** Specification: a run of characters other than the blank. *)
Definition noblank (w : text) : Prop := ~ In blank w.

(** Every blank-free stretch of [s] has at most [n] characters. *)
Definition runs_at_most (n : nat) (s : text) : Prop :=
  forall a w b, s = a ++ w ++ b -> noblank w -> length w <= n.

Lemma runs_skip n a b : runs_at_most n (a ++ b) -> runs_at_most n b.
Proof.
  intros H x w y E N. apply (H (a ++ x) w y); [|assumption].
  rewrite E, !app_assoc. reflexivity.
Qed.

Lemma firstn_app_exact {A} (a b : list A) n : length a = n -> firstn n (a ++ b) = a.
Proof. intros <-. rewrite firstn_app, firstn_all, Nat.sub_diag. simpl. apply app_nil_r. Qed.

Lemma skipn_app_exact {A} (a b : list A) n : length a = n -> skipn n (a ++ b) = b.
Proof. intros <-. rewrite skipn_app, skipn_all, Nat.sub_diag. reflexivity. Qed.

(** What one iteration does when the first 72 characters hold a blank. *)
Lemma split_at_rfind tmp :
  72 < length tmp -> In blank (firstn 72 tmp) ->
  exists a b, tmp = a ++ blank :: b /\ length a < 72 /\
    noblank (firstn (71 - length a) b) /\
    slice_to tmp (rfind blank (slice_to tmp 72)) = a /\
    slice_from tmp (rfind blank (slice_to tmp 72)) = blank :: b.
Proof.
  intros L I.
  change (slice_to tmp 72) with (firstn 72 tmp).
  pose proof (rfind_bounds blank (firstn 72 tmp)) as B.
  assert (N : (rfind blank (firstn 72 tmp) <> -1)%Z) by (rewrite rfind_neg; tauto).
  remember (Z.to_nat (rfind blank (firstn 72 tmp))) as p eqn:Hp.
  assert (E : rfind blank (firstn 72 tmp) = Z.of_nat p) by lia.
  destruct (rfind_split _ _ _ E) as (a & b & Hs & Ha & Hb).
  assert (L72 : length (firstn 72 tmp) = 72) by (rewrite firstn_length; lia).
  rewrite E.
  assert (Ht : tmp = a ++ blank :: (b ++ skipn 72 tmp)).
  { rewrite <- (firstn_skipn 72 tmp) at 1. rewrite Hs, <- app_assoc. reflexivity. }
  exists a, (b ++ skipn 72 tmp).
  rewrite Hs, app_length in L72. cbn [length] in L72.
  repeat split.
  - exact Ht.
  - lia.
  - unfold noblank. rewrite firstn_app_exact by lia. exact Hb.
  - unfold slice_to. destruct (Z.ltb_spec (Z.of_nat p) 0); [lia|]. rewrite Nat2Z.id.
    rewrite Ht. now apply firstn_app_exact.
  - unfold slice_from. destruct (Z.ltb_spec (Z.of_nat p) 0); [lia|]. rewrite Nat2Z.id.
    rewrite Ht at 1. now apply skipn_app_exact.
Qed.

(** Texts the loop treats well: every blank-free run has at most 70 characters. *)
Lemma blank_in_front tmp : 72 < length tmp -> runs_at_most 70 tmp -> In blank (firstn 72 tmp).
Proof.
  intros L R. destruct (in_dec ascii_dec blank (firstn 72 tmp)) as [|N]; [assumption|].
  exfalso. specialize (R [] (firstn 72 tmp) (skipn 72 tmp)). cbn [app] in R.
  rewrite firstn_skipn in R. specialize (R eq_refl N). rewrite firstn_length in R. lia.
Qed.

Lemma cut_not_at_start tmp a b :
  72 < length tmp -> runs_at_most 70 tmp -> tmp = a ++ blank :: b ->
  noblank (firstn (71 - length a) b) -> a <> [].
Proof.
  intros L R E N ->. cbn [app length] in *. subst tmp.
  assert (LL : length (firstn 71 b) <= 70).
  { apply (R [blank] (firstn 71 b) (skipn 71 b)).
    - cbn [app]. now rewrite firstn_skipn.
    - exact N. }
  cbn [length] in L. rewrite firstn_length in LL. lia.
Qed.

Lemma words_blanks5 s : words (T "     " ++ s) = words s.
Proof. apply words_app_space_l. reflexivity. Qed.

(** Emitted text that ends with white space or is empty. *)
Definition closed (new : text) : Prop := new = [] \/ exists n' c, new = n' ++ [c] /\ is_space c = true.

Lemma words_closed_app new s : closed new -> words (new ++ s) = words new ++ words s.
Proof.
  intros [->|(n & c & -> & H)]; [reflexivity|].
  rewrite <- app_assoc. cbn [app]. rewrite (words_app_space n c s H).
  rewrite (words_app_space n c [] H). cbn [words]. now rewrite app_nil_r.
Qed.

Lemma closed_nl5 x : closed ((x ++ [newline]) ++ T "     ").
Proof. right. exists ((x ++ [newline]) ++ T "    "), " "%char. split; [|reflexivity].
  rewrite <- !app_assoc. reflexivity. Qed.

Lemma fmt_loop_words fuel : forall tmp new,
  length tmp < fuel -> runs_at_most 70 tmp -> closed new ->
  exists r, fmt_loop fuel tmp new = Some r /\ words r = words new ++ words tmp.
Proof.
  induction fuel as [|f IH]; intros tmp new Lf R C; [lia|].
  cbn [fmt_loop]. destruct (Nat.leb_spec (length tmp) 72) as [L|L].
  - eexists; split; [reflexivity|]. destruct (isspace tmp) eqn:Es.
    + apply isspace_true, words_nil_inv in Es. now rewrite Es, app_nil_r.
    + now apply words_closed_app.
  - pose proof (blank_in_front tmp L R) as I.
    destruct (split_at_rfind tmp L I) as (a & b & Et & La & Nb & E1 & E2).
    rewrite E1, E2.
    pose proof (cut_not_at_start _ _ _ L R Et Nb) as Na.
    assert (W : words tmp = words a ++ words (blank :: b)).
    { rewrite Et, words_app_space by reflexivity. now rewrite words_cons_space. }
    assert (Wa : words (new ++ a ++ [newline]) = words new ++ words a).
    { rewrite words_closed_app by assumption. f_equal. apply words_app_space_r. reflexivity. }
    destruct (isspace (blank :: b)) eqn:Es.
    + eexists; split; [reflexivity|].
      apply isspace_true, words_nil_inv in Es. now rewrite W, Es, app_nil_r.
    + destruct (IH (blank :: b) ((new ++ a ++ [newline]) ++ T "     ")) as (r & Hr & Hw).
      * rewrite Et, app_length in Lf. destruct a; [congruence|]. cbn [length] in *. lia.
      * rewrite Et in R. exact (runs_skip _ _ _ R).
      * rewrite app_assoc. apply closed_nl5.
      * exists r. split; [exact Hr|]. rewrite Hw.
        rewrite (words_app_space_r _ (T "     ")) by reflexivity.
        rewrite Wa, W, <- app_assoc. reflexivity.
Qed.

Lemma fmt_loop_mono fuel : forall tmp new r k,
  fmt_loop fuel tmp new = Some r -> fuel <= k -> fmt_loop k tmp new = Some r.
Proof.
  induction fuel as [|f IH]; intros tmp new r k H L; [discriminate|].
  destruct k as [|k]; [lia|]. cbn [fmt_loop] in *.
  destruct (length tmp <=? 72); [exact H|].
  destruct (isspace _); [exact H|]. apply IH; [exact H|lia].
Qed.

Lemma formatter_deterministic s r1 r2 :
  formatter_returns s r1 -> formatter_returns s r2 -> r1 = r2.
Proof.
  intros [f1 H1] [f2 H2]. unfold mcnp_line_formatter in *.
  destruct (length s <? 72); [congruence|].
  apply (fmt_loop_mono _ _ _ _ (f1 + f2)) in H1; [|lia].
  apply (fmt_loop_mono _ _ _ _ (f1 + f2)) in H2; [|lia]. congruence.
Qed.

Lemma formatter_words s : runs_at_most 70 s ->
  exists r, formatter_returns s r /\ words r = words s.
Proof.
  intro R. unfold formatter_returns, mcnp_line_formatter.
  destruct (length s <? 72).
  - exists s. split; [exists 0; reflexivity|reflexivity].
  - destruct (fmt_loop_words (S (length s)) s []) as (r & Hr & Hw); [lia|assumption|now left|].
    exists r. split; [eexists; exact Hr|exact Hw].
Qed.

(** * Line width *)

(** Five blanks in front. *)
Definition continuation (l : text) : Prop := exists t, l = T "     " ++ t.

(** The lines of a text whose earlier part ends with a newline. *)
Lemma lines_nonl s : ~ In newline s -> text_lines s = [s].
Proof. apply split_on_none. Qed.

(** Good lines: at most 77 wide, later ones are continuations or empty
    (the piece after a final newline). *)
Definition good_line (l : text) : Prop := length l <= 77.
Definition good_cont (l : text) : Prop := l = [] \/ continuation l.

Lemma split_on_app_gen c a b : split_on c (a ++ c :: b) = split_on c a ++ split_on c b.
Proof.
  induction a as [|d a IH]; cbn [app split_on].
  - now rewrite Ascii.eqb_refl.
  - destruct (Ascii.eqb c d); [now rewrite IH|].
    rewrite IH. pose proof (split_on_nonnil c a). destruct (split_on c a); [congruence|reflexivity].
Qed.

Lemma not_in_app {A} (x : A) a b : ~ In x (a ++ b) <-> ~ In x a /\ ~ In x b.
Proof. rewrite in_app_iff. tauto. Qed.

(** The tail of the wrapped text: [pre] is what already stands on the current
    line. *)
Lemma fmt_loop_lines fuel : forall tmp out pre r,
  ~ In newline (removelast tmp) -> ~ In newline pre -> length pre <= 5 ->
  fmt_loop fuel tmp (out ++ pre) = Some r ->
  (72 < length tmp -> In blank (firstn 72 tmp)) ->
  runs_at_most 70 tmp ->
  exists l1 ls, r = out ++ l1 ++ ls /\
    (exists first rest, text_lines (l1 ++ ls) = first :: rest /\
       Forall good_line (first :: rest) /\ Forall good_cont rest /\
       (exists t, first = pre ++ t)).
Proof.
  induction fuel as [|f IH]; intros tmp out pre r Hn Hp Lp H I R; [discriminate|].
  cbn [fmt_loop] in H.
  destruct (Nat.leb_spec (length tmp) 72) as [L|L].
  - destruct (isspace tmp) eqn:Es.
    + injection H as <-. exists pre, []. rewrite app_nil_r. split; [reflexivity|].
      exists pre, []. rewrite lines_nonl by assumption. repeat split; auto.
      * constructor; [unfold good_line; lia|constructor].
      * exists []. now rewrite app_nil_r.
    + injection H as <-. exists pre, tmp. rewrite app_assoc. split; [reflexivity|].
      destruct tmp as [|c0 t0].
      { rewrite app_nil_r, lines_nonl by assumption. exists pre, []. repeat split; auto.
        - constructor; [unfold good_line; lia|constructor].
        - exists []. now rewrite app_nil_r. }
      remember (c0 :: t0) as tmp eqn:Et.
      assert (Ne : tmp <> []) by (subst; discriminate).
      pose proof (app_removelast_last blank Ne) as Er.
      remember (removelast tmp) as q. remember (last tmp blank) as e.
      assert (Lq : length tmp = length q + 1) by (rewrite Er, app_length; cbn; lia).
      destruct (ascii_dec e newline) as [->|Ne'].
      * rewrite Er, app_assoc. unfold text_lines.
        change [newline] with (newline :: []).
        rewrite split_on_app by (rewrite not_in_app; tauto).
        exists (pre ++ q), [[]]. repeat split; auto.
        -- constructor; [unfold good_line; rewrite app_length; lia|].
           constructor; [unfold good_line; cbn; lia|constructor].
        -- constructor; [now left|constructor].
        -- now exists q.
      * rewrite lines_nonl.
        2:{ rewrite Er, !not_in_app. repeat split; auto. cbn. intuition. }
        exists (pre ++ tmp), []. repeat split; auto.
        -- constructor; [unfold good_line; rewrite app_length; lia|constructor].
        -- now exists tmp.
  - pose proof (blank_in_front tmp L R) as I'.
    destruct (split_at_rfind tmp L I') as (a & b & Et & La & Nb & E1 & E2).
    rewrite E1, E2 in H.
    assert (Na : ~ In newline a).
    { rewrite Et, removelast_app in Hn by discriminate. rewrite not_in_app in Hn. tauto. }
    destruct (isspace (blank :: b)) eqn:Es.
    + injection H as <-. exists (pre ++ a), [newline]. split.
      { rewrite <- !app_assoc. reflexivity. }
      unfold text_lines. change [newline] with (newline :: []).
      rewrite split_on_app by (rewrite not_in_app; tauto).
      exists (pre ++ a), [[]]. repeat split; auto.
      * constructor; [unfold good_line; rewrite app_length; lia|].
        constructor; [unfold good_line; cbn; lia|constructor].
      * constructor; [now left|constructor].
      * now exists a.
    + apply IH in H.
      * destruct H as (l1 & ls & -> & first & rest & Hl & G1 & G2 & (t & ->)).
        exists (pre ++ a), (newline :: l1 ++ ls). split.
        { rewrite <- !app_assoc. reflexivity. }
        unfold text_lines in *. rewrite split_on_app by (rewrite not_in_app; tauto).
        rewrite Hl. eexists (pre ++ a), _. split; [reflexivity|]. repeat split.
        -- constructor; [unfold good_line; rewrite app_length; lia|assumption].
        -- constructor; [right; now exists t|assumption].
        -- now exists a.
      * rewrite Et, removelast_app in Hn by discriminate. rewrite not_in_app in Hn. tauto.
      * cbn. intuition discriminate.
      * cbn. lia.
      * intros L'. apply blank_in_front; [assumption|].
        rewrite Et in R. exact (runs_skip _ _ _ R).
      * rewrite Et in R. exact (runs_skip _ _ _ R).
Qed.

Lemma in_removelast {A} (x : A) l : In x (removelast l) -> In x l.
Proof.
  induction l as [|y l IH]; [trivial|]. cbn [removelast]. destruct l; [intros []|].
  intros [->|H]; [now left|right; auto].
Qed.

Lemma formatter_lines s r :
  ~ In newline (removelast s) -> runs_at_most 70 s -> formatter_returns s r ->
  exists first rest, text_lines r = first :: rest /\
    Forall good_line (first :: rest) /\ Forall good_cont rest.
Proof.
  intros N R [fuel H]. unfold mcnp_line_formatter in H.
  destruct (Nat.ltb_spec (length s) 72) as [L|L].
  - injection H as <-. destruct s as [|c s0].
    + exists [], []. repeat split; auto. constructor; [unfold good_line; cbn; lia|constructor].
    + remember (c :: s0) as s eqn:E. assert (Ne : s <> []) by (subst; discriminate).
      pose proof (app_removelast_last blank Ne) as Er.
      remember (removelast s) as q. remember (last s blank) as e.
      assert (Lq : length s = length q + 1) by (rewrite Er, app_length; cbn; lia).
      destruct (ascii_dec e newline) as [->|Ne'].
      * rewrite Er. unfold text_lines. change [newline] with (newline :: []).
        rewrite split_on_app by assumption. exists q, [[]]. repeat split; auto.
        -- constructor; [unfold good_line; lia|]. constructor; [unfold good_line; cbn; lia|constructor].
        -- constructor; [now left|constructor].
      * rewrite lines_nonl.
        2:{ rewrite Er, not_in_app. split; auto. cbn. intuition. }
        exists s, []. repeat split; auto. constructor; [unfold good_line; lia|constructor].
  - destruct (fmt_loop_lines fuel s [] [] r) as (l1 & ls & -> & first & rest & Hl & G1 & G2 & _); auto.
    + cbn; lia.
    + intro. now apply blank_in_front.
    + exists first, rest. auto.
Qed.

(** * Divergence *)

(** A blank followed by 71 characters none of which is a blank, and more
    text; not everything is white space. *)
Definition stuck_at (t : text) : Prop :=
  isspace t = false /\
  exists w c rest, t = blank :: w ++ c :: rest /\ length w = 71 /\ noblank w.

Lemma stuck_step t : stuck_at t ->
  72 < length t /\ rfind blank (slice_to t 72) = 0%Z.
Proof.
  intros (_ & w & c & rest & -> & Lw & Nw). split.
  - cbn. rewrite app_length. cbn. lia.
  - change (slice_to (blank :: w ++ c :: rest) 72) with (blank :: firstn 71 (w ++ c :: rest)).
    rewrite firstn_app_exact by assumption.
    exact (rfind_intro blank [] w Nw).
Qed.

Lemma stuck_diverges fuel : forall t new, stuck_at t -> fmt_loop fuel t new = None.
Proof.
  induction fuel as [|f IH]; intros t new S; [reflexivity|].
  cbn [fmt_loop]. destruct (stuck_step t S) as [L E].
  destruct (Nat.leb_spec (length t) 72) as [L'|_]; [lia|].
  rewrite E. change (slice_from t 0) with t.
  destruct S as [S1 S2]. rewrite S1. apply IH. now split.
Qed.

Lemma isspace_app_false a t : isspace t = false -> t <> [] -> isspace (a ++ t) = false.
Proof.
  intros H N. destruct t as [|c t]; [congruence|]. cbn [isspace] in H.
  destruct a; [exact H|]. cbn [app isspace]. 
  change (a :: a0 ++ c :: t) with ((a :: a0) ++ c :: t). rewrite forallb_app, H. apply andb_false_r.
Qed.

(** If [t] is stuck and stands after [x], one iteration cuts no later than at the
    beginning of [t]. *)
Lemma cut_before_stuck x t a b :
  stuck_at t -> x ++ t = a ++ blank :: b -> length a < 72 ->
  noblank (firstn (71 - length a) b) ->
  length a <= length x.
Proof.
  intros (_ & w & c & rest & -> & Lw & Nw) E La Nb.
  destruct (le_lt_dec (length a) (length x)) as [|G]; [assumption|exfalso].
  (* the blank at position [length a] lies inside [w] *)
  assert (Nx : nth (length a) (x ++ blank :: w ++ c :: rest) newline = blank).
  { rewrite E. rewrite app_nth2 by lia. now rewrite Nat.sub_diag. }
  rewrite app_nth2 in Nx by lia.
  destruct (length a - length x) as [|k] eqn:Ek; [lia|].
  cbn [nth] in Nx. rewrite app_nth1 in Nx by lia.
  apply Nw. rewrite <- Nx. apply nth_In. lia.
Qed.

Lemma stuck_suffix_diverges fuel : forall x t new,
  stuck_at t -> In blank (firstn 72 (x ++ t)) -> fmt_loop fuel (x ++ t) new = None.
Proof.
  induction fuel as [|f IH]; intros x t new S I; [reflexivity|].
  destruct (stuck_step t S) as [L _].
  assert (L' : 72 < length (x ++ t)) by (rewrite app_length; lia).
  cbn [fmt_loop]. destruct (Nat.leb_spec (length (x ++ t)) 72) as [?|_]; [lia|].
  destruct (split_at_rfind _ L' I) as (a & b & Et & La & Nb & E1 & E2).
  rewrite E1, E2.
  pose proof (cut_before_stuck x t a b S Et La Nb) as Lx.
  assert (Ex : exists y, x = a ++ y /\ blank :: b = y ++ t).
  { exists (skipn (length a) x).
    assert (Ea : a = firstn (length a) x).
    { transitivity (firstn (length a) (x ++ t)).
      - rewrite Et. now rewrite firstn_app_exact.
      - rewrite firstn_app. replace (length a - length x) with 0 by lia. now rewrite app_nil_r. }
    split.
    - rewrite Ea at 1. rewrite firstn_skipn. reflexivity.
    - transitivity (skipn (length a) (x ++ t)).
      + rewrite Et. now rewrite skipn_app_exact.
      + rewrite skipn_app. replace (length a - length x) with 0 by lia. reflexivity. }
  destruct Ex as (y & -> & Ey). rewrite Ey.
  rewrite isspace_app_false; [|apply S|].
  - apply IH; [assumption|]. rewrite <- Ey. cbn. now left.
  - destruct S as (_ & w & c & rest & -> & _). discriminate.
Qed.

(** Conversely, without a stuck suffix the loop ends. *)
Lemma unstuck_returns fuel : forall t new,
  length t < fuel -> In blank (firstn 72 t) \/ length t <= 72 ->
  (forall x y, t = x ++ y -> ~ stuck_at y) ->
  exists r, fmt_loop fuel t new = Some r.
Proof.
  induction fuel as [|f IH]; intros t new Lf I NS; [lia|].
  cbn [fmt_loop]. destruct (Nat.leb_spec (length t) 72) as [L|L]; [eexists; reflexivity|].
  destruct I as [I|I]; [|lia].
  destruct (split_at_rfind _ L I) as (a & b & Et & La & Nb & E1 & E2).
  rewrite E1, E2. destruct (isspace (blank :: b)) eqn:Es; [eexists; reflexivity|].
  apply IH.
  - destruct a as [|c a].
    + exfalso. cbn [app length] in *. apply (NS [] t eq_refl). subst t. split; [assumption|].
      cbn [length] in L. 
      destruct (skipn 71 b) as [|c rest] eqn:Ek.
      { pose proof (firstn_skipn 71 b) as F. rewrite Ek, app_nil_r in F.
        pose proof (firstn_le_length 71 b). rewrite F in H. lia. }
      exists (firstn 71 b), c, rest. repeat split.
      * rewrite <- Ek. now rewrite firstn_skipn.
      * rewrite firstn_length. lia.
      * exact Nb.
    + rewrite Et, app_length in Lf. cbn [length] in *. lia.
  - left. cbn. now left.
  - intros x y E S. apply (NS (a ++ x) y); [|assumption]. rewrite Et, E. apply app_assoc.
Qed.

Lemma no_blank_returns s : 72 <= length s -> ~ In blank (firstn 72 s) -> exists r, formatter_returns s r.
Proof.
  intros L N. unfold formatter_returns, mcnp_line_formatter.
  destruct (Nat.ltb_spec (length s) 72) as [|_]; [lia|].
  destruct (Nat.eq_dec (length s) 72) as [E|E].
  { eexists. exists 1. cbn [fmt_loop]. rewrite E. reflexivity. }
  assert (P : rfind blank (slice_to s 72) = (-1)%Z) by (apply rfind_neg; exact N).
  assert (Q : length (slice_from s (-1)) <= 72).
  { unfold slice_from. cbn. rewrite skipn_length. lia. }
  destruct (isspace (slice_from s (-1))) eqn:Es; eexists; exists 2; cbn [fmt_loop];
    (destruct (Nat.leb_spec (length s) 72) as [|_]; [lia|]); rewrite P, Es; [reflexivity|].
  destruct (Nat.leb_spec (length (slice_from s (-1))) 72) as [_|?]; [reflexivity|lia].
Qed.

(** Exact characterisation of the texts on which wrapping never returns. *)
Lemma formatter_diverges_iff s :
  formatter_diverges s <->
  72 <= length s /\ In blank (firstn 72 s) /\ exists x y, s = x ++ y /\ stuck_at y.
Proof.
  split.
  - intro D. destruct (Nat.ltb_spec (length s) 72) as [L|L].
    { exfalso. specialize (D 0). unfold mcnp_line_formatter in D.
      apply Nat.ltb_lt in L. rewrite L in D. discriminate. }
    split; [assumption|].
    destruct (in_dec ascii_dec blank (firstn 72 s)) as [I|I].
    + split; [assumption|].
      assert (Dec : forall y, {stuck_at y} + {~ stuck_at y}).
      { intro y. destruct (isspace y) eqn:Es; [right; intros [F _]; congruence|].
        destruct y as [|c y]; [right; intros (_ & w & c & rest & F & _); discriminate|].
        destruct (ascii_dec c blank) as [->|Nc];
          [|right; intros (_ & w & d & rest & F & _); congruence].
        destruct (in_dec ascii_dec blank (firstn 71 y)) as [J|J].
        - right. intros (_ & w & d & rest & F & Lw & Nw). injection F as ->.
          rewrite firstn_app_exact in J by assumption. contradiction.
        - destruct (le_lt_dec (length y) 71) as [Ly|Ly].
          + right. intros (_ & w & d & rest & F & Lw & Nw). injection F as ->.
            rewrite app_length in Ly. cbn in Ly. lia.
          + left. split; [assumption|].
            destruct (skipn 71 y) as [|d rest] eqn:Ek.
            { pose proof (firstn_skipn 71 y) as F. rewrite Ek, app_nil_r in F.
              pose proof (firstn_le_length 71 y). rewrite F in H. lia. }
            exists (firstn 71 y), d, rest. repeat split.
            * rewrite <- Ek. now rewrite firstn_skipn.
            * rewrite firstn_length. lia.
            * exact J. }
      assert (Ex : {n | stuck_at (skipn n s)} + {forall n, n <= length s -> ~ stuck_at (skipn n s)}).
      { generalize (length s). intro m. induction m as [|m [[n Hn]|Hm]].
        - destruct (Dec (skipn 0 s)); [left; now exists 0|right].
          intros k Lk. now replace k with 0 by lia.
        - left. now exists n.
        - destruct (Dec (skipn (S m) s)); [left; now exists (S m)|right].
          intros k Lk. destruct (Nat.eq_dec k (S m)) as [->|]; [assumption|apply Hm; lia]. }
      destruct Ex as [[n Hn]|Hn].
      * exists (firstn n s), (skipn n s). split; [now rewrite firstn_skipn|assumption].
      * exfalso. destruct (unstuck_returns (S (length s)) s []) as [r Hr]; [lia|now left| |].
        -- intros x y E S. apply (Hn (length x)); [rewrite E, app_length; lia|].
           rewrite E. now rewrite skipn_app_exact.
        -- specialize (D (S (length s))). unfold mcnp_line_formatter in D.
           destruct (length s <? 72); congruence.
    + exfalso. destruct (no_blank_returns s L I) as [r [f Hr]]. rewrite (D f) in Hr. discriminate.
  - intros (L & I & x & y & -> & S) fuel. unfold mcnp_line_formatter.
    destruct (Nat.ltb_spec (length (x ++ y)) 72) as [|_]; [lia|].
    now apply stuck_suffix_diverges.
Qed.
