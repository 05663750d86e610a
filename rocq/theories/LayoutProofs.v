(** Texts put together from blocks: words, comments and cards. *)
From Coq Require Import QArith.
From Verif Require Import PyStr PyStrFacts Formatter FormatterProofs FlattenModel.
Open Scope nat_scope.
Open Scope list_scope.

(** ** Closed blocks *)

Lemma closed_nil : closed []. Proof. now left. Qed.
Lemma closed_end a c : is_space c = true -> closed (a ++ [c]). Proof. intro S. right. now exists a, c. Qed.
Lemma closed_app a b : closed a -> closed b -> closed (a ++ b).
Proof. intros A [->|(n & c & -> & S)]; [now rewrite app_nil_r|]. rewrite app_assoc. now apply closed_end. Qed.
Lemma closed_concat l : Forall closed l -> closed (concat l).
Proof. induction 1 as [|a l A F IH]; [apply closed_nil|]. cbn [concat]. now apply closed_app. Qed.
Lemma words_blocks l : Forall closed l -> words (concat l) = flat_map words l.
Proof. induction 1 as [|a l A F IH]; [reflexivity|]. cbn [concat flat_map]. now rewrite words_closed_app, IH. Qed.

(** Every character that is not white space is in some word. *)
Lemma in_some_word c s : In c s -> is_space c = false -> exists w, In w (words s) /\ In c w.
Proof.
  induction s as [|x s IH]; intros I S; [destruct I|]. cbn [words]. destruct (is_space x) eqn:SX.
  - destruct I as [->|I]; [congruence|]. now apply IH.
  - destruct s as [|y s].
    + destruct I as [->|[]]. exists [c]. split; now left.
    + destruct (is_space y) eqn:SY.
      * destruct I as [->|I]; [exists [c]; split; now left|]. destruct (IH I S) as (w & J & K). exists w. split; [now right|exact K].
      * destruct (words (y :: s)) as [|w0 ws] eqn:W.
        -- apply words_nil_inv in W. cbn [forallb] in W. rewrite SY in W. discriminate.
        -- destruct I as [->|I]; [exists (c :: w0); split; now left|]. destruct (IH I S) as (w & [->|J] & K); [exists (x :: w); split; [now left|now right]|].
           exists w. split; [now right|exact K].
Qed.
Lemma not_in_words c s : is_space c = false -> (forall w, In w (words s) -> ~ In c w) -> ~ In c s.
Proof. intros S H I. destruct (in_some_word c s I S) as (w & J & K). now apply (H w). Qed.

(** The formatter keeps a block closed. *)
Lemma closed_skipn n s : closed s -> closed (skipn n s).
Proof.
  intros [->|(a & c & -> & S)]; [left; now destruct n|]. rewrite skipn_app. destruct (Nat.le_gt_cases n (length a)) as [L|L].
  - replace (n - length a) with 0 by lia. cbn [skipn]. now apply closed_end.
  - rewrite (skipn_all2 a) by lia. cbn [app]. destruct (n - length a) as [|k] eqn:E; [lia|]. left. cbn [skipn]. now destruct k.
Qed.
Lemma closed_slice_from s k : closed s -> closed (slice_from s k).
Proof. intro C. unfold slice_from. destruct (k <? 0)%Z; now apply closed_skipn. Qed.
Lemma fmt_loop_closed fuel : forall tmp new r, closed tmp -> closed new -> fmt_loop fuel tmp new = Some r -> closed r.
Proof.
  induction fuel as [|f IH]; intros tmp new r CT CN H; [discriminate|]. cbn [fmt_loop] in H. destruct (length tmp <=? 72).
  - injection H as <-. destruct (isspace tmp); [exact CN|now apply closed_app].
  - cbv zeta in H. assert (C1 : closed (new ++ slice_to tmp (rfind blank (slice_to tmp 72)) ++ [newline])) by (rewrite app_assoc; now apply closed_end).
    destruct (isspace _).
    + now injection H as <-.
    + apply IH in H; [exact H|now apply closed_slice_from|]. apply closed_app; [exact C1|]. change (T "     ") with (T "    " ++ [blank]). now apply closed_end.
Qed.
Lemma formatter_closed fuel s r : closed s -> mcnp_line_formatter fuel s = Some r -> closed r.
Proof.
  intros C H. unfold mcnp_line_formatter in H. destruct (length s <? 72); [now injection H as <-|]. eapply fmt_loop_closed; [exact C|apply closed_nil|exact H].
Qed.
(** It returns for all rounds from some number on. *)
Lemma formatter_more fuel k s r : mcnp_line_formatter fuel s = Some r -> fuel <= k -> mcnp_line_formatter k s = Some r.
Proof. unfold mcnp_line_formatter. destruct (length s <? 72); [trivial|]. intros H L. eapply fmt_loop_mono; eassumption. Qed.

(** ** Comments *)

(** A text without its comments, which go from the character [k] to the end of the line. *)
Fixpoint uncomment (k : ascii) (inside : bool) (t : text) : text :=
  match t with
  | [] => []
  | c :: r =>
      if Ascii.eqb c newline then newline :: uncomment k false r
      else if inside || Ascii.eqb c k then uncomment k true r
      else c :: uncomment k false r
  end.
Lemma uncomment_app k a b : k <> newline -> ~ In k a -> uncomment k false (a ++ b) = a ++ uncomment k false b.
Proof.
  intro K. induction a as [|c a IH]; intro N; [reflexivity|]. cbn [In] in N. cbn [app uncomment orb].
  destruct (Ascii.eqb_spec c newline) as [->|]; [now rewrite IH by tauto|]. destruct (Ascii.eqb_spec c k); [tauto|]. now rewrite IH by tauto.
Qed.
Lemma uncomment_none k a : k <> newline -> ~ In k a -> uncomment k false a = a.
Proof. intros K N. rewrite <- (app_nil_r a) at 1. rewrite uncomment_app by assumption. cbn [uncomment]. apply app_nil_r. Qed.
Lemma uncomment_inside k c b : ~ In newline c -> uncomment k true (c ++ newline :: b) = newline :: uncomment k false b.
Proof. induction c as [|x c IH]; intro N; [reflexivity|]. cbn [In] in N. cbn [app uncomment orb]. destruct (Ascii.eqb_spec x newline); [tauto|]. apply IH; tauto. Qed.
Lemma uncomment_line k c b : k <> newline -> ~ In newline c -> uncomment k false (k :: c ++ newline :: b) = newline :: uncomment k false b.
Proof. intros K N. cbn [uncomment orb]. destruct (Ascii.eqb_spec k newline); [tauto|]. rewrite Ascii.eqb_refl. now apply uncomment_inside. Qed.

(** ** Cards that begin with a keyword *)

(** The words before the first keyword, and the cards. *)
Fixpoint cards (key : text -> bool) (ws : list text) : list text * list (list text) :=
  match ws with
  | [] => ([], [])
  | w :: r => let (p, cs) := cards key r in if key w then ([], (w :: p) :: cs) else (w :: p, cs)
  end.
Definition one_card (key : text -> bool) (c : list text) : Prop :=
  match c with [] => False | k :: args => key k = true /\ Forall (fun w => key w = false) args end.
Lemma cards_args key args r : Forall (fun w => key w = false) args -> cards key (args ++ r) = (args ++ fst (cards key r), snd (cards key r)).
Proof. induction 1 as [|w args K F IH]; [cbn [app]; apply surjective_pairing|]. cbn [app cards]. rewrite IH, K. reflexivity. Qed.
Lemma cards_concat key cs : Forall (one_card key) cs -> cards key (concat cs) = ([], cs).
Proof.
  induction 1 as [|c cs O F IH]; [reflexivity|]. destruct c as [|k args]; [destruct O|]. destruct O as [K A]. cbn [concat app cards].
  rewrite cards_args by exact A. rewrite IH. cbn [fst snd]. now rewrite K, app_nil_r.
Qed.

(** ** Blocks of cards *)

Section Blocks.
Context (key : text -> bool) (k : ascii) (KN : k <> newline) (KS : is_space k = false).

(** Whatever comes after it, the text holds these cards once the comments are taken out. *)
Definition block (t : text) (cs : list (list text)) : Prop :=
  Forall (one_card key) cs /\ forall b, exists u, uncomment k false (t ++ b) = u ++ uncomment k false b /\ closed u /\ words u = concat cs.

Lemma block_nil : block [] [].
Proof. split; [constructor|]. intro b. exists []. split; [reflexivity|]. split; [apply closed_nil|reflexivity]. Qed.
Lemma block_app t1 c1 t2 c2 : block t1 c1 -> block t2 c2 -> block (t1 ++ t2) (c1 ++ c2).
Proof.
  intros (F1 & B1) (F2 & B2). split; [apply Forall_app; now split|]. intro b. destruct (B2 b) as (u2 & E2 & C2 & W2). destruct (B1 (t2 ++ b)) as (u1 & E1 & C1 & W1).
  exists (u1 ++ u2). rewrite <- !app_assoc, E1, E2. split; [reflexivity|]. split; [now apply closed_app|]. now rewrite words_closed_app, W1, W2, concat_app.
Qed.
Lemma block_concat ts css : Forall2 block ts css -> block (concat ts) (concat css).
Proof. induction 1 as [|t c ts css B F IH]; [apply block_nil|]. cbn [concat]. now apply block_app. Qed.
Lemma block_text t cs : closed t -> words t = concat cs -> Forall (one_card key) cs -> Forall (fun w => ~ In k w) (words t) -> block t cs.
Proof.
  intros C W F N. split; [exact F|]. intro b. exists t. split; [|now split]. apply uncomment_app; [exact KN|]. apply not_in_words; [exact KS|].
  rewrite Forall_forall in N. exact N.
Qed.
Lemma block_comment c : ~ In newline c -> block (k :: c ++ [newline]) [].
Proof.
  intro N. split; [constructor|]. intro b. exists [newline]. split; [|split; [now apply (closed_end [])|reflexivity]].
  change ((k :: c ++ [newline]) ++ b) with (k :: (c ++ [newline]) ++ b). rewrite <- app_assoc. cbn [app]. now apply uncomment_line.
Qed.
Lemma block_cards t cs : block t cs -> cards key (words (uncomment k false t)) = ([], cs).
Proof.
  intros (F & B). destruct (B []) as (u & E & C & W). rewrite app_nil_r in E. cbn [uncomment] in E. rewrite app_nil_r in E. rewrite E, W. now apply cards_concat.
Qed.
End Blocks.

(** ** Rounds of the formatter *)

Definition lasting {A} (w : nat -> option A) (a : A) : Prop := exists k, forall f, k <= f -> w f = Some a.
Lemma lasting_format s r : (exists fuel, mcnp_line_formatter fuel s = Some r) -> lasting (fun f => mcnp_line_formatter f s) r.
Proof. intros (k & E). exists k. intros f L. eapply formatter_more; eassumption. Qed.
Lemma lasting_list {A B} (w : nat -> A -> option B) (P : A -> B -> Prop) l : Forall (fun a => exists b, lasting (fun f => w f a) b /\ P a b) l ->
  exists bs, lasting (fun f => mapM (w f) l) bs /\ Forall2 P l bs.
Proof.
  induction 1 as [|a l (b & (k1 & E) & H) F (bs & (k2 & IH) & FB)]; [exists []; split; [now exists 0|constructor]|].
  exists (b :: bs). split; [|now constructor]. exists (max k1 k2). intros f L. cbn [mapM]. now rewrite E, IH by lia.
Qed.
