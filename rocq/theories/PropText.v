(** Property theorems C01-C04: wrapping of cards, reading of numbers. *)
From Coq Require Import QArith.
From Verif Require Import PyStr PyStrFacts Formatter FormatterProofs FortranNumber FortranNumberProofs.
Open Scope nat_scope.

(** C01: for every text whose blank-free stretches have at most 70 characters
    wrapping returns, and every answer it returns has the same words. *)
Theorem C01_wrap_keeps_words :
  forall s, runs_at_most 70 s ->
  (exists r, formatter_returns s r) /\
  (forall r, formatter_returns s r -> words r = words s).
Proof.
  intros s R. destruct (formatter_words s R) as (r & Hr & Hw). split; [now exists r|].
  intros r' H'. now rewrite (formatter_deterministic _ _ _ H' Hr).
Qed.
Print Assumptions C01_wrap_keeps_words.

(** A sufficient and checkable form of the hypothesis. *)
Lemma runs_check_gen s : forall n, forallb (fun w => (length w <=? n)%nat) (split_on blank s) = true ->
  runs_at_most n s.
Proof.
  intros n H a w b E Nw. rewrite forallb_forall in H.
  assert (G : forall a w b, ~ In blank w -> exists l1 x y l2, split_on blank (a ++ w ++ b) = l1 ++ (x ++ w ++ y) :: l2).
  { clear. induction a as [|c a IH]; intros w b N.
    - induction w as [|c w IHw].
      + destruct (split_on blank b) as [|y l] eqn:E; [now apply split_on_nonnil in E|].
        exists [], [], y, l. cbn. exact E.
      + destruct IHw as (l1 & x & y & l2 & E); [cbn in N; tauto|].
        cbn [app split_on] in *. destruct (Ascii.eqb_spec blank c); [exfalso; apply N; now left|].
        assert (F : forall b, exists y' l', split_on blank (w ++ b) = (w ++ y') :: l').
        { assert (Nw : ~ In blank w) by (cbn in N; tauto). clear - Nw. induction w as [|d w IH]; intro b.
          - cbn. destruct (split_on blank b) as [|y l] eqn:E; [now apply split_on_nonnil in E|]. now exists y, l.
          - cbn [app split_on]. destruct (Ascii.eqb_spec blank d); [exfalso; apply Nw; now left|].
            destruct (IH (fun I => Nw (or_intror I)) b) as (y' & l' & ->). now exists y', l'. }
        destruct (F b) as (y' & l' & ->). exists [], [], y', l'. reflexivity.
    - destruct (IH w b N) as (l1 & x & y & l2 & E). cbn [app split_on]. rewrite E.
      destruct (Ascii.eqb blank c).
      + exists ([] :: l1), x, y, l2. reflexivity.
      + destruct l1 as [|z l1].
        * exists [], (c :: x), y, l2. reflexivity.
        * exists ((c :: z) :: l1), x, y, l2. reflexivity. }
  destruct (G a w b Nw) as (l1 & x & y & l2 & E2).
  assert (I : In (x ++ w ++ y) (split_on blank s)) by (rewrite E, E2; apply in_app_iff; right; now left).
  apply H in I. apply Nat.leb_le in I. rewrite !app_length in I. lia.
Qed.

(** A card longer than one line meets the hypothesis and is really wrapped. *)
Definition long_card : text :=
  T "12 3 -1.0  1 -2 3 -4 5 -6 ( 7 : -8 ) #9 10 11 12 13 14 15 16 17 18 19 20 21 22 23 24 25 26 u=4 IMP:N=1.0
".
Example C01_example : runs_at_most 70 long_card /\
  mcnp_line_formatter 5 long_card = Some (T "12 3 -1.0  1 -2 3 -4 5 -6 ( 7 : -8 ) #9 10 11 12 13 14 15 16 17 18 19
      20 21 22 23 24 25 26 u=4 IMP:N=1.0
").
Proof. split; [apply runs_check_gen; reflexivity|reflexivity]. Qed.

(** Beyond 70 characters the property fails: a text that starts with a word of 73
    characters loses its last character to a line of its own. *)
Theorem C01_long_first_word_refuted :
  exists s r, formatter_returns s r /\ words r <> words s.
Proof.
  exists (repeat "a"%char 73 ++ T " bc"), (repeat "a"%char 73 ++ T " b
     c"). split; [exists 3; reflexivity|vm_compute; discriminate].
Qed.
Print Assumptions C01_long_first_word_refuted.

(** C02: every physical line has at most 77 (hence at most 80) characters and every
    line after the first starts with five blanks, or is the empty piece that
    follows a final newline. *)
Theorem C02_wrap_width_and_continuation :
  forall s r,
  ~ In newline (removelast s) -> runs_at_most 70 s -> formatter_returns s r ->
  exists first rest, text_lines r = first :: rest /\
    Forall (fun l => length l <= 77) (first :: rest) /\
    Forall (fun l => l = [] \/ exists t, l = T "     " ++ t) rest.
Proof. exact formatter_lines. Qed.
Print Assumptions C02_wrap_width_and_continuation.

Example C02_example : ~ In newline (removelast long_card).
Proof. vm_compute. intuition discriminate. Qed.

(** C03 is false: a blank followed by a long word makes the loop run for ever. *)
Theorem C03_wrap_terminates_refuted : exists s, formatter_diverges s.
Proof.
  exists (T "12 " ++ repeat "a"%char 72). apply formatter_diverges_iff. split; [vm_compute; lia|].
  split; [vm_compute; tauto|].
  exists (T "12"), (T " " ++ repeat "a"%char 72). split; [reflexivity|]. split; [reflexivity|].
  exists (repeat "a"%char 71), "a"%char, []. split; [reflexivity|]. split; [reflexivity|].
  vm_compute. intuition discriminate.
Qed.
Print Assumptions C03_wrap_terminates_refuted.

(** C03, what is true: exactly when wrapping diverges.  [s] has at least 72
    characters, a blank among the first 72, and somewhere a blank followed by at
    least 71 blank-free characters and something more, not all white space. *)
Theorem C03_divergence_characterised_partial :
  forall s, formatter_diverges s <->
    72 <= length s /\ In blank (firstn 72 s) /\
    exists x y, s = x ++ y /\ isspace y = false /\
      exists w c rest, y = blank :: w ++ c :: rest /\ length w = 71 /\ ~ In blank w.
Proof. exact formatter_diverges_iff. Qed.
Print Assumptions C03_divergence_characterised_partial.

(** C04 *)
Theorem C04_fortran_number_value :
  forall s ip fp e,
  all_digits ip -> all_digits fp -> ip ++ fp <> [] -> exp_ok e ->
  exists q, get_fortran_formatted_number (spelled s ip fp e) = Some q /\
            (q == worth s ip fp e)%Q.
Proof. exact fortran_number_ok. Qed.
Print Assumptions C04_fortran_number_value.

Example C04_example :
  spelled Minus (T "12") (T "50") (ExpF true (T "3")) = T "-12.50-3" /\
  (worth Minus (T "12") (T "50") (ExpF true (T "3")) == -125 # 10000)%Q /\
  exists q, get_fortran_formatted_number (T "-12.50-3") = Some q /\ (q == -125 # 10000)%Q.
Proof. split; [reflexivity|]. split; [reflexivity|]. eexists; split; reflexivity. Qed.

(** Outside C04's spellings: a Fortran exponent without a decimal point is rejected. *)
Theorem C04_no_point_refuted :
  get_fortran_formatted_number (T "1-3") = None /\ get_fortran_formatted_number (T "1.-3") <> None.
Proof. split; [reflexivity|discriminate]. Qed.
Print Assumptions C04_no_point_refuted.
