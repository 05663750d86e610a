From Coq Require Import ZifyBool ZifyN.
From Verif Require Import PyStr PyStrFacts FortranNumber FortranNumberProofs PyInt.

Lemma digit_char_ok n : (n < 10)%N -> is_digit (digit_char n) = true /\ digit_val (digit_char n) = Z.of_N n.
Proof.
  intro H. unfold is_digit, digit_val, digit_char.
  rewrite N_ascii_embedding by lia. lia.
Qed.

Lemma dec_digits_ok fuel : forall n, (n < 2 ^ N.of_nat fuel)%N -> (0 < fuel)%nat ->
  dec_digits fuel n <> [] /\ all_digits (dec_digits fuel n) /\ digits_val (dec_digits fuel n) = Z.of_N n.
Proof.
  induction fuel as [|f IH]; intros n H P; [lia|].
  cbn [dec_digits]. destruct (N.ltb_spec n 10) as [L|L].
  - destruct (digit_char_ok n L) as [A B]. split; [discriminate|]. split.
    + unfold all_digits. cbn [forallb]. now rewrite A.
    + unfold digits_val. cbn [fold_left]. rewrite B. lia.
  - assert (Hd : (n / 10 < 2 ^ N.of_nat f)%N).
    { apply N.div_lt_upper_bound; [lia|].
      rewrite Nat2N.inj_succ, N.pow_succ_r' in H. lia. }
    assert (F : (0 < f)%nat).
    { destruct f; [|lia]. cbn in Hd. assert (n / 10 = 0)%N by lia.
      apply N.div_small_iff in H0; lia. }
    destruct (IH _ Hd F) as (A & B & C).
    assert (M : (n mod 10 < 10)%N) by (apply N.mod_lt; lia).
    destruct (digit_char_ok _ M) as [D E].
    split; [destruct (dec_digits f (n / 10)); discriminate|]. split.
    + unfold all_digits in *. rewrite forallb_app, B. cbn [forallb]. now rewrite D.
    + rewrite digits_val_app, C. cbn [length]. unfold digits_val at 1. cbn [fold_left].
      rewrite E. pose proof (N.div_mod n 10). lia.
Qed.

Lemma str_N_ok n : str_N n <> [] /\ all_digits (str_N n) /\ digits_val (str_N n) = Z.of_N n.
Proof.
  apply dec_digits_ok; [|lia]. rewrite Nat2N.inj_succ, N2Nat.id.
  destruct n as [|p]; [reflexivity|]. apply N.log2_spec. reflexivity.
Qed.

Lemma take_sign_nosign s : (match s with c :: _ => is_digit c = true | [] => True end) -> take_sign s = (false, s).
Proof.
  destruct s as [|c s]; [reflexivity|]. intro H. cbn [take_sign].
  rewrite !(digit_not c) by (assumption || reflexivity). reflexivity.
Qed.

Lemma py_int_digits d : d <> [] -> all_digits d -> py_int d = Some (digits_val d).
Proof.
  intros N D. unfold py_int. rewrite take_sign_nosign.
  - unfold all_digits in D. rewrite D. destruct d; [congruence|reflexivity].
  - destruct d; [trivial|]. unfold all_digits in D. cbn in D. now apply andb_prop in D.
Qed.

Lemma py_int_minus d : d <> [] -> all_digits d -> py_int ("-"%char :: d) = Some (- digits_val d)%Z.
Proof.
  intros N D. unfold py_int. cbn [take_sign]. change (Ascii.eqb "-" "-") with true. cbv iota.
  unfold all_digits in D. rewrite D. destruct d; [congruence|reflexivity].
Qed.

Lemma py_int_str_Z z : py_int (str_Z z) = Some z.
Proof.
  unfold str_Z. destruct (Z.ltb_spec z 0).
  - destruct (str_N_ok (Z.to_N (- z))) as (A & B & C). rewrite py_int_minus by assumption. rewrite C. f_equal. lia.
  - destruct (str_N_ok (Z.to_N z)) as (A & B & C). rewrite py_int_digits by assumption. rewrite C. f_equal. lia.
Qed.

Lemma str_Z_inj a b : str_Z a = str_Z b -> a = b.
Proof. intro H. pose proof (py_int_str_Z a). pose proof (py_int_str_Z b). congruence. Qed.

(** Shape of printed integers. *)
Lemma str_Z_shape z : exists d, d <> [] /\ all_digits d /\ (str_Z z = d \/ str_Z z = "-"%char :: d).
Proof.
  unfold str_Z. destruct (z <? 0)%Z; [destruct (str_N_ok (Z.to_N (- z))) as (A & B & _)|destruct (str_N_ok (Z.to_N z)) as (A & B & _)]; eexists; eauto.
Qed.

Lemma digits_val_nonneg d : all_digits d -> (0 <= digits_val d)%Z.
Proof.
  unfold all_digits, digits_val. intro D.
  assert (G : forall l acc, (0 <= acc)%Z -> forallb is_digit l = true ->
     (0 <= fold_left (fun acc c => acc * 10 + digit_val c) l acc)%Z).
  { induction l as [|c l IH]; intros acc H0 H1; [exact H0|]. cbn in *. apply andb_prop in H1 as [H1 H2].
    apply IH; [|assumption]. unfold is_digit in H1. unfold digit_val. lia. }
  apply G; [lia|assumption].
Qed.
