(** Facts about numbers in scientific notation. *)
From Coq Require Import QArith Qpower Qround Qabs Lia Lqa ZifyBool ZifyN.
From Verif Require Import PyStr PyStrFacts PyInt PyIntFacts FortranNumber FortranNumberProofs PyFmtE.
Open Scope nat_scope.
Open Scope list_scope.

Lemma pad_left_length w s : length (pad_left w s) = Nat.max w (length s).
Proof. unfold pad_left. rewrite app_length, repeat_length. lia. Qed.
Lemma pad_right_length w s : length (pad_right w s) = Nat.max w (length s).
Proof. unfold pad_right. rewrite app_length, repeat_length. lia. Qed.

(** * Digits *)
Lemma fix_digits_length k : forall n, length (fix_digits k n) = k.
Proof. induction k as [|k IH]; intro n; [reflexivity|]. cbn [fix_digits]. rewrite app_length, IH. cbn [length]. lia. Qed.
Lemma fix_digits_digits k : forall n, all_digits (fix_digits k n).
Proof.
  unfold all_digits. induction k as [|k IH]; intro n; [reflexivity|]. cbn [fix_digits]. rewrite forallb_app, IH. cbn [forallb].
  rewrite (proj1 (digit_char_ok (n mod 10) ltac:(apply N.mod_lt; lia))). reflexivity.
Qed.
Lemma fix_digits_val k : forall n, digits_val (fix_digits k n) = Z.of_N (n mod 10 ^ N.of_nat k).
Proof.
  induction k as [|k IH]; intro n.
  - cbn [fix_digits]. change (10 ^ N.of_nat 0)%N with 1%N. rewrite N.mod_1_r. reflexivity.
  - cbn [fix_digits]. rewrite digits_val_app, IH. cbn [length].
    assert (D := proj2 (digit_char_ok (n mod 10) ltac:(apply N.mod_lt; lia))).
    unfold digits_val at 1. cbn [fold_left]. rewrite D. rewrite Nat2N.inj_succ, N.pow_succ_r'.
    assert (P : (10 ^ N.of_nat k <> 0)%N) by (apply N.pow_nonzero; lia).
    rewrite N.mod_mul_r by (lia || exact P). lia.
Qed.

Lemma ndig_spec n : (0 < n)%N -> (10 ^ (ndig n - 1) <= Z.of_N n < 10 ^ ndig n)%Z /\ (1 <= ndig n)%Z.
Proof.
  unfold ndig, str_N.
  assert (G : forall f n, (0 < n)%N -> (n < 2 ^ N.of_nat f)%N ->
    (10 ^ (Z.of_nat (length (dec_digits f n)) - 1) <= Z.of_N n < 10 ^ Z.of_nat (length (dec_digits f n)))%Z /\ (1 <= Z.of_nat (length (dec_digits f n)))%Z).
  { clear n. induction f as [|f IH]; intros n P B; [change (2 ^ N.of_nat 0)%N with 1%N in B; lia|].
    cbn [dec_digits]. destruct (N.ltb_spec n 10) as [L|L].
    - cbn [length]. change (Z.of_nat 1) with 1%Z. change (10 ^ (1 - 1))%Z with 1%Z. change (10 ^ 1)%Z with 10%Z. lia.
    - assert (P' : (0 < n / 10)%N). { assert (0 <> n / 10)%N; [|lia]. intro K. symmetry in K. apply N.div_small_iff in K; lia. }
      assert (B' : (n / 10 < 2 ^ N.of_nat f)%N).
      { rewrite Nat2N.inj_succ, N.pow_succ_r' in B. apply N.div_lt_upper_bound; [lia|]. lia. }
      destruct (IH _ P' B') as [[A C] L1]. rewrite app_length. cbn [length]. rewrite Nat.add_1_r, Nat2Z.inj_succ.
      set (k := Z.of_nat (length (dec_digits f (n / 10)))) in *.
      replace (Z.succ k - 1)%Z with (Z.succ (k - 1)) by lia. rewrite !Z.pow_succ_r by lia.
      assert (DM := N.div_mod n 10 ltac:(lia)). assert (ML := N.mod_lt n 10 ltac:(lia)). lia. }
  intro P. apply G; [exact P|]. rewrite Nat2N.inj_succ, N2Nat.id. apply N.log2_spec. exact P.
Qed.

(** * Powers of ten *)
Open Scope Q_scope.
Lemma p10_pos k : 0 < 10 ^ k.
Proof. apply Qpower_0_lt. reflexivity. Qed.
Lemma p10_plus a b : 10 ^ (a + b) == 10 ^ a * 10 ^ b.
Proof. apply Qpower_plus. discriminate. Qed.
Lemma p10_Z k : (0 <= k)%Z -> 10 ^ k == inject_Z (10 ^ k).
Proof. intro H. rewrite Zpower_Qpower by exact H. reflexivity. Qed.
Lemma p10_ge1 k : (0 <= k)%Z -> 1 <= 10 ^ k.
Proof.
  intro H. rewrite p10_Z by exact H. change 1 with (inject_Z 1). rewrite <- Zle_Qle. assert (0 < 10 ^ k)%Z by (apply Z.pow_pos_nonneg; lia). lia.
Qed.
Lemma p10_le a b : (a <= b)%Z -> 10 ^ a <= 10 ^ b.
Proof.
  intro H. replace b with (a + (b - a))%Z by lia. rewrite p10_plus. assert (A := p10_pos a). assert (B := p10_ge1 (b - a) ltac:(lia)).
  rewrite <- (Qmult_1_r (10 ^ a)) at 1. apply Qmult_le_l; assumption.
Qed.
Lemma p10_lt_inv a b : 10 ^ a < 10 ^ b -> (a < b)%Z.
Proof. intro H. destruct (Z_lt_le_dec a b) as [L|L]; [exact L|]. apply p10_le in L. exfalso. apply (Qlt_irrefl (10 ^ a)). now apply Qlt_le_trans with (10 ^ b). Qed.

(** * The exponent *)
Lemma expo10_spec q : ~ q == 0 -> 10 ^ expo10 q <= Qabs q < 10 ^ (expo10 q + 1).
Proof.
  intro N. destruct q as [n d]. unfold expo10. cbn [Qnum Qden].
  assert (NZ : n <> 0%Z). { intros ->. apply N. reflexivity. }
  destruct (ndig_spec (Z.abs_N n) ltac:(lia)) as [[A B] LA]. destruct (ndig_spec (N.pos d) ltac:(lia)) as [[C D] LD].
  rewrite N2Z.inj_abs_N in A, B. set (a := ndig (Z.abs_N n)) in *. set (b := ndig (N.pos d)) in *.
  assert (E : Qabs (n # d) == inject_Z (Z.abs n) / inject_Z (Z.pos d)).
  { unfold Qabs, Qdiv, Qeq, inject_Z, Qmult, Qinv. cbn [Qnum Qden]. lia. }
  assert (PD : 0 < inject_Z (Z.pos d)) by reflexivity.
  assert (UP : Qabs (n # d) < 10 ^ (a - b + 1)).
  { rewrite E. apply Qlt_shift_div_r; [exact PD|].
    apply Qlt_le_trans with (10 ^ a).
    - rewrite p10_Z by lia. rewrite <- Zlt_Qlt. exact B.
    - replace a with ((a - b + 1) + (b - 1))%Z at 1 by lia. rewrite p10_plus. apply Qmult_le_l; [apply p10_pos|].
      rewrite p10_Z by lia. rewrite <- Zle_Qle. lia. }
  assert (LO : 10 ^ (a - b - 1) <= Qabs (n # d)).
  { rewrite E. apply Qle_shift_div_l; [exact PD|].
    apply Qle_trans with (10 ^ (a - 1)).
    - replace (a - 1)%Z with ((a - b - 1) + b)%Z by lia. rewrite p10_plus. apply Qmult_le_l; [apply p10_pos|].
      rewrite p10_Z by lia. rewrite <- Zle_Qle. lia.
    - rewrite p10_Z by lia. rewrite <- Zle_Qle. lia. }
  destruct (Qle_bool (10 ^ (a - b)) (Qabs (n # d))) eqn:K.
  - apply Qle_bool_iff in K. split; assumption.
  - split; [exact LO|]. replace (a - b - 1 + 1)%Z with (a - b)%Z by lia. apply Qnot_le_lt. intro L. apply Qle_bool_iff in L. congruence.
Qed.

(** * Rounding *)
Lemma nearest_Q_bound y : Qabs (inject_Z (nearest_Q y) - y) <= 1 # 2.
Proof.
  unfold nearest_Q. assert (A := Qfloor_le y). assert (B := Qlt_floor y). rewrite inject_Z_plus in B. change (inject_Z 1) with 1 in B.
  set (n := Qfloor y) in *. clearbody n.
  apply Qabs_Qle_condition.
  destruct (Qcompare_spec (y - inject_Z n) (1 # 2)) as [K|K|K]; [destruct (Z.even n)|..]; try rewrite inject_Z_plus; change (inject_Z 1) with 1; split; lra.
Qed.
Lemma nearest_Q_int z : nearest_Q (inject_Z z) = z.
Proof.
  unfold nearest_Q. rewrite Qfloor_Z. destruct (Qcompare_spec (inject_Z z - inject_Z z) (1 # 2)) as [K|K|K]; [exfalso; lra|reflexivity|exfalso; lra].
Qed.
Lemma nearest_Q_comp x y : x == y -> nearest_Q x = nearest_Q y.
Proof. intro E. unfold nearest_Q. rewrite (Qfloor_comp _ _ E). rewrite (Qcompare_comp (x - inject_Z (Qfloor y)) (y - inject_Z (Qfloor y)) ltac:(rewrite E; reflexivity) (1 # 2) (1 # 2) ltac:(reflexivity)). reflexivity. Qed.
Lemma nearest_Q_mono x y : x <= y -> (nearest_Q x <= nearest_Q y)%Z.
Proof.
  intro L. destruct (Z_le_gt_dec (nearest_Q x) (nearest_Q y)) as [K|K]; [exact K|exfalso].
  assert (BX := nearest_Q_bound x). assert (BY := nearest_Q_bound y). apply Qabs_Qle_condition in BX, BY.
  assert (G : inject_Z (nearest_Q y) + 1 <= inject_Z (nearest_Q x)).
  { change 1 with (inject_Z 1). rewrite <- inject_Z_plus, <- Zle_Qle. lia. }
  assert (E : x == y) by lra. apply nearest_Q_comp in E. lia.
Qed.

(** * Digits and exponent *)
Definition scaled (d : nat) (q : Q) : Q := Qabs q * 10 ^ (Z.of_nat d - expo10 q).

Lemma scaled_range d q : ~ q == 0 -> inject_Z (10 ^ Z.of_nat d) <= scaled d q < inject_Z (10 ^ Z.of_nat (S d)).
Proof.
  intro N. destruct (expo10_spec q N) as [A B]. unfold scaled. rewrite <- !p10_Z by lia.
  assert (P := p10_pos (Z.of_nat d - expo10 q)). split.
  - replace (Z.of_nat d) with (expo10 q + (Z.of_nat d - expo10 q))%Z at 1 by lia. rewrite p10_plus. apply Qmult_le_compat_r; [exact A|]. now apply Qlt_le_weak.
  - replace (Z.of_nat (S d)) with ((expo10 q + 1) + (Z.of_nat d - expo10 q))%Z by lia. rewrite p10_plus. apply Qmult_lt_r; assumption.
Qed.
Lemma nearest_range d q : ~ q == 0 -> (10 ^ Z.of_nat d <= nearest_Q (scaled d q) <= 10 ^ Z.of_nat (S d))%Z.
Proof.
  intro N. destruct (scaled_range d q N) as [A B]. apply Qlt_le_weak in B. apply nearest_Q_mono in A, B. rewrite nearest_Q_int in A, B. lia.
Qed.

Lemma N_pow10 d : Z.of_N (10 ^ N.of_nat d) = (10 ^ Z.of_nat d)%Z.
Proof. rewrite N2Z.inj_pow, nat_N_Z. reflexivity. Qed.

Lemma sci_spec d q m e : ~ q == 0 -> sci d q = (m, e) ->
  (10 ^ N.of_nat d <= m < 10 ^ N.of_nat (S d))%N /\ (expo10 q <= e <= expo10 q + 1)%Z /\
  inject_Z (Z.of_N m) * 10 ^ (e - Z.of_nat d) == inject_Z (nearest_Q (scaled d q)) * 10 ^ (expo10 q - Z.of_nat d).
Proof.
  intros N E. unfold sci in E. destruct (Qeq_bool q 0) eqn:Z0; [apply Qeq_bool_iff in Z0; contradiction|]. fold (scaled d q) in E.
  assert (R := nearest_range d q N). rewrite <- !N_pow10 in R. set (k := nearest_Q (scaled d q)) in *.
  assert (P : (10 ^ N.of_nat d < 10 ^ N.of_nat (S d))%N) by (apply N.pow_lt_mono_r; lia).
  destruct (N.leb_spec (10 ^ N.of_nat (S d)) (Z.to_N k)) as [L|L]; injection E as <- <-.
  - split; [lia|]. split; [lia|]. assert (K : k = (10 ^ Z.of_nat (S d))%Z) by (rewrite <- N_pow10; lia). rewrite K, N_pow10.
    rewrite <- !p10_Z by lia. rewrite <- !p10_plus. replace (Z.of_nat (S d) + (expo10 q - Z.of_nat d))%Z with (Z.of_nat d + (expo10 q + 1 - Z.of_nat d))%Z by lia. reflexivity.
  - split; [lia|]. split; [lia|]. rewrite Z2N.id by lia. reflexivity.
Qed.

(** The number shown. *)
Lemma sci_zero d q : q == 0 -> sci d q = (0%N, 0%Z).
Proof. intro H. unfold sci. apply Qeq_bool_iff in H. now rewrite H. Qed.

Lemma sci_value_zero d q : q == 0 -> sci_value d q == 0.
Proof. intro H. unfold sci_value. rewrite sci_zero by exact H. change (inject_Z (Z.of_N 0)) with 0. ring. Qed.

Lemma sci_value_pos d q : 0 < q -> sci_value d q == inject_Z (nearest_Q (scaled d q)) * 10 ^ (expo10 q - Z.of_nat d).
Proof.
  intro P. unfold sci_value. destruct (sci d q) as [m e] eqn:E. apply sci_spec in E as (_ & _ & E); [|intro K; rewrite K in P; discriminate].
  assert (L : Qle_bool 0 q = true) by (apply Qle_bool_iff; lra). rewrite L, E. ring.
Qed.

(** The relative error is at most half a unit of the last digit shown. *)
Lemma sci_value_error d q : Qabs (sci_value d q - q) <= Qabs q * 10 ^ (- Z.of_nat d) * (1 # 2).
Proof.
  destruct (Qeq_dec q 0) as [Z0|N].
  - rewrite sci_value_zero, Z0 by exact Z0. discriminate.
  - assert (G : Qabs (inject_Z (nearest_Q (scaled d q)) * 10 ^ (expo10 q - Z.of_nat d) - Qabs q) <= Qabs q * 10 ^ (- Z.of_nat d) * (1 # 2)).
    { assert (E : Qabs q == scaled d q * 10 ^ (expo10 q - Z.of_nat d)).
      { unfold scaled. rewrite <- Qmult_assoc, <- p10_plus. replace (Z.of_nat d - expo10 q + (expo10 q - Z.of_nat d))%Z with 0%Z by lia. rewrite Qmult_1_r. reflexivity. }
      setoid_replace (inject_Z (nearest_Q (scaled d q)) * 10 ^ (expo10 q - Z.of_nat d) - Qabs q)
        with ((inject_Z (nearest_Q (scaled d q)) - scaled d q) * 10 ^ (expo10 q - Z.of_nat d)) by (rewrite E at 1; ring).
      rewrite Qabs_Qmult. rewrite (Qabs_pos (10 ^ _)) by (apply Qlt_le_weak, p10_pos).
      apply Qle_trans with ((1 # 2) * 10 ^ (expo10 q - Z.of_nat d)).
      - apply Qmult_le_compat_r; [apply nearest_Q_bound|]. apply Qlt_le_weak, p10_pos.
      - setoid_replace (Qabs q * 10 ^ (- Z.of_nat d) * (1 # 2)) with ((1 # 2) * (Qabs q * 10 ^ (- Z.of_nat d))) by ring.
        apply Qmult_le_l; [reflexivity|]. replace (expo10 q - Z.of_nat d)%Z with (expo10 q + (- Z.of_nat d))%Z by lia. rewrite p10_plus.
        apply Qmult_le_compat_r; [apply (proj1 (expo10_spec q N))|]. apply Qlt_le_weak, p10_pos. }
    unfold sci_value. destruct (sci d q) as [m e] eqn:E. apply sci_spec in E as (_ & _ & E); [|exact N]. rewrite E. clear E.
    destruct (Qle_bool 0 q) eqn:L.
    + apply Qle_bool_iff in L. rewrite !(Qabs_pos q) in G by exact L. rewrite !(Qabs_pos q) by exact L. rewrite Qmult_1_l. exact G.
    + assert (L' : q <= 0). { destruct (Qlt_le_dec 0 q) as [K|K]; [|exact K]. apply Qlt_le_weak, Qle_bool_iff in K. congruence. }
      rewrite !(Qabs_neg q) in G by exact L'. rewrite !(Qabs_neg q) by exact L'.
      setoid_replace (- (1) * (inject_Z (nearest_Q (scaled d q)) * 10 ^ (expo10 q - Z.of_nat d)) - q)
        with (- (inject_Z (nearest_Q (scaled d q)) * 10 ^ (expo10 q - Z.of_nat d) - - q)) by ring. rewrite Qabs_opp. exact G.
Qed.

Lemma expo10_mono p q : 0 < p -> p <= q -> (expo10 p <= expo10 q)%Z.
Proof.
  intros P L. destruct (expo10_spec p) as [A _]; [intro K; rewrite K in P; discriminate|].
  destruct (expo10_spec q) as [_ B]; [intro K; rewrite K in L; lra|]. rewrite Qabs_pos in A by lra. rewrite Qabs_pos in B by lra.
  assert (K : (expo10 p < expo10 q + 1)%Z) by (apply p10_lt_inv; lra). lia.
Qed.

Lemma sci_value_bounds d q : 0 < q -> 10 ^ expo10 q <= sci_value d q <= 10 ^ (expo10 q + 1).
Proof.
  intro P. rewrite sci_value_pos by exact P. destruct (nearest_range d q) as [A B]; [intro K; rewrite K in P; discriminate|].
  rewrite Zle_Qle in A, B. rewrite <- p10_Z in A, B by lia. assert (PP := p10_pos (expo10 q - Z.of_nat d)). split.
  - replace (expo10 q) with (Z.of_nat d + (expo10 q - Z.of_nat d))%Z at 1 by lia. rewrite p10_plus. apply Qmult_le_compat_r; [exact A|]. now apply Qlt_le_weak.
  - replace (expo10 q + 1)%Z with (Z.of_nat (S d) + (expo10 q - Z.of_nat d))%Z by lia. rewrite p10_plus. apply Qmult_le_compat_r; [exact B|]. now apply Qlt_le_weak.
Qed.

(** Printing keeps the order. *)
Lemma sci_value_mono d p q : 0 <= p -> p <= q -> sci_value d p <= sci_value d q.
Proof.
  intros P L. destruct (Qeq_dec p 0) as [Z0|N].
  - rewrite (sci_value_zero d p Z0). destruct (Qeq_dec q 0) as [Z1|N1]; [rewrite (sci_value_zero d q Z1); apply Qle_refl|].
    assert (Q0 : 0 < q) by (destruct (Qlt_le_dec 0 q); [assumption|exfalso; apply N1; lra]).
    destruct (sci_value_bounds d q Q0) as [A _]. assert (B := p10_pos (expo10 q)). lra.
  - assert (P0 : 0 < p) by (destruct (Qlt_le_dec 0 p); [assumption|exfalso; apply N; lra]).
    assert (Q0 : 0 < q) by lra.
    destruct (Z.eq_dec (expo10 p) (expo10 q)) as [E|E].
    + rewrite !sci_value_pos by assumption. rewrite E. apply Qmult_le_compat_r; [|apply Qlt_le_weak, p10_pos].
      rewrite <- Zle_Qle. apply nearest_Q_mono. unfold scaled. rewrite E. apply Qmult_le_compat_r; [|apply Qlt_le_weak, p10_pos].
      rewrite !Qabs_pos by lra. exact L.
    + assert (M := expo10_mono p q P0 L). destruct (sci_value_bounds d p P0) as [_ A]. destruct (sci_value_bounds d q Q0) as [B _].
      assert (C := p10_le (expo10 p + 1) (expo10 q) ltac:(lia)). lra.
Qed.

(** * The text *)
Lemma exp_digits_ok n : exp_digits n <> [] /\ all_digits (exp_digits n) /\ digits_val (exp_digits n) = Z.of_N n.
Proof.
  unfold exp_digits. destruct (str_N_ok n) as (A & B & C). destruct (n <? 10)%N; [|auto]. split; [discriminate|]. split; [exact B|].
  change ("0"%char :: str_N n) with (T "0" ++ str_N n). rewrite digits_val_app, C. reflexivity.
Qed.
Lemma exp_digits_length n : (n < 100)%N -> length (exp_digits n) = 2%nat.
Proof.
  intro H. unfold exp_digits. destruct (N.ltb_spec n 10) as [L|L].
  - unfold str_N. cbn [dec_digits]. apply N.ltb_lt in L. rewrite L. reflexivity.
  - destruct (ndig_spec n ltac:(lia)) as [[A B] C]. unfold ndig in *. set (k := length (str_N n)) in *.
    destruct (Nat.eq_dec k 2) as [E|E]; [exact E|exfalso]. destruct (Nat.eq_dec k 1) as [E1|E1]; [rewrite E1 in B; change (10 ^ Z.of_nat 1)%Z with 10%Z in B; lia|].
    assert (D : (10 ^ 2 <= 10 ^ (Z.of_nat k - 1))%Z) by (apply Z.pow_le_mono_r; lia). change (10 ^ 2)%Z with 100%Z in D. lia.
Qed.

Lemma sci_text_length d m e : (Z.abs e < 100)%Z -> length (sci_text d m e) = (d + 6)%nat.
Proof.
  intro H. unfold sci_text. rewrite !app_length, !fix_digits_length, exp_digits_length by lia.
  destruct (e <? 0)%Z; cbn [T list_ascii_of_string length]; lia.
Qed.

(** The text is read as [sci_value]. *)
Lemma sci_text_spelled s d m e : sgn_text s ++ sci_text d m e =
  spelled s (fix_digits 1 (m / 10 ^ N.of_nat d)) (fix_digits d m) (ExpE false (if (e <? 0)%Z then Minus else Plus) (exp_digits (Z.abs_N e))).
Proof. unfold sci_text, spelled, exp_text. destruct (e <? 0)%Z; reflexivity. Qed.

Lemma sci_text_worth s d m e : (m < 10 ^ N.of_nat (S d))%N ->
  exists v, py_float (sgn_text s ++ sci_text d m e) = Some v /\ v == sgn_val s * (inject_Z (Z.of_N m) * 10 ^ (e - Z.of_nat d)).
Proof.
  intro M. rewrite sci_text_spelled. destruct (exp_digits_ok (Z.abs_N e)) as (A & B & C).
  destruct (py_float_spelled s (fix_digits 1 (m / 10 ^ N.of_nat d)) (fix_digits d m)
    (ExpE false (if (e <? 0)%Z then Minus else Plus) (exp_digits (Z.abs_N e)))) as (v & V & W).
  { apply fix_digits_digits. } { apply fix_digits_digits. } { cbn [fix_digits app]. discriminate. } { split; assumption. } { discriminate. }
  exists v. split; [exact V|]. rewrite W. unfold worth. rewrite !fix_digits_val, fix_digits_length.
  assert (P : (10 ^ N.of_nat d <> 0)%N) by (apply N.pow_nonzero; lia).
  rewrite N.mod_small.
  2:{ apply N.div_lt_upper_bound; [exact P|]. rewrite Nat2N.inj_succ, N.pow_succ_r' in M. change (10 ^ N.of_nat 1)%N with 10%N. lia. }
  assert (X : exp_val (ExpE false (if (e <? 0)%Z then Minus else Plus) (exp_digits (Z.abs_N e))) == 10 ^ e).
  { destruct (Z.ltb_spec e 0); cbn [exp_val]; rewrite C, N2Z.inj_abs_N.
    - replace (Z.abs e) with (- e)%Z by lia. rewrite Qpower_opp. apply Qinv_involutive.
    - replace (Z.abs e) with e by lia. reflexivity. }
  rewrite X. rewrite <- Qmult_assoc. apply Qmult_comp; [reflexivity|].
  assert (D : 10 ^ (e - Z.of_nat d) == / 10 ^ Z.of_nat d * 10 ^ e).
  { replace (e - Z.of_nat d)%Z with (- Z.of_nat d + e)%Z by lia. rewrite p10_plus, Qpower_opp. reflexivity. }
  rewrite D, Qmult_assoc. apply Qmult_comp; [|reflexivity].
  assert (NZ := pow10_nz (Z.of_nat d)).
  assert (DM : inject_Z (Z.of_N m) == inject_Z (Z.of_N (m / 10 ^ N.of_nat d)) * 10 ^ Z.of_nat d + inject_Z (Z.of_N (m mod 10 ^ N.of_nat d))).
  { rewrite p10_Z by lia. rewrite <- inject_Z_mult, <- inject_Z_plus. rewrite <- N_pow10. rewrite <- N2Z.inj_mul, <- N2Z.inj_add.
    rewrite N.mul_comm, <- N.div_mod by exact P. reflexivity. }
  rewrite DM. field. exact NZ.
Qed.

Lemma sci_m_bound d q m e : sci d q = (m, e) -> (m < 10 ^ N.of_nat (S d))%N.
Proof.
  intro E. destruct (Qeq_dec q 0) as [Z0|N].
  - rewrite sci_zero in E by exact Z0. injection E as <- <-. assert (10 ^ N.of_nat (S d) <> 0)%N by (apply N.pow_nonzero; lia). lia.
  - apply sci_spec in E; [tauto|exact N].
Qed.

(** [fmt_e] is read back as [sci_value]. *)
Lemma py_float_fmt_e d q : exists v, py_float (fmt_e d q) = Some v /\ v == sci_value d q.
Proof.
  unfold fmt_e, sci_value. destruct (sci d q) as [m e] eqn:E. apply sci_m_bound in E.
  destruct (sci_text_worth (if Qle_bool 0 q then NoSign else Minus) d m e E) as (v & V & W).
  exists v. destruct (Qle_bool 0 q); split; assumption.
Qed.

(** The exponent shown, and when it has two digits. *)
Lemma sci_expo_small d q m e : (q == 0 \/ 10 ^ (-99) <= Qabs q < 10 ^ 99) -> sci d q = (m, e) -> (Z.abs e < 100)%Z.
Proof.
  intros H E. destruct (Qeq_dec q 0) as [Z0|N].
  - rewrite sci_zero in E by exact Z0. injection E as <- <-. reflexivity.
  - apply sci_spec in E as (_ & B & _); [|exact N]. destruct H as [H|[H1 H2]]; [contradiction|].
    destruct (expo10_spec q N) as [C D]. assert (K1 : (-99 < expo10 q + 1)%Z) by (apply p10_lt_inv; now apply Qle_lt_trans with (Qabs q)).
    assert (K2 : (expo10 q < 99)%Z) by (apply p10_lt_inv; now apply Qle_lt_trans with (Qabs q)). lia.
Qed.
Lemma fmt_e_sp_length d q : (q == 0 \/ 10 ^ (-99) <= Qabs q < 10 ^ 99) -> length (fmt_e_sp d q) = (d + 7)%nat.
Proof.
  intro H. unfold fmt_e_sp. destruct (sci d q) as [m e] eqn:E. apply sci_expo_small in E; [|exact H]. rewrite app_length, sci_text_length by exact E.
  destruct (Qle_bool 0 q); cbn [T list_ascii_of_string length]; lia.
Qed.
