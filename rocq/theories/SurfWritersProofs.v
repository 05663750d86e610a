(** Facts about the surface writers. *)
From Coq Require Import Reals Ratan R_Ifp Lra Lia QArith Qreals ZifyBool.
From Verif Require Import PyStr PyStrFacts FortranNumber FortranNumberProofs PyInt PyIntFacts Formatter FormatterProofs
  SurfModel GeomSpec SurfSpec SurfProofs CellText FlattenModel CellWritersProofs SurfWriters TargetSpec.
Open Scope nat_scope.
Open Scope list_scope.

(** * Words of texts put together *)

Definition starts_space (b : text) : bool := match b with c :: _ => is_space c | [] => true end.
Definition ends_space (a : text) : bool := match rev a with c :: _ => is_space c | [] => true end.

Lemma words_sep a b : ends_space a || starts_space b = true -> words (a ++ b) = words a ++ words b.
Proof.
  intro H. apply orb_prop in H as [H|H].
  - unfold ends_space in H. destruct (rev a) as [|c r] eqn:E.
    + assert (a = []) by (rewrite <- (rev_involutive a), E; reflexivity). now subst a.
    + assert (Ea : a = rev r ++ [c]) by (rewrite <- (rev_involutive a), E; reflexivity). rewrite Ea, <- app_assoc. cbn [app].
      rewrite words_app_space by assumption. rewrite words_app_space by assumption. cbn [words]. now rewrite app_nil_r.
  - destruct b as [|c b]; [now rewrite !app_nil_r|]. cbn [starts_space] in H. rewrite words_app_space by assumption.
    f_equal. symmetry. now apply words_cons_space.
Qed.

Lemma words_spread l : words (spread l) = flat_map words l.
Proof.
  unfold spread. induction l as [|w [|v l] IH]; [reflexivity|cbn; now rewrite app_nil_r|].
  change (join_sp (w :: v :: l)) with (w ++ blank :: join_sp (v :: l)).
  rewrite words_app_space by reflexivity. rewrite IH. reflexivity.
Qed.

Definition word (w : text) : Prop := w <> [] /\ nonspace w.
Lemma words_word w : word w -> words w = [w].
Proof. intros [N S]. now apply words_single. Qed.

Lemma words_words l : Forall word l -> flat_map words l = l.
Proof. induction 1 as [|w l H F IH]; [reflexivity|]. cbn [flat_map]. now rewrite IH, words_word. Qed.

Lemma Forall_map_all {A B} (P : B -> Prop) (f : A -> B) l : (forall x, P (f x)) -> Forall P (map f l).
Proof. intro H. apply Forall_forall. intros y I. apply in_map_iff in I as (x & <- & _). apply H. Qed.

Lemma words_numbers str l : (forall x, word (str x)) -> words (numbers str l) = map str l.
Proof. intro H. unfold numbers. rewrite words_spread. apply words_words. now apply Forall_map_all. Qed.

Lemma words_padded str l : (forall x, word (str x)) -> words (flat_map (fun c : R => T " " ++ str c ++ T " ") l) = map str l.
Proof.
  intro H. induction l as [|x l IH]; [reflexivity|]. cbn [flat_map map]. rewrite words_sep.
  - rewrite IH. rewrite words_sep by reflexivity. rewrite words_sep by (rewrite orb_true_iff; right; reflexivity).
    rewrite (words_word (str x)) by apply H. reflexivity.
  - rewrite orb_true_iff. left. unfold ends_space. rewrite !rev_app_distr. reflexivity.
Qed.

Lemma word_str_Z z : word (str_Z z).
Proof.
  assert (D : forall d, all_digits d -> nonspace d).
  { intros d. unfold all_digits, nonspace. rewrite !forallb_forall. intros H x I. specialize (H x I).
    destruct (is_space x) eqn:S; [|reflexivity]. apply space_not_digit in S. congruence. }
  destruct (str_Z_shape z) as (d & N & H & [->| ->]); split; try assumption; try discriminate; auto.
  apply D in H. unfold nonspace in *. cbn [forallb]. exact H.
Qed.

(** * Fixed point *)

Lemma int_part_eq z y : (IZR z <= y < IZR z + 1)%R -> Int_part y = z.
Proof.
  intros [A B]. destruct (base_Int_part y) as [C D].
  assert (L1 : (Int_part y < z + 1)%Z) by (apply lt_IZR; rewrite plus_IZR; lra).
  assert (L2 : (z < Int_part y + 1)%Z) by (apply lt_IZR; rewrite plus_IZR; lra). lia.
Qed.

Lemma nearest_int z : nearest (IZR z) = z.
Proof. unfold nearest. rewrite (int_part_eq z) by lra. destruct (Rlt_dec (IZR z - IZR z) (1 / 2)); [reflexivity|lra]. Qed.

Lemma nearest_bound y : (Rabs (IZR (nearest y) - y) <= 1 / 2)%R.
Proof.
  unfold nearest. destruct (base_Int_part y) as [C D].
  destruct (Rlt_dec (y - IZR (Int_part y)) (1 / 2)); [apply Rabs_le; lra|].
  destruct (Rlt_dec (1 / 2) (y - IZR (Int_part y))); [rewrite plus_IZR; apply Rabs_le; lra|].
  destruct (Z.even (Int_part y)); rewrite ?plus_IZR; apply Rabs_le; lra.
Qed.

Lemma nearest_nonneg y : (0 <= y)%R -> (0 <= nearest y)%Z.
Proof.
  intro P. assert (B := nearest_bound y). destruct (Z.leb_spec 0 (nearest y)) as [H|H]; [exact H|exfalso].
  assert (L : (nearest y <= -1)%Z) by lia. apply IZR_le in L. unfold Rabs in B. destruct (Rcase_abs (IZR (nearest y) - y)); lra.
Qed.

(** The number printed. *)
Definition round6 (x : R) : R :=
  ((if Rlt_dec x 0 then -1 else 1) * IZR (nearest (Rabs x * 1000000)) / 1000000)%R.

Lemma round6_bound x : (Rabs (round6 x - x) <= / 2000000)%R.
Proof.
  unfold round6. assert (B := nearest_bound (Rabs x * 1000000)). set (n := IZR (nearest (Rabs x * 1000000))) in *.
  assert (B2 : (- (1 / 2) <= n - Rabs x * 1000000 <= 1 / 2)%R)
    by (revert B; generalize (n - Rabs x * 1000000)%R; intros y B; unfold Rabs in B; destruct (Rcase_abs y); lra).
  apply Rabs_le. destruct (Rlt_dec x 0) as [L|L]; [rewrite Rabs_left in B2 by assumption|rewrite Rabs_right in B2 by lra]; lra.
Qed.

(** At most six digits after the point. *)
Definition fine6 (x : R) : Prop := exists z, x = (IZR z / 1000000)%R.

Lemma round6_fine x : fine6 x -> round6 x = x.
Proof.
  intros [z ->]. unfold round6. destruct (Rlt_dec (IZR z / 1000000) 0) as [L|L].
  - rewrite Rabs_left by assumption. replace (- (IZR z / 1000000) * 1000000)%R with (IZR (- z)) by (rewrite opp_IZR; lra).
    rewrite nearest_int, opp_IZR. lra.
  - rewrite Rabs_right by lra. replace (IZR z / 1000000 * 1000000)%R with (IZR z) by lra. rewrite nearest_int. lra.
Qed.

Lemma six_digits_ok n : all_digits (six_digits n) /\ digits_val (six_digits n) = Z.of_N (n mod 1000000) /\ length (six_digits n) = 6.
Proof.
  unfold six_digits.
  assert (L : forall k, (k mod 10 < 10)%N) by (intro k; apply N.mod_lt; lia).
  split; [|split; [|reflexivity]].
  - unfold all_digits. cbn [forallb]. rewrite !(proj1 (digit_char_ok _ (L _))). reflexivity.
  - unfold digits_val. cbn [fold_left]. rewrite !(proj2 (digit_char_ok _ (L _))).
    assert (E : (n mod 1000000 = n / 100000 mod 10 * 100000 + n / 10000 mod 10 * 10000 + n / 1000 mod 10 * 1000
        + n / 100 mod 10 * 100 + n / 10 mod 10 * 10 + n mod 10)%N).
    { assert (S : forall k, (k = 10 * (k / 10) + k mod 10)%N) by (intro k; apply N.div_mod; lia).
      assert (Q1 : (n / 100 = n / 10 / 10)%N) by (rewrite N.div_div by lia; reflexivity).
      assert (Q2 : (n / 1000 = n / 10 / 10 / 10)%N) by (rewrite !N.div_div by lia; reflexivity).
      assert (Q3 : (n / 10000 = n / 10 / 10 / 10 / 10)%N) by (rewrite !N.div_div by lia; reflexivity).
      assert (Q4 : (n / 100000 = n / 10 / 10 / 10 / 10 / 10)%N) by (rewrite !N.div_div by lia; reflexivity).
      assert (Q5 : (n / 1000000 = n / 10 / 10 / 10 / 10 / 10 / 10)%N) by (rewrite !N.div_div by lia; reflexivity).
      assert (D := N.div_mod n 1000000 ltac:(lia)). rewrite Q5 in D. rewrite Q1, Q2, Q3, Q4.
      set (a1 := (n / 10)%N) in *. set (a2 := (a1 / 10)%N) in *. set (a3 := (a2 / 10)%N) in *. set (a4 := (a3 / 10)%N) in *.
      set (a5 := (a4 / 10)%N) in *. assert (S0 := S n). assert (S1 := S a1). assert (S2 := S a2). assert (S3 := S a3).
      assert (S4 := S a4). assert (S5 := S a5). fold a1 in S0. fold a2 in S1. fold a3 in S2. fold a4 in S3. fold a5 in S4. lia. }
    lia.
Qed.

Lemma fmt_f_spelled x : exists sg, fmt_f x =
  spelled sg (str_N (Z.to_N (nearest (Rabs x * 1000000)) / 1000000)) (six_digits (Z.to_N (nearest (Rabs x * 1000000)))) NoExp /\
  (if Rlt_dec x 0 then sgn_val sg = -1 else sgn_val sg = 1)%Q /\ (sgn_text sg = [] \/ sgn_text sg = T "-").
Proof.
  unfold fmt_f, spelled. cbn [exp_text]. destruct (Rlt_dec x 0).
  - exists Minus. rewrite app_nil_r. split; [reflexivity|]. split; [reflexivity|now right].
  - exists NoSign. rewrite app_nil_r. split; [reflexivity|]. split; [reflexivity|now left].
Qed.

Lemma to_float_fmt_f x : to_float (fmt_f x) = Some (round6 x).
Proof.
  destruct (fmt_f_spelled x) as (sg & E & V & _). set (m := Z.to_N (nearest (Rabs x * 1000000))) in *.
  destruct (str_N_ok (m / 1000000)) as (N1 & D1 & V1). destruct (six_digits_ok m) as (D2 & V2 & L2).
  destruct (py_float_spelled sg (str_N (m / 1000000)) (six_digits m) NoExp) as (q & Hq & Eq); auto.
  { intro F. apply app_eq_nil in F as [F _]. contradiction. } { exact I. } { discriminate. }
  unfold to_float. rewrite E, Hq. f_equal. unfold worth in Eq. rewrite V1, V2, L2 in Eq. cbn [exp_val] in Eq.
  assert (M : IZR (nearest (Rabs x * 1000000)) = IZR (Z.of_N m)).
  { unfold m. rewrite Z2N.id; [reflexivity|]. apply nearest_nonneg. assert (P := Rabs_pos x). lra. }
  assert (DM := N.div_mod m 1000000 ltac:(lia)).
  assert (Eq2 : (q == sgn_val sg * (Z.of_N m # 1000000))%Q).
  { rewrite Eq. rewrite Qmult_1_r. apply Qmult_comp; [reflexivity|].
    change (10 ^ Z.of_nat 6)%Q with (1000000 # 1)%Q. unfold inject_Z. unfold Qeq, Qdiv, Qinv, Qmult, Qplus. cbn [Qnum Qden]. nia. }
  rewrite (Qeq_eqR _ _ Eq2), Q2R_mult. unfold round6. rewrite M.
  assert (Y : Q2R (Z.of_N m # 1000000) = (IZR (Z.of_N m) / 1000000)%R) by reflexivity. rewrite Y.
  destruct (Rlt_dec x 0); rewrite V; unfold Q2R; cbn [Qnum Qden]; lra.
Qed.

Lemma fmt_f_word x : word (fmt_f x) /\ forall c, In c (fmt_f x) -> is_digit c = true \/ c = "."%char \/ c = "-"%char.
Proof.
  assert (C : forall c, In c (fmt_f x) -> is_digit c = true \/ c = "."%char \/ c = "-"%char).
  { destruct (fmt_f_spelled x) as (sg & E & _ & S). rewrite E. unfold spelled. cbn [exp_text]. rewrite app_nil_r.
    intros c I. set (m := Z.to_N (nearest (Rabs x * 1000000))) in *.
    destruct (str_N_ok (m / 1000000)) as (_ & D1 & _). destruct (six_digits_ok m) as (D2 & _).
    unfold all_digits in D1, D2. rewrite forallb_forall in D1, D2.
    apply in_app_iff in I as [I|I].
    - destruct S as [S|S]; rewrite S in I; [destruct I|]. destruct I as [<-|[]]. auto.
    - apply in_app_iff in I as [I|I]; [left; auto|]. destruct I as [<-|I]; [auto|left; auto]. }
  split; [|exact C]. split.
  - unfold fmt_f. destruct (Rlt_dec x 0); [discriminate|]. cbn [app].
    destruct (str_N_ok (Z.to_N (nearest (Rabs x * 1000000)) / 1000000)) as (N & _). intro F. apply app_eq_nil in F as [F _]. contradiction.
  - unfold nonspace. apply forallb_forall. intros c I. destruct (C c I) as [H|[H|H]]; [|subst; reflexivity|subst; reflexivity].
    destruct (is_space c) eqn:S; [|reflexivity]. apply space_not_digit in S. congruence.
Qed.

(** * Senses given by functions *)

Lemma same_of_fun f g : (forall p, f p = g p) -> same_sense (of_fun f) (of_fun g).
Proof. intros H p. cbn [neg pos of_fun]. rewrite H. tauto. Qed.

Lemma same_refl s : same_sense s s.
Proof. intro p. tauto. Qed.
