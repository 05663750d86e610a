From Coq Require Import QArith Qpower Qfield.
From Verif Require Import PyStr PyStrFacts FortranNumber.
Open Scope list_scope.

(** * Specification: how numbers are spelled and what they are worth *)

Inductive sgn := NoSign | Plus | Minus.
Definition sgn_text (s : sgn) : text :=
  match s with NoSign => [] | Plus => T "+" | Minus => T "-" end.
Definition sgn_val (s : sgn) : Q := match s with Minus => -1 | _ => 1 end.

Inductive exponent :=
| NoExp
| ExpE (upper : bool) (s : sgn) (d : text)   (* 1.0e5 1.0E+5 1.0e-5 *)
| ExpF (minus : bool) (d : text).            (* 1.0+5 1.0-5 *)

Definition exp_text (e : exponent) : text :=
  match e with
  | NoExp => []
  | ExpE u s d => (if u then T "E" else T "e") ++ sgn_text s ++ d
  | ExpF m d => (if m then T "-" else T "+") ++ d
  end.

Definition exp_val (e : exponent) : Q :=
  match e with
  | NoExp => 1
  | ExpE _ Minus d | ExpF true d => / (10 ^ digits_val d)
  | ExpE _ _ d | ExpF false d => 10 ^ digits_val d
  end.

Definition all_digits (d : text) : Prop := forallb is_digit d = true.

Definition exp_ok (e : exponent) : Prop :=
  match e with NoExp => True | ExpE _ _ d | ExpF _ d => d <> [] /\ all_digits d end.

(** sign, integer part, point, fraction part, exponent *)
Definition spelled (s : sgn) (ip fp : text) (e : exponent) : text :=
  sgn_text s ++ ip ++ "."%char :: fp ++ exp_text e.

Definition worth (s : sgn) (ip fp : text) (e : exponent) : Q :=
  sgn_val s * (inject_Z (digits_val ip) + inject_Z (digits_val fp) / 10 ^ Z.of_nat (length fp)) * exp_val e.

(** * Scanning lemmas *)

Definition nondigit_head (s : text) : Prop :=
  match s with [] => True | c :: _ => is_digit c = false end.

Lemma take_digits_app d s : all_digits d -> nondigit_head s -> take_digits (d ++ s) = (d, s).
Proof.
  intros D N. induction d as [|c d IH].
  - destruct s as [|c s]; [reflexivity|]. simpl in *. now rewrite N.
  - unfold all_digits in *. cbn [forallb] in D. apply andb_prop in D as [D1 D2].
    cbn [app take_digits]. rewrite D1, IH by assumption. reflexivity.
Qed.

Lemma take_digits_all d : all_digits d -> take_digits d = (d, []).
Proof. intro D. rewrite <- (app_nil_r d) at 1. now apply take_digits_app. Qed.

Lemma digit_not c d : is_digit c = true -> is_digit d = false -> Ascii.eqb c d = false.
Proof. intros H1 H2. destruct (Ascii.eqb_spec c d); congruence. Qed.

Lemma take_sign_digits d s : all_digits d -> d <> [] -> take_sign (d ++ s) = (false, d ++ s).
Proof.
  destruct d as [|c d]; [congruence|]. intros D _. unfold all_digits in D. cbn in D. apply andb_prop in D as [D1 _].
  cbn [app take_sign]. rewrite !(digit_not c) by (assumption || reflexivity). reflexivity.
Qed.

Definition sgn_neg (s : sgn) : bool := match s with Minus => true | _ => false end.

Lemma take_sign_sgn s r : (s = NoSign -> match r with [] => True | c :: _ => Ascii.eqb c "-" = false /\ Ascii.eqb c "+" = false end) ->
  take_sign (sgn_text s ++ r) = (sgn_neg s, r).
Proof.
  destruct s; intro H; try reflexivity. specialize (H eq_refl).
  destruct r as [|c r]; [reflexivity|]. cbn. destruct H as [-> ->]. reflexivity.
Qed.

(** Normal form of the exponent after the Fortran spelling has been rewritten. *)
Definition norm (e : exponent) : exponent :=
  match e with
  | ExpF true d => ExpE false Minus d
  | ExpF false d => ExpE false Plus d
  | _ => e
  end.

Lemma norm_val e : exp_val (norm e) = exp_val e.
Proof. destruct e as [| |[]]; reflexivity. Qed.

Definition exp_Z (e : exponent) : Z :=
  match e with
  | NoExp => 0
  | ExpE _ Minus d | ExpF true d => - digits_val d
  | ExpE _ _ d | ExpF false d => digits_val d
  end.

Lemma exp_val_Z e : exp_val e == 10 ^ exp_Z e.
Proof.
  destruct e as [|u s d|[] d]; cbn [exp_val exp_Z]; try reflexivity; try (destruct s; try reflexivity);
  now rewrite Qpower_opp.
Qed.

Lemma parse_exponent_ok e : exp_ok e -> (forall m d, e <> ExpF m d) ->
  parse_exponent (exp_text e) = Some (exp_Z e).
Proof.
  destruct e as [|u s d|m d]; intros H N; [reflexivity| |exfalso; eapply N; reflexivity].
  destruct H as [H1 H2]. unfold exp_text.
  assert (E : parse_exponent ((if u then T "E" else T "e") ++ sgn_text s ++ d) =
      let (neg, r1) := take_sign (sgn_text s ++ d) in
        let (d, r2) := take_digits r1 in
        match d, r2 with
        | _ :: _, [] => Some (signed neg (digits_val d))
        | _, _ => None
        end) by (destruct u; reflexivity).
  rewrite E, take_sign_sgn.
  - rewrite take_digits_all by assumption. destruct d as [|c d]; [congruence|].
    destruct s; reflexivity.
  - intros _. destruct d as [|c d]; [trivial|]. unfold all_digits in H2. cbn in H2. apply andb_prop in H2 as [H2 _].
    split; apply digit_not; auto.
Qed.

Lemma digits_val_app a b : digits_val (a ++ b) = (digits_val a * 10 ^ Z.of_nat (length b) + digits_val b)%Z.
Proof.
  unfold digits_val. rewrite fold_left_app.
  generalize (fold_left (fun acc c => acc * 10 + digit_val c)%Z a 0%Z). intro x.
  assert (G : forall l y, fold_left (fun acc c => acc * 10 + digit_val c)%Z l y
     = (y * 10 ^ Z.of_nat (length l) + fold_left (fun acc c => acc * 10 + digit_val c)%Z l 0)%Z).
  { induction l as [|c l IH]; intro y.
    - cbn. lia.
    - cbn [fold_left length]. rewrite IH, (IH (0 * 10 + digit_val c)%Z).
      rewrite Nat2Z.inj_succ, Z.pow_succ_r by lia. ring. }
  apply G.
Qed.

Lemma pow10_nz k : ~ 10 ^ k == 0.
Proof. apply Qpower_not_0. discriminate. Qed.

Lemma py_float_spelled s ip fp e :
  all_digits ip -> all_digits fp -> ip ++ fp <> [] -> exp_ok e -> (forall m d, e <> ExpF m d) ->
  exists q, py_float (spelled s ip fp e) = Some q /\ q == worth s ip fp e.
Proof.
  intros Hi Hf Hn He Ne. unfold py_float, spelled.
  rewrite take_sign_sgn.
  2:{ intros _. destruct ip as [|c ip]; [cbn; auto|]. unfold all_digits in Hi. cbn in Hi. apply andb_prop in Hi as [Hi _].
      cbn. split; apply digit_not; auto. }
  rewrite take_digits_app by (assumption || reflexivity).
  change (Ascii.eqb "." ".") with true. cbv iota.
  rewrite take_digits_app; [|assumption|].
  2:{ destruct e as [|[] [] d|m d]; cbn; auto. exfalso. eapply Ne; reflexivity. }
  rewrite parse_exponent_ok by assumption.
  destruct (ip ++ fp) as [|c l] eqn:El; [congruence|]. rewrite <- El.
  eexists; split; [reflexivity|].
  unfold worth. rewrite exp_val_Z, digits_val_app.
  assert (S : inject_Z (signed (sgn_neg s) (digits_val ip * 10 ^ Z.of_nat (length fp) + digits_val fp)) ==
     sgn_val s * (inject_Z (digits_val ip) * 10 ^ Z.of_nat (length fp) + inject_Z (digits_val fp))).
  { assert (P : inject_Z (10 ^ Z.of_nat (length fp)) == 10 ^ Z.of_nat (length fp)) by apply Zpower_Qpower, Nat2Z.is_nonneg.
    destruct s; cbn [sgn_neg signed sgn_val]; rewrite ?inject_Z_opp, inject_Z_plus, inject_Z_mult, P; ring. }
  rewrite S. unfold Z.sub. rewrite Qpower_plus by discriminate. rewrite Qpower_opp.
  pose proof (pow10_nz (Z.of_nat (length fp))). field. assumption.
Qed.

(** * Which branch the code takes *)

Lemma digit_ne_char c d : is_digit c = true -> is_digit d = false -> c <> d.
Proof. intros H1 H2 ->. congruence. Qed.

Lemma not_in_digits d c : all_digits d -> is_digit c = false -> ~ In c d.
Proof.
  intros D N I. unfold all_digits in D. rewrite forallb_forall in D. apply D in I. congruence.
Qed.

Lemma lower_digit c : is_digit c = true -> lower_char c = c.
Proof.
  unfold is_digit, lower_char. intro H. apply andb_prop in H as [H1 H2].
  apply N.leb_le in H1, H2.
  destruct (N.leb_spec 65 (N_of_ascii c)); [lia|reflexivity].
Qed.

Lemma lower_digits d : all_digits d -> lower d = d.
Proof.
  unfold all_digits. induction d as [|c d IH]; cbn [forallb]; intro H; [reflexivity|]. apply andb_prop in H as [H1 H2].
  unfold lower in *. cbn [map]. rewrite lower_digit, IH by assumption. reflexivity.
Qed.

Lemma has_e_digits d : all_digits d -> has_e d = false.
Proof.
  intro H. unfold has_e. rewrite lower_digits by assumption.
  destruct (existsb _ d) eqn:E; [|reflexivity]. apply existsb_exists in E as (c & I & Q).
  apply Ascii.eqb_eq in Q. subst c. exfalso. exact (not_in_digits d "e"%char H eq_refl I).
Qed.

Lemma has_e_app a b : has_e (a ++ b) = has_e a || has_e b.
Proof. unfold has_e, lower. now rewrite map_app, existsb_app. Qed.

Lemma replace_char_digits c t d : all_digits d -> is_digit c = false -> replace_char c t d = d.
Proof.
  intros D N. unfold all_digits in D. induction d as [|x d IH]; [reflexivity|]. cbn [forallb] in D. apply andb_prop in D as [D1 D2].
  cbn. destruct (Ascii.eqb_spec c x); [congruence|]. cbn. f_equal. now apply IH.
Qed.

Lemma replace_char_app c t a b : replace_char c t (a ++ b) = replace_char c t a ++ replace_char c t b.
Proof. apply flat_map_app. Qed.

Lemma fortran_number_ok s ip fp e :
  all_digits ip -> all_digits fp -> ip ++ fp <> [] -> exp_ok e ->
  exists q, get_fortran_formatted_number (spelled s ip fp e) = Some q /\ q == worth s ip fp e.
Proof.
  intros Hi Hf Hn He. unfold get_fortran_formatted_number.
  assert (Hsplit : split_on "."%char (spelled s ip fp e) = (sgn_text s ++ ip) :: [fp ++ exp_text e]).
  { unfold spelled. rewrite app_assoc. rewrite split_on_app.
    - rewrite split_on_none; [reflexivity|]. intro I. apply in_app_iff in I as [I|I].
      + eapply not_in_digits; [| |exact I]; [assumption|reflexivity].
      + destruct e as [|u g d|m d]; cbn in I; [tauto| |].
        * destruct He as [_ He]. apply in_app_iff in I as [I|I]; [destruct u; cbn in I; intuition discriminate|].
          apply in_app_iff in I as [I|I]; [destruct g; cbn in I; intuition discriminate|].
          eapply not_in_digits; [| |exact I]; [assumption|reflexivity].
        * destruct He as [_ He]. apply in_app_iff in I as [I|I]; [destruct m; cbn in I; intuition discriminate|].
          eapply not_in_digits; [| |exact I]; [assumption|reflexivity].
    - intro I. apply in_app_iff in I as [I|I].
      + destruct s; cbn in I; intuition discriminate.
      + eapply not_in_digits; [| |exact I]; [assumption|reflexivity]. }
  rewrite Hsplit. rewrite has_e_app, has_e_digits by assumption. cbn [orb].
  destruct e as [|u g d|m d].
  - (* no exponent *)
    change (has_e (exp_text NoExp)) with false. cbv iota.
    cbn [exp_text]. rewrite app_nil_r. rewrite !(replace_char_digits _ _ fp) by (assumption || reflexivity).
    destruct (py_float_spelled s ip fp NoExp) as (q & Hq & Eq); try assumption; [discriminate|].
    exists q. split; [|assumption]. unfold spelled in Hq. cbn [exp_text] in Hq. rewrite app_nil_r in Hq.
    rewrite <- app_assoc. exact Hq.
  - assert (E : has_e (exp_text (ExpE u g d)) = true) by (destruct u; reflexivity).
    rewrite E. apply py_float_spelled; try assumption. discriminate.
  - assert (E : has_e (exp_text (ExpF m d)) = false).
    { cbn [exp_text]. rewrite has_e_app. destruct He as [_ He]. rewrite (has_e_digits d) by assumption. destruct m; reflexivity. }
    rewrite E. cbv iota.
    destruct He as [He1 He2].
    assert (R : replace_char "+" (T "e+") (replace_char "-" (T "e-") (fp ++ exp_text (ExpF m d))) = fp ++ exp_text (norm (ExpF m d))).
    { rewrite !replace_char_app, !(replace_char_digits _ _ fp) by (assumption || reflexivity).
      f_equal. cbn [exp_text]. rewrite !replace_char_app, !(replace_char_digits _ _ d) by (assumption || reflexivity).
      destruct m; reflexivity. }
    rewrite R.
    destruct (py_float_spelled s ip fp (norm (ExpF m d))) as (q & Hq & Eq); try assumption.
    { destruct m; cbn; auto. } { destruct m; discriminate. }
    exists q. split.
    + unfold spelled in Hq. rewrite <- app_assoc. exact Hq.
    + rewrite Eq. unfold worth. now rewrite norm_val.
Qed.
