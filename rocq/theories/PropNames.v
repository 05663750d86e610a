(** Properties of names: C51 (particles), C52 (nuclides). *)
From Coq Require Import ZifyBool.
From Verif Require Import PyStr PyStrFacts FortranNumber FortranNumberProofs PyInt PyIntFacts NamesModel.
Open Scope nat_scope.
Open Scope list_scope.

(** ** C51 *)
Theorem C51_particles_round_trip :
  (forall p, mcnp_to_particle (particle_to_mcnp p) = Some p) /\
  (forall s p, mcnp_to_particle s = Some p -> particle_to_mcnp p = s) /\
  (forall p q, particle_to_generic p = particle_to_generic q -> p = q).
Proof.
  split; [|split].
  - destruct p; reflexivity.
  - intros s p. unfold mcnp_to_particle.
    repeat match goal with |- (if text_eqb s ?t then _ else _) = _ -> _ =>
      let E := fresh "E" in destruct (text_eqb_spec s t) as [E|_]; [intro H; injection H as <-; rewrite E; reflexivity|] end.
    discriminate.
  - intros p q; destruct p, q; intro H; reflexivity || (exfalso; vm_compute in H; discriminate).
Qed.
Print Assumptions C51_particles_round_trip.

Example C51_example : mcnp_to_particle (T "h") = Some PROTON /\ mcnp_to_particle (T "n,p") = None.
Proof. split; reflexivity. Qed.

(** ** C52 *)

(** The digits of a printed number, one at a time. *)
Lemma dec_digits_fuel f g : forall n, (n < 2 ^ N.of_nat f)%N -> (n < 2 ^ N.of_nat g)%N -> 0 < f -> 0 < g ->
  dec_digits f n = dec_digits g n.
Proof.
  revert g. induction f as [|f IH]; intros g n Hf Hg P Q; [lia|]. destruct g as [|g]; [lia|]. cbn [dec_digits].
  destruct (N.ltb_spec n 10) as [L|L]; [reflexivity|].
  assert (D : (10 * (n / 10) <= n)%N) by (apply N.mul_div_le; lia).
  assert (D1 : (1 <= n / 10)%N) by (apply N.div_le_lower_bound; lia).
  rewrite Nat2N.inj_succ, N.pow_succ_r' in Hf, Hg.
  rewrite (IH g); [reflexivity|lia|lia| |].
  - destruct f; [cbn in Hf; lia|lia].
  - destruct g; [cbn in Hg; lia|lia].
Qed.

Lemma str_N_fuel n : (n < 2 ^ N.of_nat (S (N.to_nat (N.log2 n))))%N.
Proof.
  rewrite Nat2N.inj_succ, N2Nat.id. destruct n as [|p]; [reflexivity|]. apply N.log2_spec. reflexivity.
Qed.

Lemma str_N_step n : (10 <= n)%N -> str_N n = str_N (n / 10) ++ [digit_char (n mod 10)].
Proof.
  intro L. unfold str_N at 1. cbn [dec_digits]. destruct (N.ltb_spec n 10) as [X|_]; [lia|].
  f_equal. assert (D : (10 * (n / 10) <= n)%N) by (apply N.mul_div_le; lia).
  assert (D1 : (1 <= n / 10)%N) by (apply N.div_le_lower_bound; lia).
  assert (F := str_N_fuel n). rewrite Nat2N.inj_succ, N.pow_succ_r' in F.
  apply dec_digits_fuel; [lia|apply str_N_fuel| |lia].
  destruct (N.to_nat (N.log2 n)); [cbn in F; lia|lia].
Qed.

Lemma str_N_small n : (n < 10)%N -> str_N n = [digit_char n].
Proof. intro L. unfold str_N. cbn [dec_digits]. destruct (N.ltb_spec n 10); [reflexivity|lia]. Qed.

Lemma str_N_length n : (1 <= n < 1000)%N -> length (str_N n) = if (n <? 10)%N then 1 else if (n <? 100)%N then 2 else 3.
Proof.
  intro L. destruct (N.ltb_spec n 10). { now rewrite str_N_small. }
  assert (D := N.div_mod n 10 ltac:(lia)). assert (M := N.mod_lt n 10 ltac:(lia)).
  rewrite str_N_step, app_length by lia. cbn [length].
  destruct (N.ltb_spec n 100). { rewrite str_N_small by lia. reflexivity. }
  assert (D' := N.div_mod (n / 10) 10 ltac:(lia)). assert (M' := N.mod_lt (n / 10) 10 ltac:(lia)).
  rewrite str_N_step, app_length by lia. cbn [length]. rewrite str_N_small by lia. reflexivity.
Qed.

(** Three more digits. *)
Lemma str_N_thousand z a : (1 <= z)%N -> (a < 1000)%N ->
  str_N (1000 * z + a) = str_N z ++ [digit_char (a / 100); digit_char (a / 10 mod 10); digit_char (a mod 10)].
Proof.
  intros Hz Ha.
  assert (A0 := N.div_mod a 10 ltac:(lia)). assert (M0 := N.mod_lt a 10 ltac:(lia)).
  assert (A1 := N.div_mod (a / 10) 10 ltac:(lia)). assert (M1 := N.mod_lt (a / 10) 10 ltac:(lia)).
  assert (E2 : (a / 100 = a / 10 / 10)%N) by (rewrite N.div_div by lia; reflexivity).
  set (q := (a / 10)%N) in *. set (r := (a mod 10)%N) in *. set (q' := (q / 10)%N) in *. set (r' := (q mod 10)%N) in *.
  rewrite str_N_step by lia.
  assert (X1 : ((1000 * z + a) / 10 = 100 * z + q)%N) by (symmetry; apply (N.div_unique _ _ _ r); lia).
  assert (X2 : ((1000 * z + a) mod 10 = r)%N) by (symmetry; apply (N.mod_unique _ _ (100 * z + q)); lia).
  rewrite X1, X2. rewrite str_N_step by lia.
  assert (Y1 : ((100 * z + q) / 10 = 10 * z + q')%N) by (symmetry; apply (N.div_unique _ _ _ r'); lia).
  assert (Y2 : ((100 * z + q) mod 10 = r')%N) by (symmetry; apply (N.mod_unique _ _ (10 * z + q')); lia).
  rewrite Y1, Y2. rewrite str_N_step by lia.
  assert (Z1 : ((10 * z + q') / 10 = z)%N) by (symmetry; apply (N.div_unique _ _ _ q'); lia).
  assert (Z2 : ((10 * z + q') mod 10 = q')%N) by (symmetry; apply (N.mod_unique _ _ z); lia).
  rewrite Z1, Z2, E2, <- !app_assoc. reflexivity.
Qed.

Lemma digits_of l : Forall (fun n => (n < 10)%N) l -> all_digits (map digit_char l).
Proof.
  intro F. unfold all_digits. induction F as [|n l H F IH]; [reflexivity|]. cbn [map forallb].
  now rewrite (proj1 (digit_char_ok n H)).
Qed.

Lemma int_three a : (a < 1000)%N ->
  py_int [digit_char (a / 100); digit_char (a / 10 mod 10); digit_char (a mod 10)] = Some (Z.of_N a) /\
  py_int [digit_char (a / 10 mod 10); digit_char (a mod 10)] = Some (Z.of_N a mod 100)%Z.
Proof.
  intro Ha. assert (A0 := N.div_mod a 10 ltac:(lia)). assert (M0 := N.mod_lt a 10 ltac:(lia)).
  assert (A1 := N.div_mod (a / 10) 10 ltac:(lia)). assert (M1 := N.mod_lt (a / 10) 10 ltac:(lia)).
  assert (E2 : (a / 100 = a / 10 / 10)%N) by (rewrite N.div_div by lia; reflexivity). rewrite E2.
  set (q := (a / 10)%N) in *. set (r := (a mod 10)%N) in *. set (q' := (q / 10)%N) in *. set (r' := (q mod 10)%N) in *.
  assert (L : (q' < 10)%N) by lia.
  pose proof (digits_of [q'; r'; r]) as D3. pose proof (digits_of [r'; r]) as D2. cbn [map] in D3, D2.
  rewrite !py_int_digits; try discriminate; try (apply D3; auto); try (apply D2; auto).
  unfold digits_val. cbn [fold_left]. rewrite (proj2 (digit_char_ok q' L)), (proj2 (digit_char_ok r' M1)), (proj2 (digit_char_ok r M0)).
  split; f_equal; [lia|]. apply (Z.mod_unique _ _ (Z.of_N q')); lia.
Qed.

(** The name given to any nuclide. *)
Lemma zaid_to_name_eq z a : (1 <= z <= 999)%Z -> (0 <= a <= 999)%Z ->
  zaid_to_name (str_Z (1000 * z + a)) =
    option_map (fun s => s ++ str_Z (if (z <? 10)%Z then a mod 100 else a)%Z) (symbol z).
Proof.
  intros Hz Ha. unfold str_Z at 1. destruct (Z.ltb_spec (1000 * z + a) 0); [lia|].
  replace (Z.to_N (1000 * z + a)) with (1000 * Z.to_N z + Z.to_N a)%N by lia.
  rewrite str_N_thousand by lia. destruct (int_three (Z.to_N a) ltac:(lia)) as [I3 I2]. rewrite Z2N.id in I3, I2 by lia.
  set (d2 := digit_char (Z.to_N a / 100)) in *. set (d1 := digit_char (Z.to_N a / 10 mod 10)) in *.
  set (d0 := digit_char (Z.to_N a mod 10)) in *.
  assert (IZ : py_int (str_N (Z.to_N z)) = Some z).
  { destruct (str_N_ok (Z.to_N z)) as (A & B & C). rewrite py_int_digits by assumption. rewrite C. f_equal. lia. }
  assert (L := str_N_length (Z.to_N z) ltac:(lia)).
  unfold zaid_to_name. rewrite app_length. cbn [length].
  destruct (Z.ltb_spec z 10) as [Z1|Z1], (N.ltb_spec (Z.to_N z) 10) as [N1|N1]; try lia.
  - rewrite L. cbn [Nat.add Nat.leb]. destruct (str_N (Z.to_N z)) as [|x [|y s]]; try discriminate.
    cbn [app firstn skipn]. rewrite IZ, I2. reflexivity.
  - destruct (N.ltb_spec (Z.to_N z) 100) as [N2|N2]; rewrite L; cbn [Nat.add Nat.leb Nat.ltb].
    + destruct (str_N (Z.to_N z)) as [|x [|y [|w s]]]; try discriminate.
      change (5 <? 5) with false. cbn [app firstn skipn]. rewrite IZ, I3. reflexivity.
    + destruct (str_N (Z.to_N z)) as [|x [|y [|w [|v s]]]]; try discriminate.
      change (5 <? 6) with true. cbn [app firstn skipn]. rewrite IZ, I3. reflexivity.
Qed.

Lemma symbol_known z : (1 <= z <= 118)%Z -> exists s, symbol z = Some s.
Proof.
  intro H. unfold symbol. destruct (Z.leb_spec 1 z); [|lia]. destruct (nth_error symbols (Z.to_nat (z - 1))) eqn:E; [eexists; reflexivity|].
  apply nth_error_None in E. change (length symbols) with 118 in E. lia.
Qed.

(** A symbol has no digit. *)
Definition digitless (t : text) : Prop := forall c, In c t -> is_digit c = false.
Lemma symbols_digitless z s : symbol z = Some s -> digitless s.
Proof.
  unfold symbol. destruct (1 <=? z)%Z; [|discriminate]. destruct (nth_error symbols (Z.to_nat (z - 1))) as [n|] eqn:E; [|discriminate].
  intro H. injection H as <-. apply nth_error_In in E. intros c Ic.
  assert (A : forallb (fun n => forallb (fun c => negb (is_digit c)) (T n)) symbols = true) by (vm_compute; reflexivity).
  rewrite forallb_forall in A. specialize (A n E). rewrite forallb_forall in A. specialize (A c Ic). now apply negb_true_iff in A.
Qed.

Fixpoint nodup_b (l : list string) : bool :=
  match l with [] => true | x :: r => negb (existsb (String.eqb x) r) && nodup_b r end.
Lemma nodup_b_ok l : nodup_b l = true -> NoDup l.
Proof.
  induction l as [|x r IH]; intro H; [constructor|]. cbn [nodup_b] in H. apply andb_prop in H as [H1 H2].
  constructor; [|now apply IH]. intro I. apply negb_true_iff in H1. assert (X : existsb (String.eqb x) r = true); [|congruence].
  apply existsb_exists. exists x. split; [exact I|apply String.eqb_refl].
Qed.
Lemma symbols_nodup : NoDup symbols.
Proof. apply nodup_b_ok. vm_compute. reflexivity. Qed.

Lemma symbol_inj z z' s : symbol z = Some s -> symbol z' = Some s -> z = z'.
Proof.
  unfold symbol. destruct (Z.leb_spec 1 z), (Z.leb_spec 1 z'); try discriminate.
  destruct (nth_error symbols (Z.to_nat (z - 1))) as [n|] eqn:E; [|discriminate].
  destruct (nth_error symbols (Z.to_nat (z' - 1))) as [n'|] eqn:E'; [|discriminate].
  cbn [option_map]. intros H1 H2. injection H1 as H1. injection H2 as H2.
  assert (X : n = n').
  { rewrite <- (string_of_list_ascii_of_string n), <- (string_of_list_ascii_of_string n'). f_equal. unfold T in *. congruence. }
  subst n'. assert (Y : Z.to_nat (z - 1) = Z.to_nat (z' - 1)); [|lia].
  apply (proj1 (NoDup_nth_error symbols) symbols_nodup); [|congruence]. apply nth_error_Some. congruence.
Qed.

Lemma split_name s s' d d' : digitless s -> digitless s' -> all_digits d -> all_digits d' -> d <> [] -> d' <> [] ->
  s ++ d = s' ++ d' -> s = s' /\ d = d'.
Proof.
  revert s'. induction s as [|c s IH]; intros [|c' s'] S S' D D' N N' E; cbn [app] in E.
  - auto.
  - exfalso. destruct d as [|x d]; [congruence|]. injection E as -> E. assert (H := S' c' (or_introl eq_refl)).
    unfold all_digits in D. cbn [forallb] in D. apply andb_prop in D as [Hc _]. congruence.
  - exfalso. destruct d' as [|x d']; [congruence|]. injection E as -> E. assert (H := S x (or_introl eq_refl)).
    unfold all_digits in D'. cbn [forallb] in D'. apply andb_prop in D' as [Hc _]. congruence.
  - injection E as -> E. destruct (IH s') as [-> ->]; auto; intros x I; [apply S|apply S']; now right.
Qed.

Lemma str_Z_pos_digits a : (0 <= a)%Z -> str_Z a <> [] /\ all_digits (str_Z a).
Proof.
  intro P. unfold str_Z. destruct (Z.ltb_spec a 0); [lia|]. destruct (str_N_ok (Z.to_N a)) as (A & B & _). auto.
Qed.

(** The name of a nuclide: symbol and mass number; different nuclides, different names. Missing: Z below 10
    with A from 100 on, see [C52_light_refuted]. *)
Theorem C52_names_partial :
  (forall z a, (1 <= z <= 118)%Z -> (1 <= a <= 999)%Z -> (10 <= z \/ a <= 99)%Z ->
     exists s, symbol z = Some s /\ zaid_to_name (str_Z (1000 * z + a)) = Some (s ++ str_Z a)) /\
  (forall z a z' a' n, (1 <= z <= 118)%Z -> (1 <= a <= 999)%Z -> (10 <= z \/ a <= 99)%Z ->
     (1 <= z' <= 118)%Z -> (1 <= a' <= 999)%Z -> (10 <= z' \/ a' <= 99)%Z ->
     zaid_to_name (str_Z (1000 * z + a)) = Some n -> zaid_to_name (str_Z (1000 * z' + a')) = Some n -> z = z' /\ a = a').
Proof.
  assert (A : forall z a, (1 <= z <= 118)%Z -> (1 <= a <= 999)%Z -> (10 <= z \/ a <= 99)%Z ->
     exists s, symbol z = Some s /\ zaid_to_name (str_Z (1000 * z + a)) = Some (s ++ str_Z a)).
  { intros z a Hz Ha C. destruct (symbol_known z Hz) as [s S]. exists s. split; [exact S|].
    rewrite zaid_to_name_eq, S by lia. cbn [option_map]. do 3 f_equal.
    destruct (Z.ltb_spec z 10); [|reflexivity]. apply Z.mod_small. lia. }
  split; [exact A|]. intros z a z' a' n Hz Ha C Hz' Ha' C' E E'.
  destruct (A z a Hz Ha C) as (s & S1 & N1). destruct (A z' a' Hz' Ha' C') as (s' & S2 & N2).
  rewrite N1 in E. rewrite N2 in E'. injection E as <-. injection E' as E'.
  destruct (str_Z_pos_digits a ltac:(lia)) as [D1 D2]. destruct (str_Z_pos_digits a' ltac:(lia)) as [D1' D2'].
  destruct (split_name s' s (str_Z a') (str_Z a)) as [Es Ea]; auto; try (eapply symbols_digitless; eassumption).
  subst s'. apply str_Z_inj in Ea. split; [|now symmetry]. now apply (symbol_inj z z' s).
Qed.
Print Assumptions C52_names_partial.

Example C52_example : zaid_to_name (T "92235") = Some (T "U235") /\ zaid_to_name (T "1001") = Some (T "H1")
  /\ zaid_to_name (T "100257") = Some (T "Fm257").
Proof. repeat split; reflexivity. Qed.

(** Z = 1, A = 101 is named like A = 1. *)
Theorem C52_light_refuted : exists z a n, (1 <= z <= 118)%Z /\ (1 <= a <= 999)%Z /\
  zaid_to_name (str_Z (1000 * z + a)) = Some n /\ n = T "H1" /\ a = 101%Z /\ zaid_to_name (str_Z 1001) = Some n.
Proof.
  exists 1%Z, 101%Z, (T "H1"). split; [lia|]. split; [lia|]. split; [vm_compute; reflexivity|]. split; [reflexivity|].
  split; [reflexivity|]. vm_compute. reflexivity.
Qed.
Print Assumptions C52_light_refuted.
