(** Property C36: how far exploding an element given by mass fraction is from right (csg2csg/MaterialCard.py 140-170,
    csg2csg/MaterialData.py 3682-3693). *)
From Coq Require Import QArith Qabs List Lia Lqa.
From Verif Require Import PyStr PyInt PyIntFacts PyDict NuclideData MaterialModel MaterialProofs PropMaterial.
Import ListNotations.
Open Scope Q_scope.
Open Scope list_scope.

(** The natural nuclides of an element, with mass number, abundance in per cent of the atoms and mass: the keys of the table are
    10000 times the number of the nuclide. *)
Definition natural (y : Z) : list (Z * (Q * Q)) := filter (fun e => Z.eqb (fst e / 10000000) y) nuclide_table.
(** The mean mass of its atoms. *)
Definition mean_mass (y : Z) : Q := total (map (fun e => fst (snd e) * snd (snd e)) (natural y)) / 100.
(** The share of one nuclide in the mass of the element. *)
Definition mass_share (y : Z) (a m : Q) : Q := a / 100 * m / mean_mass y.

Lemma natural_filter y l : incl l nuclide_table -> filter (fun e => Z.eqb (fst e / 10000000) y) l = filter (fun e => in_element (1000 * y) (fst e)) l.
Proof.
  intro Hi. apply filter_ext_in. intros e I. assert (H := in_element_iff y e (Hi e I)). 
  assert (E : (fst e / 10000 / 1000 = fst e / 10000000)%Z) by (rewrite Z.div_div by lia; f_equal; lia).
  rewrite E in H. destruct (in_element (1000 * y) (fst e)), (Z.eqb_spec (fst e / 10000000) y); try reflexivity; intuition congruence.
Qed.
Lemma mean_mass_model y : atomic_mass (1000 * y) == mean_mass y.
Proof.
  unfold atomic_mass, mean_mass, natural. rewrite (natural_filter y _ (incl_refl _)). rewrite sum_q_total.
  generalize (filter (fun e => in_element (1000 * y) (fst e)) nuclide_table) as l. induction l as [|e l IH]; cbn [map total]; [reflexivity|].
  rewrite IH. field.
Qed.

(** What the program gives a nuclide, for one unit of the element. *)
Definition given (y : Z) (key : Z) (a : Q) : Q := a / 100 * mean_mass y / inject_Z (key / 10000 mod 1000).

(** The check of one element of the table. *)
Definition check (t : list (Z * (Q * Q))) (m : Q) : bool :=
  match t with
  | [] => true
  | _ =>
      forallb (fun e => Qle_bool ((1 # 4) * (fst (snd e) / 100 * snd (snd e) / m)) (fst (snd e) / 100 * m / inject_Z (fst e / 10000 mod 1000)) &&
                        Qle_bool (fst (snd e) / 100 * m / inject_Z (fst e / 10000 mod 1000)) ((9 # 5) * (fst (snd e) / 100 * snd (snd e) / m)))%bool t &&
      Qle_bool (Qabs (Qred (total (map (fun e => Qred (fst (snd e) / 100 * m / inject_Z (fst e / 10000 mod 1000))) t)) - 1)) (1 # 125)
  end%bool.
Definition shares_ok (y : Z) : bool := check (natural y) (Qred (mean_mass y)).
Lemma table_shares : forallb (fun n => shares_ok (Z.of_nat n)) (seq 0 93) = true.
Proof. vm_compute. reflexivity. Qed.

Lemma natural_isotopes y : isotopes y = map (fun e => (fst e / 10000, fst (snd e)))%Z (natural y).
Proof.
  unfold isotopes, natural. apply (f_equal (map (fun e : Z * (Q * Q) => (fst e / 10000, fst (snd e))%Z))). generalize nuclide_table as l. intro l.
  apply filter_ext. intro e. now rewrite Z.div_div by lia.
Qed.
Lemma element_shares y : natural y <> [] -> shares_ok y = true.
Proof.
  intro N. assert (R : (1 <= y <= 92)%Z) by (apply isotopes_range; rewrite natural_isotopes; destruct (natural y); [tauto|discriminate]).
  assert (H := table_shares). rewrite forallb_forall in H. rewrite <- (Z2Nat.id y) by lia. apply H, in_seq. lia.
Qed.

Lemma total_ext_in {A} (f g : A -> Q) l : (forall x, In x l -> f x == g x) -> total (map f l) == total (map g l).
Proof. induction l as [|x l IH]; intro H; cbn [map total]; [reflexivity|]. rewrite (H x) by (now left). rewrite IH by (intros; apply H; now right). reflexivity. Qed.

Lemma check_each t m key a w : check t (Qred m) = true -> In (key, (a, w)) t ->
  (1 # 4) * (a / 100 * w / m) <= a / 100 * m / inject_Z (key / 10000 mod 1000) <= (9 # 5) * (a / 100 * w / m).
Proof.
  intros S I. destruct t as [|e0 t]; [destruct I|]. unfold check in S. apply andb_true_iff in S as [S _]. rewrite forallb_forall in S. specialize (S _ I).
  cbn [fst snd] in S. apply andb_true_iff in S as [S1 S2]. apply Qle_bool_iff in S1, S2. rewrite Qred_correct in S1, S2. tauto.
Qed.
Lemma check_total t m : check t (Qred m) = true -> t <> [] -> Qabs (total (map (fun e => fst (snd e) / 100 * m / inject_Z (fst e / 10000 mod 1000)) t) - 1) <= 1 # 125.
Proof.
  intros S N. destruct t as [|e0 t]; [tauto|]. unfold check in S. apply andb_true_iff in S as [_ S]. revert S. generalize (e0 :: t) as l. intros l S.
  apply Qle_bool_iff in S. rewrite Qred_correct in S.
  rewrite (total_ext_in _ (fun e => Qred (fst (snd e) / 100 * Qred m / inject_Z (fst e / 10000 mod 1000)))) by (intros e _; rewrite !Qred_correct; reflexivity).
  exact S.
Qed.

Lemma shares_check y : shares_ok y = check (natural y) (Qred (mean_mass y)).
Proof. reflexivity. Qed.
Strategy opaque [natural mean_mass nuclide_table check].

(** Every nuclide of an element given by mass gets between a quarter and nine fifths of its share, *)
Lemma share_bounds y key a m : In (key, (a, m)) (natural y) -> (1 # 4) * mass_share y a m <= given y key a <= (9 # 5) * mass_share y a m.
Proof.
  intro I. assert (S : shares_ok y = true) by (apply element_shares; intro E; rewrite E in I; destruct I).
  rewrite shares_check in S. apply check_each with (key := key) (a := a) (w := m) in S; [|exact I]. exact S.
Qed.
(** and all of them together the element up to eight in a thousand. *)
Lemma share_total y : natural y <> [] -> Qabs (total (map (fun e => given y (fst e) (fst (snd e))) (natural y)) - 1) <= 1 # 125.
Proof.
  intro N. assert (S := element_shares y N). rewrite shares_check in S. apply check_total in S; [|exact N].
  exact S.
Qed.

Lemma iso_given y f key a : f < 0 -> iso_fraction (1000 * y) f (key / 10000) a == f * given y key a.
Proof.
  intro F. unfold iso_fraction. destruct (Qle_bool 0 f) eqn:E; [apply Qle_bool_iff in E; lra|]. cbn [negb]. unfold given.
  assert (G : (get_aa (key / 10000) = key / 10000 mod 1000)%Z) by (unfold get_aa; rewrite Z.mod_eq by lia; lia).
  rewrite G, mean_mass_model. unfold Qdiv. ring.
Qed.

(** The entry of an element is the only one of its charge. *)
Lemma of_charge_element c k f y : plain_comp c -> In (k, f) c -> py_int k = Some (1000 * y)%Z ->
  of_charge y (filter (fun e => negb (is_elem (fst e))) c ++ flat_map exploded c) == total (map snd (exploded (k, f))).
Proof.
  intros P I Ek. rewrite of_charge_app. rewrite of_charge_none.
  - rewrite Qplus_0_l. apply in_split in I as (c1 & c2 & ->). rewrite flat_map_app. cbn [flat_map]. rewrite !of_charge_app.
    assert (O : forall c0, (forall e, In e c0 -> In e (c1 ++ (k, f) :: c2) /\ py_int (fst e) <> Some (1000 * y)%Z) -> of_charge y (flat_map exploded c0) = 0).
    { intros c0 H. apply of_charge_none. apply Forall_forall. intros [t v] J. apply (in_map fst) in J. fold (keys (flat_map exploded c0)) in J. apply exploded_key in J as (k1 & f1 & y1 & i & a & Ik & Ek1 & Ii & ->).
      cbn [fst]. unfold charge. rewrite py_int_str_Z. cbn [option_map]. apply isotopes_zaid in Ii as (C & _). rewrite C. intro Z. injection Z as ->. apply (H _ Ik) in Ek1 as []. }
    assert (N := pc_once _ P). rewrite map_app in N. cbn [map fst] in N. apply NoDup_remove_2 in N. rewrite Ek in N.
    rewrite O, O; cycle 1.
    + intros e J. split; [apply in_or_app; right; now right|]. intro Z. apply N, in_or_app. right. apply in_map_iff. eauto.
    + intros e J. split; [apply in_or_app; now left|]. intro Z. apply N, in_or_app. left. apply in_map_iff. eauto.
    + rewrite Qplus_0_l, Qplus_0_r. rewrite of_charge_all; [reflexivity|].
      rewrite (exploded_elem k f y Ek). apply Forall_forall. intros e J. apply in_map_iff in J as ([i a] & <- & Ii).
      cbn [fst]. unfold charge. rewrite py_int_str_Z. cbn [option_map]. apply isotopes_zaid in Ii. now destruct Ii as [-> _].
  - apply Forall_forall. intros e J. apply filter_In in J as [J NE]. intro C. unfold charge in C. destruct (py_int (fst e)) as [z|] eqn:Ez; [|discriminate]. cbn [option_map] in C. injection C as C.
    apply (pc_apart c P (k, f) e y z I J Ek Ez); [|exact C]. intro M. apply negb_true_iff in NE. unfold is_elem in NE. rewrite Ez, M in NE. discriminate.
Qed.

(** C36 for the elements given by mass fraction, as far as it is true: every natural nuclide of the element is in the composition,
    with between a quarter and nine fifths of its share of the mass, and the nuclides together have the mass of the element up
    to eight in a thousand. The full statement is that they have exactly their shares. *)
Theorem C36_mass_partial c x : plain_comp c ->
  exists c' x', explode_elements c x = Some (c', x') /\
    forall k f y, In (k, f) c -> py_int k = Some (1000 * y)%Z -> f < 0 -> natural y <> [] ->
      Qabs (of_charge y c' - f) <= (1 # 125) * Qabs f /\
      forall key a m, In (key, (a, m)) (natural y) -> exists v, dget (str_Z (key / 10000)) c' = Some v /\
        v == f * (a / 100) * mean_mass y / inject_Z (key / 10000 mod 1000) /\
        (1 # 4) * (Qabs f * mass_share y a m) <= Qabs v <= (9 # 5) * (Qabs f * mass_share y a m).
Proof.
  intro P. destruct (explode_shape c x P) as (x' & E & N). eexists. exists x'. split; [exact E|]. intros k f y I Ek F NY. split.
  - rewrite (of_charge_element c k f y P I Ek), (exploded_elem k f y Ek), map_map. cbn [snd]. rewrite natural_isotopes, map_map. cbn [fst snd].
    rewrite (total_ext_in _ (fun e => given y (fst e) (fst (snd e)) * f)) by (intros e _; rewrite (iso_given y f (fst e) (fst (snd e)) F); ring).
    rewrite <- (map_map (fun e => given y (fst e) (fst (snd e))) (fun q => q * f)).
    assert (T : forall l, total (map (fun q => q * f) l) == total l * f) by (induction l as [|q l IH]; cbn [map total]; [ring|rewrite IH; ring]).
    rewrite T. setoid_replace (total (map (fun e => given y (fst e) (fst (snd e))) (natural y)) * f - f) with ((total (map (fun e => given y (fst e) (fst (snd e))) (natural y)) - 1) * f) by ring.
    rewrite Qabs_Qmult. apply Qmult_le_compat_r; [now apply share_total|apply Qabs_nonneg].
  - intros key a m IN. exists (iso_fraction (1000 * y) f (key / 10000) a). split.
    + apply in_dget; [exact N|]. apply in_or_app. right. apply in_flat_map. exists (k, f). split; [exact I|].
      rewrite (exploded_elem k f y Ek). apply in_map_iff. exists ((key / 10000)%Z, a). split; [reflexivity|]. rewrite natural_isotopes. apply in_map_iff. exists (key, (a, m)). auto.
    + rewrite (iso_given y f key a F). split; [unfold given, Qdiv; ring|]. rewrite Qabs_Qmult.
      destruct (share_bounds y key a m IN) as [B1 B2].
      assert (G : Qabs (given y key a) == given y key a).
      { apply Qabs_pos. apply Qle_trans with ((1 # 4) * mass_share y a m); [|exact B1].
        assert (PS : 0 <= mass_share y a m); [lra|apply Qmult_le_0_compat; [discriminate|exact PS]]. }
      rewrite G. assert (0 <= Qabs f) by apply Qabs_nonneg. split.
      * setoid_replace ((1 # 4) * (Qabs f * mass_share y a m)) with (Qabs f * ((1 # 4) * mass_share y a m)) by ring. rewrite !(Qmult_comm (Qabs f)). apply Qmult_le_compat_r; assumption.
      * setoid_replace ((9 # 5) * (Qabs f * mass_share y a m)) with (Qabs f * ((9 # 5) * mass_share y a m)) by ring. rewrite !(Qmult_comm (Qabs f)). apply Qmult_le_compat_r; assumption.
Qed.
Print Assumptions C36_mass_partial.

(** Lithium: the lighter nuclide gets a third more than its share of the mass. *)
Example C36_mass_example : exists c' x' v a m, plain_comp [(T "3000", -1 # 1)] /\ In (30060000%Z, (a, m)) (natural 3) /\
  explode_elements [(T "3000", -1 # 1)] [] = Some (c', x') /\ dget (T "3006") c' = Some v /\
  (133 # 100) * mass_share 3 a m < Qabs v /\ Qabs v < (134 # 100) * mass_share 3 a m.
Proof.
  do 5 eexists. split; [|split; [vm_compute; left; reflexivity|]].
  - assert (H : forall e z, In e [(T "3000", -1 # 1)] -> py_int (fst e) = Some z -> z = 3000%Z).
    { cbn [In]. intros e z [<-|[]] E. apply some_inj in E. now vm_compute in E. }
    split.
    + repeat constructor; eexists; split; reflexivity.
    + repeat constructor; cbn; intuition discriminate.
    + intros e e' z z' I I' E E' M. apply H in E; [|exact I]. apply H in E'; [|exact I']. subst z'. now elim M.
  - split; [vm_compute; reflexivity|]. split; [vm_compute; reflexivity|]. split; vm_compute; reflexivity.
Qed.
