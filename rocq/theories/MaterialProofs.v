(** Facts about the material model. *)
From Coq Require Import QArith Qabs Qfield Permutation.
From Verif Require Import PyStr PyStrFacts FortranNumber PyInt PyIntFacts PyDict NuclideData MaterialModel.
Open Scope nat_scope.
Open Scope list_scope.

(** The sum of a list (specification). *)
Fixpoint total (l : list Q) : Q := match l with [] => 0%Q | a :: r => (a + total r)%Q end.

Lemma total_app a b : (total (a ++ b) == total a + total b)%Q.
Proof. induction a as [|x a IH]; cbn [total app]; [ring|]. rewrite IH. ring. Qed.

Lemma sum_q_total l : (sum_q l == total l)%Q.
Proof.
  unfold sum_q. cut (forall a, fold_left Qplus l a == a + total l)%Q.
  - intro H. rewrite H. ring.
  - induction l as [|x l IH]; intro a; cbn [fold_left total]; [ring|]. rewrite IH. ring.
Qed.

Lemma total_scale {A} (f : A -> Q) (k : Q) l : (total (map (fun e => f e * k)%Q l) == total (map f l) * k)%Q.
Proof. induction l as [|x l IH]; cbn [map total]; [ring|]. rewrite IH. ring. Qed.

Lemma total_ext {A} (f g : A -> Q) l : (forall e, In e l -> f e == g e)%Q -> (total (map f l) == total (map g l))%Q.
Proof.
  induction l as [|x l IH]; cbn [map total]; intro H; [reflexivity|].
  rewrite IH by (intros; apply H; now right). rewrite (H x) by now left. reflexivity.
Qed.

Lemma nodup_app_parts {A} (a b : list A) : NoDup (a ++ b) -> NoDup a /\ NoDup b /\ forall x, In x a -> ~ In x b.
Proof.
  induction a as [|x a IH]; cbn [app]; intro N; [split; [constructor|split; [exact N|intros ? []]]|].
  inversion N as [|? ? Nx N']. subst. destruct (IH N') as (Na & Nb & D). rewrite in_app_iff in Nx. split; [|split].
  - constructor; tauto.
  - exact Nb.
  - intros y [->|I]; [tauto|auto].
Qed.

Lemma nodup_app_intro {A} (a b : list A) : NoDup a -> NoDup b -> (forall x, In x a -> ~ In x b) -> NoDup (a ++ b).
Proof.
  induction a as [|x a IH]; cbn [app]; intros Na Nb D; [exact Nb|].
  inversion Na as [|? ? Nx Na']. subst. constructor.
  - rewrite in_app_iff. intros [I|I]; [tauto|]. apply (D x); [now left|exact I].
  - apply IH; try assumption. intros y I. apply D. now right.
Qed.

(** ** Dictionaries filled with new keys *)
Lemma dset_new {V} k (v : V) d : ~ In k (keys d) -> dset k v d = d ++ [(k, v)].
Proof.
  induction d as [|[a b] d IH]; cbn [dset keys map fst In app]; intro N; [reflexivity|].
  destruct (text_eqb_spec a k) as [E|E]; [tauto|]. rewrite IH; [reflexivity|tauto].
Qed.

Lemma dset_all_new {V} (new : dict V) : forall d, NoDup (keys d ++ keys new) ->
  fold_left (fun d e => dset (fst e) (snd e) d) new d = d ++ new.
Proof.
  induction new as [|[k v] new IH]; intros d N; cbn [fold_left fst snd]; [now rewrite app_nil_r|].
  cbn [keys map fst] in N. assert (Nk : ~ In k (keys d)).
  { intro I. apply NoDup_remove_2 in N. apply N. apply in_or_app. now left. }
  rewrite dset_new by assumption. rewrite IH; [now rewrite <- app_assoc|].
  unfold keys in *. rewrite map_app. cbn [map fst]. now rewrite <- app_assoc.
Qed.

Lemma ddel_other {V} k (d : dict V) : ~ In k (keys d) -> ddel k d = d.
Proof.
  induction d as [|[a b] d IH]; cbn [ddel keys map fst In]; intro N; [reflexivity|].
  destruct (text_eqb_spec a k) as [E|E]; [tauto|]. rewrite IH; [reflexivity|tauto].
Qed.

Lemma ddel_filter {V} k (d : dict V) : NoDup (keys d) -> ddel k d = filter (fun e => negb (text_eqb (fst e) k)) d.
Proof.
  induction d as [|[a b] d IH]; cbn [ddel keys map fst filter]; intro N; [reflexivity|].
  inversion N as [|? ? Na N']. subst. destruct (text_eqb_spec a k) as [E|E]; cbn [negb].
  - subst. rewrite <- IH by assumption. symmetry. now apply ddel_other.
  - now rewrite IH.
Qed.

Lemma keys_filter_nodup {V} (f : text * V -> bool) (d : dict V) : NoDup (keys d) -> NoDup (keys (filter f d)).
Proof.
  induction d as [|e d IH]; cbn [filter keys map]; intro N; [constructor|].
  inversion N as [|? ? Na N']. subst. destruct (f e); [|auto]. cbn [map]. constructor; [|auto].
  intro I. apply Na. apply in_map_iff in I as (x & E & Ix). apply filter_In in Ix as [Ix _].
  apply in_map_iff. eauto.
Qed.

Lemma ddel_all_filter {V} (rm : list text) : forall d : dict V, NoDup (keys d) ->
  fold_left (fun d k => ddel k d) rm d = filter (fun e => negb (existsb (text_eqb (fst e)) rm)) d.
Proof.
  induction rm as [|k rm IH]; intros d N; cbn [fold_left existsb].
  - symmetry. cbn. induction d as [|e d IH]; cbn [filter]; [reflexivity|]. rewrite IH; [reflexivity|]. now inversion N.
  - rewrite IH by now apply nodup_ddel. rewrite ddel_filter by assumption.
    clear. induction d as [|e d IH]; cbn [filter]; [reflexivity|].
    destruct (text_eqb (fst e) k) eqn:E; cbn [negb orb filter]; [exact IH|].
    destruct (existsb (text_eqb (fst e)) rm); cbn [negb]; [exact IH|]. now rewrite IH.
Qed.

(** ** The table *)
(** Keys of the table: a zaid with positive A below ten times Z, times 10000. *)
Lemma table_keys : Forall (fun e => let z := (fst e / 10000000)%Z in let a := (fst e / 10000 mod 1000)%Z in
  (fst e = z * 10000000 + a * 10000 /\ 1 <= z <= 92 /\ 1 <= a < 10 * z)%Z) nuclide_table.
Proof.
  apply Forall_forall. intros e I.
  assert (H : forallb (fun e => let z := (fst e / 10000000)%Z in let a := (fst e / 10000 mod 1000)%Z in
     (fst e =? z * 10000000 + a * 10000) && (1 <=? z) && (z <=? 92) && (1 <=? a) && (a <? 10 * z))%Z%bool
     nuclide_table = true) by (vm_compute; reflexivity).
  rewrite forallb_forall in H. specialize (H e I). cbv beta zeta in *.
  repeat (apply andb_prop in H as [H ?]). lia.
Qed.

Lemma table_nodup : NoDup (map fst nuclide_table).
Proof.
  assert (H : forall l : list Z, (fix inc l := match l with a :: (b :: _) as r => (a <? b)%Z && inc r | _ => true end)%bool l = true -> NoDup l).
  { clear. induction l as [|a l IH]; intro H; [constructor|].
    assert (X : forall x, In x l -> (a < x)%Z).
    { clear IH. revert a H. induction l as [|b l IHl]; intros a H x I; [destruct I|].
      apply andb_prop in H as [H1 H2]. destruct I as [->|I]; [lia|]. specialize (IHl b H2 x I). lia. }
    constructor; [intro I; specialize (X a I); lia|]. apply IH.
    destruct l as [|b l]; [reflexivity|]. now apply andb_prop in H as [_ H]. }
  apply H. vm_compute. reflexivity.
Qed.

Lemma in_element_iff z e : In e nuclide_table -> in_element (1000 * z) (fst e) = true <-> (fst e / 10000 / 1000 = z)%Z.
Proof.
  intro I. pose proof (proj1 (Forall_forall _ _) table_keys e I) as H. cbv beta zeta in H.
  unfold in_element. cbv zeta. set (k := fst e) in *.
  assert (E : (k / 10000 / 1000 = k / 10000000)%Z) by (rewrite Z.div_div by lia; f_equal; lia).
  rewrite E. set (q := (k / 10000000)%Z) in *. set (a := (k / 10000 mod 1000)%Z) in *. clearbody q a.
  destruct H as (Hk & Hq & Ha). rewrite andb_true_iff, !Z.ltb_lt. split; [|intros <-; lia].
  intros [H1 H2]. assert (a < 920)%Z by lia. assert (z <= 92)%Z by lia. lia.
Qed.

(** The isotopes of the element of charge [z] in the table: zaid and abundance. *)
Definition isotopes (z : Z) : list (Z * Q) :=
  map (fun e => (fst e / 10000, fst (snd e)))%Z (filter (fun e => fst e / 10000 / 1000 =? z)%Z nuclide_table).

Lemma get_nucs_isotopes z : get_nucs (1000 * z) = isotopes z.
Proof.
  unfold get_nucs, isotopes. f_equal. apply filter_ext_in. intros e I.
  pose proof (in_element_iff z e I) as H. destruct (in_element (1000 * z) (fst e)), (Z.eqb_spec (fst e / 10000 / 1000) z);
    tauto || (exfalso; intuition congruence).
Qed.

Lemma isotopes_zaid z i a : In (i, a) (isotopes z) -> (i / 1000 = z /\ i mod 1000 <> 0 /\ 0 < i /\ 1 <= z <= 92)%Z.
Proof.
  unfold isotopes. rewrite in_map_iff. intros (e & E & I). injection E as <- <-. apply filter_In in I as [I H].
  apply Z.eqb_eq in H. pose proof (proj1 (Forall_forall _ _) table_keys e I) as K. cbv beta zeta in K.
  split; [exact H|]. destruct K as (K1 & K2 & K3). split; [lia|]. split.
  - apply Z.lt_le_trans with 1000%Z; [lia|]. rewrite K1. apply Z.div_le_lower_bound; lia.
  - rewrite Z.div_div in H by lia. change (10000 * 1000)%Z with 10000000%Z in H. lia.
Qed.

Lemma isotopes_nodup z : NoDup (map fst (isotopes z)).
Proof.
  unfold isotopes. rewrite map_map. cbn [fst].
  assert (H : forall l : list (Z * (Q * Q)), incl l nuclide_table -> NoDup (map fst l) ->
     NoDup (map (fun e => fst e / 10000)%Z (filter (fun e => fst e / 10000 / 1000 =? z)%Z l))).
  { induction l as [|e l IH]; cbn [map filter]; intros Hi N; [constructor|].
    inversion N as [|? ? Ne N']. subst. assert (Hl : incl l nuclide_table) by (intros x Ix; apply Hi; now right).
    destruct (fst e / 10000 / 1000 =? z)%Z; [|auto]. cbn [map]. constructor; [|auto].
    intro I. apply in_map_iff in I as (x & E & Ix). apply filter_In in Ix as [Ix _]. apply Ne. apply in_map_iff.
    exists x. split; [|exact Ix].
    pose proof (proj1 (Forall_forall _ _) table_keys e (Hi e (or_introl eq_refl))) as K1.
    pose proof (proj1 (Forall_forall _ _) table_keys x (Hl x Ix)) as K2. cbv beta zeta in *.
    assert (A : forall k, (k / 10000000 = k / 10000 / 1000)%Z) by (intro; rewrite Z.div_div by lia; f_equal; lia).
    rewrite A in K1, K2. rewrite E in K2. lia. }
  apply H; [apply incl_refl|apply table_nodup].
Qed.

(** The check of one element of the table. *)
Definition sums_100 (l : list (Z * Q)) : bool := match l with [] => true | _ => Qeq_bool (total (map snd l)) 100 end.

Lemma sums_100_ok l : sums_100 l = true -> l <> [] -> (total (map snd l) == 100)%Q.
Proof. destruct l; intros H N; [congruence|]. now apply Qeq_bool_iff. Qed.

Lemma table_totals : Forall (fun l => sums_100 l = true) (map (fun n => isotopes (Z.of_nat n)) (seq 0 93)).
Proof. apply Forall_forall. apply forallb_forall. vm_compute. reflexivity. Qed.

Lemma isotopes_range z : isotopes z <> [] -> (1 <= z <= 92)%Z.
Proof.
  pose proof (isotopes_zaid z) as H. destruct (isotopes z) as [|[i a] l]; intro N; [congruence|].
  exact (proj2 (proj2 (proj2 (H i a (or_introl eq_refl))))).
Qed.

Lemma isotopes_total z : isotopes z <> [] -> (total (map snd (isotopes z)) == 100)%Q.
Proof.
  intro N. pose proof (isotopes_range z N) as Hz. apply sums_100_ok; [|exact N].
  apply (proj1 (Forall_forall _ _) table_totals). apply in_map_iff. exists (Z.to_nat z).
  split; [f_equal; lia|apply in_seq; lia].
Qed.

(** ** Exploding *)
(** What one entry of a composition becomes. *)
Definition is_elem (k : text) : bool := match py_int k with Some z => (z mod 1000 =? 0)%Z | None => false end.
Definition exploded (e : text * Q) : dict Q :=
  match py_int (fst e) with
  | Some z => if (z mod 1000 =? 0)%Z
              then map (fun i => (str_Z (fst i), iso_fraction z (snd e) (fst i) (snd i))) (get_nucs z) else []
  | None => []
  end.

Lemma explode_scan_ok c : forall rm new, Forall (fun e => py_int (fst e) <> None) c ->
  NoDup (keys new ++ keys (flat_map exploded c)) ->
  explode_scan c rm new = Some (rm ++ filter is_elem (keys c), new ++ flat_map exploded c).
Proof.
  induction c as [|[k f] c IH]; intros rm new F N; cbn [explode_scan keys map fst filter flat_map].
  - now rewrite !app_nil_r.
  - inversion F as [|? ? Fk Fc]. subst. cbn [fst] in Fk. unfold is_elem at 1, exploded at 1. cbn [fst snd].
    cbn [flat_map] in N. unfold keys in N. rewrite map_app in N. unfold exploded at 1 in N. cbn [fst snd] in N.
    destruct (py_int k) as [z|]; [|congruence]. destruct (z mod 1000 =? 0)%Z.
    + set (ex := map (fun i => (str_Z (fst i), iso_fraction z f (fst i) (snd i))) (get_nucs z)) in *.
      assert (X : fold_left (fun d e => dset (str_Z (fst e)) (iso_fraction z f (fst e) (snd e)) d) (get_nucs z) new = new ++ ex).
      { rewrite <- (dset_all_new ex new).
        - unfold ex. generalize new. clear. induction (get_nucs z) as [|i l IH]; intro d; cbn [fold_left map fst snd]; auto.
        - rewrite app_assoc in N. now apply nodup_app_parts in N. }
      rewrite X, IH; [|assumption|].
      * rewrite <- !app_assoc. reflexivity.
      * unfold keys. rewrite map_app, <- app_assoc. exact N.
    + rewrite IH; [|assumption|exact N]. reflexivity.
Qed.

Lemma explode_elements_ok c x : Forall (fun e => py_int (fst e) <> None) c -> NoDup (keys c) ->
  NoDup (keys (filter (fun e => negb (is_elem (fst e))) c) ++ keys (flat_map exploded c)) ->
  exists x', explode_elements c x = Some (filter (fun e => negb (is_elem (fst e))) c ++ flat_map exploded c, x').
Proof.
  intros F Nc N. unfold explode_elements. rewrite explode_scan_ok; [|assumption|].
  2:{ cbn [keys map app]. now apply nodup_app_parts in N. }
  cbn [app]. eexists. f_equal. f_equal. rewrite ddel_all_filter by assumption.
  assert (E : filter (fun e => negb (existsb (text_eqb (fst e)) (filter is_elem (keys c)))) c
              = filter (fun e => negb (is_elem (fst e))) c).
  { apply filter_ext_in. intros e I. f_equal. destruct (is_elem (fst e)) eqn:Ee.
    - apply existsb_exists. exists (fst e). split; [|apply text_eqb_refl]. apply filter_In. split; [|exact Ee].
      now apply in_map.
    - destruct (existsb _ _) eqn:X; [|reflexivity]. apply existsb_exists in X as (y & Iy & Ey).
      apply text_eqb_eq in Ey. subst. apply filter_In in Iy as [_ Iy]. congruence. }
  rewrite E. now rewrite dset_all_new.
Qed.
