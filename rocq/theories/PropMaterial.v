(** Properties of materials: C34 (normalising), C35 and C36 (exploding elements), C37 (repeated
    nuclides), C56 (SCONE densities), C65 (elements without natural isotopes). *)
From Coq Require Import QArith Qabs Qfield Permutation Lqa.
From Verif Require Import PyStr PyStrFacts FortranNumber PyInt PyIntFacts PyDict NuclideData MaterialModel MaterialProofs.
Open Scope nat_scope.
Open Scope list_scope.

(** ** C34: normalising *)

(** Every fraction is divided by the magnitude of the sum; magnitudes of like signs then add up to one. *)
Theorem C34_normalise c : ~ (total (map snd c) == 0)%Q ->
  exists c' k, normalise c = Some c' /\ (0 < k)%Q /\
    Forall2 (fun e e' => fst e' = fst e /\ (snd e' == k * snd e)%Q) c c' /\
    ((Forall (fun e => 0 <= snd e)%Q c \/ Forall (fun e => snd e <= 0)%Q c) ->
       (total (map (fun e => Qabs (snd e)) c') == 1)%Q) /\
    (k * Qabs (total (map snd c)) == 1)%Q.
Proof.
  intro N. unfold normalise. set (s := Qabs (sum_q (map snd c))). cbv zeta.
  assert (Es : (s == Qabs (total (map snd c)))%Q) by (unfold s; now rewrite sum_q_total).
  assert (Ps : (0 < s)%Q).
  { rewrite Es. clear -N. apply Qabs_case; intro H; lra. }
  assert (Z0 : Qeq_bool s 0 = false).
  { destruct (Qeq_bool s 0) eqn:E; [|reflexivity]. apply Qeq_bool_iff in E. lra. }
  rewrite Z0. cbn [andb]. exists (map (fun e => (fst e, (snd e / s)%Q)) c), (/ s)%Q. clearbody s.
  split; [reflexivity|]. split; [now apply Qinv_lt_0_compat|]. split; [|split; [|rewrite <- Es; field; lra]].
  - clear. induction c as [|e c IH]; cbn [map]; constructor; [|exact IH]. cbn [fst snd]. split; [reflexivity|].
    unfold Qdiv. ring.
  - intro Sg. rewrite map_map. cbn [snd].
    assert (X : (total (map (fun e : text * Q => Qabs (snd e / s)) c) == total (map (fun e => Qabs (snd e)) c) * / s)%Q).
    { rewrite <- total_scale. apply total_ext. intros e _. unfold Qdiv. rewrite Qabs_Qmult.
      rewrite (Qabs_pos (/ s)); [reflexivity|]. apply Qlt_le_weak. now apply Qinv_lt_0_compat. }
    rewrite X. clear X. assert (Y : (total (map (fun e => Qabs (snd e)) c) == s)%Q).
    { rewrite Es. destruct Sg as [Sg|Sg].
      - assert (A : (total (map (fun e => Qabs (snd e)) c) == total (map snd c) /\ 0 <= total (map snd c))%Q).
        { clear -Sg. induction Sg as [|e c P Sg IH]; cbn [map total]; [split; [reflexivity|lra]|].
          destruct IH as [-> B]. rewrite (Qabs_pos (snd e)) by exact P. split; [reflexivity|lra]. }
        destruct A as [-> B]. now rewrite Qabs_pos.
      - assert (A : (total (map (fun e => Qabs (snd e)) c) == - total (map snd c) /\ total (map snd c) <= 0)%Q).
        { clear -Sg. induction Sg as [|e c P Sg IH]; cbn [map total]; [split; [reflexivity|lra]|].
          destruct IH as [-> B]. rewrite (Qabs_neg (snd e)) by exact P. split; [ring|lra]. }
        destruct A as [-> B]. now rewrite Qabs_neg. }
    rewrite Y. field. lra.
Qed.
Print Assumptions C34_normalise.

Example C34_example :
  normalise [(T "1001", 2%Q); (T "8016", 1%Q)] = Some [(T "1001", (2 / 3)%Q); (T "8016", (1 / 3)%Q)].
Proof. reflexivity. Qed.

(** ** C35: exploding elements given by atom fractions *)

(** The charge of the nuclide or element a key names. *)
Definition charge (k : text) : option Z := option_map (fun z => z / 1000)%Z (py_int k).
(** The amount of all entries of one charge. *)
Definition of_charge (z : Z) (c : dict Q) : Q :=
  total (map snd (filter (fun e => match charge (fst e) with Some y => (y =? z)%Z | None => false end) c)).

(** A composition in which every key is a zaid, no zaid is listed twice, and no isotope is listed next
    to its element. *)
Record plain_comp (c : dict Q) : Prop := {
  pc_zaid : Forall (fun e => exists z, py_int (fst e) = Some z /\ (0 < z)%Z) c;
  pc_once : NoDup (map (fun e => py_int (fst e)) c);
  pc_apart : forall e e' z z', In e c -> In e' c -> py_int (fst e) = Some (1000 * z)%Z -> py_int (fst e') = Some z' ->
    (z' mod 1000 <> 0)%Z -> (z' / 1000 <> z)%Z }.

Lemma plain_tail e c : plain_comp (e :: c) -> plain_comp c.
Proof.
  intros [A B C]. split.
  - now inversion A.
  - now inversion B.
  - intros x y z z' Ix Iy. apply C; now right.
Qed.

Lemma plain_keys c : plain_comp c -> NoDup (keys c).
Proof.
  intros [_ N _]. unfold keys. rewrite <- (map_map fst py_int) in N. now apply NoDup_map_inv in N.
Qed.

Lemma elem_iff k z : py_int k = Some z -> is_elem k = true <-> exists y, z = (1000 * y)%Z.
Proof.
  intro E. unfold is_elem. rewrite E, Z.eqb_eq. split.
  - intro M. exists (z / 1000)%Z. pose proof (Z_div_mod_eq_full z 1000). lia.
  - intros [y ->]. rewrite Z.mul_comm. apply Z.mod_mul. lia.
Qed.

Lemma exploded_elem k f y : py_int k = Some (1000 * y)%Z ->
  exploded (k, f) = map (fun i => (str_Z (fst i), iso_fraction (1000 * y) f (fst i) (snd i))) (isotopes y).
Proof.
  intro E. unfold exploded. cbn [fst snd]. rewrite E.
  assert (M : ((1000 * y) mod 1000 = 0)%Z) by (rewrite Z.mul_comm; apply Z.mod_mul; lia).
  rewrite M. cbn [Z.eqb]. now rewrite get_nucs_isotopes.
Qed.

Lemma exploded_nonelem e : is_elem (fst e) = false -> exploded e = [].
Proof. unfold is_elem, exploded. destruct (py_int (fst e)); [|reflexivity]. intros ->. reflexivity. Qed.

(** The keys of the new nuclides: the isotope of which element each is. *)
Lemma exploded_key c t : In t (keys (flat_map exploded c)) ->
  exists k f y i a, In (k, f) c /\ py_int k = Some (1000 * y)%Z /\ In (i, a) (isotopes y) /\ t = str_Z i.
Proof.
  unfold keys. rewrite in_map_iff. intros (e & Et & I). apply in_flat_map in I as ([k f] & Ik & Ie).
  destruct (is_elem k) eqn:El; [|rewrite (exploded_nonelem (k, f)) in Ie by exact El; destruct Ie].
  assert (Ek : exists z, py_int k = Some z) by (unfold is_elem in El; destruct (py_int k); [eauto|discriminate]).
  destruct Ek as [z Ek]. destruct (proj1 (elem_iff k z Ek) El) as [y Ey]. subst z. rewrite (exploded_elem k f y Ek) in Ie.
  apply in_map_iff in Ie as ([i a] & E & Ii). exists k, f, y, i, a. subst. auto.
Qed.

Lemma exploded_nodup c : plain_comp c -> NoDup (keys (flat_map exploded c)).
Proof.
  induction c as [|[k f] c IH]; intro P; cbn [flat_map]; [constructor|].
  assert (Pc := plain_tail _ _ P). destruct P as [PZ PN PA]. unfold keys. rewrite map_app.
  apply nodup_app_intro; [| exact (IH Pc) |].
  - destruct (is_elem k) eqn:El; [|rewrite (exploded_nonelem (k, f)) by exact El; constructor].
    inversion PZ as [|? ? (z & Ek & _) _]. subst. cbn [fst] in Ek. destruct (proj1 (elem_iff k z Ek) El) as [y Ey]. subst z.
    rewrite (exploded_elem k f y Ek), map_map. cbn [fst]. rewrite <- (map_map fst str_Z).
    apply FinFun.Injective_map_NoDup; [intros a b; apply str_Z_inj|apply isotopes_nodup].
  - intros t I J. assert (I' : In t (keys (flat_map exploded [(k, f)]))) by (cbn [flat_map]; now rewrite app_nil_r).
    apply exploded_key in I' as (k1 & f1 & y1 & i1 & a1 & [H1|[]] & E1 & I1 & T1). injection H1 as -> ->.
    apply exploded_key in J as (k2 & f2 & y2 & i2 & a2 & H2 & E2 & I2 & T2).
    rewrite T1 in T2. apply str_Z_inj in T2. subst i2. apply isotopes_zaid in I1 as (C1 & _). apply isotopes_zaid in I2 as (C2 & _).
    assert (y1 = y2) by lia. subst y2. inversion PN as [|? ? Nk _]. apply Nk. apply in_map_iff. exists (k2, f2).
    cbn [fst]. split; [congruence|exact H2].
Qed.

Lemma explode_shape c x : plain_comp c ->
  exists x', explode_elements c x = Some (filter (fun e => negb (is_elem (fst e))) c ++ flat_map exploded c, x')
    /\ NoDup (keys (filter (fun e => negb (is_elem (fst e))) c ++ flat_map exploded c)).
Proof.
  intro P. assert (N : NoDup (keys (filter (fun e => negb (is_elem (fst e))) c) ++ keys (flat_map exploded c))).
  { apply nodup_app_intro.
    - now apply keys_filter_nodup, plain_keys.
    - now apply exploded_nodup.
    - intros t I J. apply exploded_key in J as (k & f & y & i & a & Ik & Ek & Ii & ->).
      apply in_map_iff in I as (e & Ee & I). apply filter_In in I as [I Ne].
      apply isotopes_zaid in Ii as (C & M & _). apply (pc_apart c P (k, f) e y i Ik I Ek); [|exact M|exact C].
      rewrite Ee. apply py_int_str_Z. }
  destruct (explode_elements_ok c x) as [x' E].
  - apply (Forall_impl _) with (2 := pc_zaid c P). intros e (z & -> & _). discriminate.
  - now apply plain_keys.
  - exact N.
  - exists x'. split; [exact E|]. unfold keys in *. now rewrite map_app.
Qed.

(** The isotopes that come from an element have no library. *)
Lemma explode_libraries c x c' x' : plain_comp c -> explode_elements c x = Some (c', x') ->
  (forall t, In t (keys (flat_map exploded c)) -> dget t x' = Some []) /\ (forall t, ~ In t (keys (flat_map exploded c)) -> dget t x' = dget t x).
Proof.
  intros P E. unfold explode_elements in E. rewrite explode_scan_ok in E; [|apply (Forall_impl _) with (2 := pc_zaid c P); intros e (z & -> & _); discriminate|cbn [keys map app]; now apply exploded_nodup].
  cbn [app] in E. injection E as _ <-. generalize (flat_map exploded c) as l. clear. intro l. revert x. induction l as [|[k v] l IH]; intro x; cbn [fold_left fst]; [split; [intros t []|reflexivity]|].
  destruct (IH (dset k [] x)) as [H1 H2]. unfold keys in *. cbn [map fst In]. split.
  - intros t I. destruct (in_dec (list_eq_dec ascii_dec) t (map fst l)) as [J|J]; [now apply H1|]. destruct I as [-> |I]; [|tauto]. rewrite (H2 t J), dget_dset. now rewrite text_eqb_refl.
  - intros t N. rewrite H2, dget_dset by tauto. destruct (text_eqb_spec k t); [subst; tauto|reflexivity].
Qed.

Lemma q_shuffle a b c : (a + (b + c) == b + (a + c))%Q.
Proof. ring. Qed.

Lemma of_charge_app z a b : (of_charge z (a ++ b) == of_charge z a + of_charge z b)%Q.
Proof. unfold of_charge. rewrite filter_app, map_app. apply total_app. Qed.

Lemma of_charge_all z c : Forall (fun e => charge (fst e) = Some z) c -> of_charge z c = total (map snd c).
Proof.
  unfold of_charge. induction 1 as [|e c E F IH]; cbn [filter]; [reflexivity|]. rewrite E, Z.eqb_refl. cbn [map total].
  now rewrite IH.
Qed.
Lemma of_charge_none z c : Forall (fun e => charge (fst e) <> Some z) c -> of_charge z c = 0%Q.
Proof.
  unfold of_charge. induction 1 as [|e c E F IH]; cbn [filter]; [reflexivity|].
  destruct (charge (fst e)) as [y|]; [|exact IH]. destruct (Z.eqb_spec y z); [congruence|exact IH].
Qed.

(** The isotopes of an element in atom fractions add up to the element. *)
Lemma exploded_total k f y : py_int k = Some (1000 * y)%Z -> (0 <= f)%Q -> isotopes y <> [] ->
  (total (map snd (exploded (k, f))) == f)%Q.
Proof.
  intros E P N. rewrite (exploded_elem k f y E), map_map. cbn [snd].
  assert (X : (total (map (fun i : Z * Q => iso_fraction (1000 * y) f (fst i) (snd i)) (isotopes y))
          == total (map snd (isotopes y)) * (f / 100))%Q).
  { rewrite <- total_scale. apply total_ext. intros i _. unfold iso_fraction.
    apply Qle_bool_iff in P. rewrite P. cbn [negb]. field. }
  rewrite X, (isotopes_total y N). field.
Qed.

Theorem C35_explode_atoms c x : plain_comp c ->
  (forall k f y, In (k, f) c -> py_int k = Some (1000 * y)%Z -> (0 <= f)%Q /\ isotopes y <> []) ->
  exists c' x', explode_elements c x = Some (c', x') /\ NoDup (keys c') /\
    (** no element is left, *)
    (forall k y, In k (keys c') -> py_int k <> Some (1000 * y)%Z) /\
    (** isotopes are kept, *)
    (forall k f z, In (k, f) c -> py_int k = Some z -> (z mod 1000 <> 0)%Z -> dget k c' = Some f) /\
    (** each isotope of an element gets its share *)
    (forall k f y i a, In (k, f) c -> py_int k = Some (1000 * y)%Z -> In (i, a) (isotopes y) ->
       exists v, dget (str_Z i) c' = Some v /\ (v == f * (a / 100))%Q) /\
    (** and the atoms of every charge are conserved. *)
    (forall z, (of_charge z c' == of_charge z c)%Q).
Proof.
  intros P El. destruct (explode_shape c x P) as (x' & E & N). eexists. exists x'. split; [exact E|]. split; [exact N|].
  split; [|split; [|split]].
  - intros k y I. unfold keys in I. rewrite map_app in I. apply in_app_or in I as [I|I].
    + apply in_map_iff in I as (e & <- & I). apply filter_In in I as [_ Ne]. intro Ek.
      apply negb_true_iff in Ne. assert (is_elem (fst e) = true); [|congruence]. apply (elem_iff _ _ Ek). eauto.
    + apply exploded_key in I as (k1 & f1 & y1 & i & a & _ & _ & Ii & ->). rewrite py_int_str_Z.
      apply isotopes_zaid in Ii as (_ & M & _). intro H. assert (i = 1000 * y)%Z by congruence. apply M. lia.
  - intros k f z I Ek M. apply in_dget; [exact N|]. apply in_or_app. left. apply filter_In. split; [exact I|].
    cbn [fst]. unfold is_elem. rewrite Ek. destruct (Z.eqb_spec (z mod 1000) 0); [contradiction|reflexivity].
  - intros k f y i a I Ek Ii. exists (iso_fraction (1000 * y) f i a). split.
    + apply in_dget; [exact N|]. apply in_or_app. right. apply in_flat_map. exists (k, f). split; [exact I|].
      rewrite (exploded_elem k f y Ek). apply in_map_iff. exists (i, a). auto.
    + destruct (El k f y I Ek) as [Pf _]. unfold iso_fraction. apply Qle_bool_iff in Pf. rewrite Pf. cbn [negb]. field.
  - intro z. rewrite of_charge_app.
    assert (Pz := pc_zaid c P). clear P E N. induction c as [|[k f] c IH]; [reflexivity|].
    inversion Pz as [|? ? (w & Ek & _) Pz']. subst. cbn [fst] in Ek.
    specialize (IH (fun k f y I => El k f y (or_intror I)) Pz'). cbn [filter flat_map fst].
    change ((k, f) :: c) with ([(k, f)] ++ c). rewrite !of_charge_app.
    destruct (is_elem k) eqn:Ee; cbn [negb].
    + destruct (proj1 (elem_iff k w Ek) Ee) as [y Ey]. subst w. destruct (El k f y (or_introl eq_refl) Ek) as [Pf Ny].
      assert (A : (of_charge z (exploded (k, f)) == of_charge z [(k, f)])%Q).
      { assert (Ck : charge k = Some y).
        { unfold charge. rewrite Ek. cbn [option_map]. f_equal. rewrite Z.mul_comm. apply Z.div_mul. lia. }
        assert (F : Forall (fun e => charge (fst e) = Some y) (exploded (k, f))).
        { rewrite (exploded_elem k f y Ek). apply Forall_forall. intros e I. apply in_map_iff in I as ([i a] & <- & Ii).
          cbn [fst]. unfold charge. rewrite py_int_str_Z. cbn [option_map]. apply isotopes_zaid in Ii. now destruct Ii as [-> _]. }
        destruct (Z.eq_dec y z) as [->|Nz].
        - rewrite of_charge_all by exact F. rewrite (exploded_total k f z Ek Pf Ny).
          rewrite of_charge_all by (constructor; [exact Ck|constructor]). cbn [map total snd]. ring.
        - rewrite of_charge_none; [rewrite of_charge_none; [reflexivity|]|].
          + constructor; [|constructor]. cbn [fst]. rewrite Ck. congruence.
          + apply (Forall_impl _) with (2 := F). intros e ->. congruence. }
      rewrite A, <- IH. apply q_shuffle.
    + rewrite (exploded_nonelem (k, f) Ee). change (of_charge z []) with 0%Q. rewrite Qplus_0_l.
      change ((k, f) :: filter (fun e => negb (is_elem (fst e))) c) with ([(k, f)] ++ filter (fun e => negb (is_elem (fst e))) c).
      rewrite of_charge_app, <- IH. symmetry. apply Qplus_assoc.
Qed.
Print Assumptions C35_explode_atoms.

(** Natural oxygen with an explicit hydrogen isotope. *)
Definition water : dict Q := [(T "1001", 2 # 3); (T "8000", 1 # 3)]%Q.
Lemma some_inj {A} (a b : A) : Some a = Some b -> a = b.
Proof. congruence. Qed.
Lemma water_zaid e z : In e water -> py_int (fst e) = Some z -> (z = 1001 \/ z = 8000 /\ snd e = 1 # 3)%Z.
Proof. cbn [water In]. intros [<-|[<-|[]]] E; apply some_inj in E; vm_compute in E; subst; auto. Qed.
Example C35_example_plain : plain_comp water.
Proof.
  split.
  - repeat constructor; eexists; split; reflexivity.
  - repeat constructor; cbn; intuition discriminate.
  - intros e e' z z' I I' E E' M. apply water_zaid in E; [|exact I]. apply water_zaid in E'; [|exact I'].
    destruct E as [E|[E _]], E' as [->|[-> _]]; try lia; cbn; lia.
Qed.
Example C35_example_elem : forall k f y, In (k, f) water -> py_int k = Some (1000 * y)%Z -> (0 <= f)%Q /\ isotopes y <> [].
Proof.
  intros k f y I E. destruct (water_zaid (k, f) _ I E) as [H|[H F]]; [lia|].
  assert (y = 8%Z) by lia. subst. cbn [snd] in F. rewrite F. split; [lra|]. vm_compute. discriminate.
Qed.
Example C35_example_run : exists c' x', explode_elements water [] = Some (c', x') /\
  keys c' = [T "1001"; T "8016"; T "8017"; T "8018"] /\ (of_charge 8 c' == 1 # 3)%Q.
Proof. eexists. eexists. split; [reflexivity|]. split; reflexivity. Qed.

(** ** C36: mass fractions, and an isotope listed next to its element *)

(** Hydrogen given by mass: the isotopes do not add up to the element, although this composition meets
    every condition of C35 except the sign. *)
Theorem C36_mass_conserved_refuted : exists c c' x', plain_comp c /\
  (forall k f y, In (k, f) c -> py_int k = Some (1000 * y)%Z -> (f < 0)%Q /\ isotopes y <> []) /\
  explode_elements c [] = Some (c', x') /\ ~ (of_charge 1 c' == of_charge 1 c)%Q.
Proof.
  exists [(T "1000", -1 # 1)]. eexists. eexists. split; [|split; [|split; [vm_compute; reflexivity|]]].
  - assert (H : forall e z, In e [(T "1000", -1 # 1)] -> py_int (fst e) = Some z -> z = 1000%Z).
    { cbn [In]. intros e z [<-|[]] E. apply some_inj in E. now vm_compute in E. }
    split.
    + repeat constructor; eexists; split; reflexivity.
    + repeat constructor; cbn; intuition discriminate.
    + intros e e' z z' I I' E E' M. apply H in E; [|exact I]. apply H in E'; [|exact I']. subst z'. now elim M.
  - intros k f y [I|[]] E. injection I as <- <-. apply some_inj in E. vm_compute (py_int _) in E.
    assert (H : (1000 = 1000 * y)%Z) by exact E. assert (y = 1%Z) by lia. subst. split; [lra|vm_compute; discriminate].
  - vm_compute. discriminate.
Qed.
Print Assumptions C36_mass_conserved_refuted.

(** The ratio of the two isotopes is not that of abundance times mass: the heavy one gets less than half
    of its share with respect to the light one. *)
Theorem C36_mass_ratio_refuted : exists c c' x' h d mh md ah ad,
  explode_elements c [] = Some (c', x') /\ dget (T "1001") c' = Some h /\ dget (T "1002") c' = Some d /\
  In (10010000%Z, (ah, mh)) nuclide_table /\ In (10020000%Z, (ad, md)) nuclide_table /\
  c = [(T "1000", -1 # 1)] /\
  ~ (d * (ah * mh) == h * (ad * md))%Q /\ (2 * (Qabs d * (ah * mh)) < Qabs h * (ad * md))%Q.
Proof.
  do 9 eexists. split; [|split; [|split; [|split; [|split; [|split; [reflexivity|]]]]]].
  - vm_compute. reflexivity.
  - vm_compute. reflexivity.
  - vm_compute. reflexivity.
  - left. reflexivity.
  - right. left. reflexivity.
  - split; [vm_compute; discriminate|vm_compute; reflexivity].
Qed.
Print Assumptions C36_mass_ratio_refuted.

(** An isotope listed next to its element loses its own fraction: half of the oxygen disappears. *)
Theorem C36_listed_isotope_refuted : exists c c' x' v,
  c = [(T "8000", 1 # 2); (T "8016", 1 # 2)]%Q /\ explode_elements c [] = Some (c', x') /\
  dget (T "8016") c' = Some v /\ (v < 1 # 2)%Q /\ (of_charge 8 c' == 1 # 2)%Q /\ (of_charge 8 c == 1)%Q.
Proof.
  do 4 eexists. split; [reflexivity|]. split; [vm_compute; reflexivity|]. split; [vm_compute; reflexivity|].
  split; [vm_compute; reflexivity|]. split; vm_compute; reflexivity.
Qed.
Print Assumptions C36_listed_isotope_refuted.

(** ** C65: an element that has no isotope in the table *)

(** It is removed and nothing takes its place: a material of natural-less technetium becomes empty. *)
Theorem C65_element_dropped_refuted : exists c x', plain_comp c /\ (of_charge 43 c == 1)%Q /\
  explode_elements c [] = Some ([], x').
Proof.
  exists [(T "43000", 1%Q)]. eexists. split; [|split; [vm_compute; reflexivity|vm_compute; reflexivity]].
  assert (H : forall e z, In e [(T "43000", 1%Q)] -> py_int (fst e) = Some z -> z = 43000%Z).
  { cbn [In]. intros e z [<-|[]] E. apply some_inj in E. now vm_compute in E. }
  split.
  - repeat constructor; eexists; split; reflexivity.
  - repeat constructor; cbn; intuition discriminate.
  - intros e e' z z' I I' E E' M. apply H in E; [|exact I]. apply H in E'; [|exact I']. subst z'. now elim M.
Qed.
Print Assumptions C65_element_dropped_refuted.

(** Exactly the elements of the table survive. *)
Theorem C65_element_kept_iff c x k f y : plain_comp c -> In (k, f) c -> py_int k = Some (1000 * y)%Z ->
  exists c' x', explode_elements c x = Some (c', x') /\
    ((exists k', In k' (keys c') /\ charge k' = Some y) <-> isotopes y <> []).
Proof.
  intros P I Ek. destruct (explode_shape c x P) as (x' & E & N). eexists. exists x'. split; [exact E|]. split.
  - intros (k' & I' & Ck). unfold keys in I'. rewrite map_app in I'. apply in_app_or in I' as [I'|I'].
    + exfalso. apply in_map_iff in I' as (e & <- & Ie). apply filter_In in Ie as [Ie Ne]. apply negb_true_iff in Ne.
      unfold charge in Ck. destruct (py_int (fst e)) as [z|] eqn:Ez; [|discriminate]. cbn [option_map] in Ck. injection Ck as Ck.
      apply (pc_apart c P (k, f) e y z I Ie Ek Ez); [|exact Ck]. unfold is_elem in Ne. rewrite Ez in Ne. now apply Z.eqb_neq in Ne.
    + apply exploded_key in I' as (k1 & f1 & y1 & i & a & _ & _ & Ii & ->). unfold charge in Ck.
      rewrite py_int_str_Z in Ck. cbn [option_map] in Ck. injection Ck as Ck. pose proof (isotopes_zaid _ _ _ Ii) as (Z1 & _).
      assert (y1 = y) by lia. subst. intro Hn. rewrite Hn in Ii. destruct Ii.
  - intro Ny. assert (X : exists i a, In (i, a) (isotopes y)).
    { destruct (isotopes y) as [|[i a] l]; [congruence|]. exists i, a. now left. }
    destruct X as (i & a & Ii). exists (str_Z i). split.
    + unfold keys. rewrite map_app. apply in_or_app. right. apply in_map_iff.
      exists (str_Z i, iso_fraction (1000 * y) f i a). split; [reflexivity|]. apply in_flat_map. exists (k, f).
      split; [exact I|]. rewrite (exploded_elem k f y Ek). apply in_map_iff. exists (i, a). auto.
    + unfold charge. rewrite py_int_str_Z. cbn [option_map]. f_equal. now apply isotopes_zaid in Ii.
Qed.
Print Assumptions C65_element_kept_iff.

(** ** C37: repeated nuclides *)

(** What a material card lists: keywords (with an equals sign) and nuclides with a number. *)
Inductive entry := Keyword (w : text) | Nuclide (w num : text).
Definition entry_words (e : entry) : list text := match e with Keyword w => [w] | Nuclide w n => [w; n] end.
Definition no_eq (w : text) : Prop := ~ In "="%char w.
Definition entry_ok (e : entry) : Prop :=
  match e with
  | Keyword w => In "="%char w
  | Nuclide w n => no_eq w /\ no_eq n /\ get_fortran_formatted_number n <> None
  end.
(** The zaid is what comes before the first dot. *)
Fixpoint before_dot (w : text) : text :=
  match w with [] => [] | c :: r => if Ascii.eqb "."%char c then [] else c :: before_dot r end.
(** The fractions listed for a nuclide. *)
Definition listed (n : text) (e : entry) : Q :=
  match e with
  | Keyword _ => 0%Q
  | Nuclide w f => if text_eqb (before_dot w) n
                   then match get_fortran_formatted_number f with Some q => q | None => 0%Q end else 0%Q
  end.
Definition lists (n : text) (es : list entry) : Prop := exists w f, In (Nuclide w f) es /\ before_dot w = n.

(** The library is what comes after the first dot, up to the next; the last entry for a nuclide decides. *)
Fixpoint after_dot (w : text) : text :=
  match w with [] => [] | c :: r => if Ascii.eqb "."%char c then before_dot r else after_dot r end.
Definition library (n : text) (es : list entry) (l : text) : Prop :=
  exists a w f b, es = a ++ Nuclide w f :: b /\ before_dot w = n /\ after_dot w = l /\ ~ lists n b.

Lemma nuclide_of_before w : nuclide_of w = before_dot w.
Proof.
  unfold nuclide_of. induction w as [|c w IH]; cbn [split_on before_dot]; [reflexivity|].
  destruct (Ascii.eqb "."%char c); [reflexivity|]. destruct (split_on "."%char w) as [|a l] eqn:E.
  - cbn [nth] in *. now rewrite <- IH.
  - cbn [nth] in *. now rewrite IH.
Qed.

Lemma xsid_of_after w : xsid_of w = after_dot w.
Proof.
  unfold xsid_of. induction w as [|c w IH]; cbn [split_on after_dot]; [reflexivity|].
  destruct (Ascii.eqb "."%char c); [cbn [nth]; apply nuclide_of_before|]. destruct (split_on "."%char w) as [|a l] eqn:E; cbn [nth] in *; exact IH.
Qed.

Lemma library_tail n e es l : library n es l -> library n (e :: es) l.
Proof. intros (a & w & f & b & -> & H). exists (e :: a), w, f, b. split; [reflexivity|exact H]. Qed.
Lemma library_cons n e es l : library n (e :: es) l -> library n es l \/ (~ lists n es /\ exists w f, e = Nuclide w f /\ before_dot w = n /\ after_dot w = l).
Proof.
  intros (a & w & f & b & E & B & A & N). destruct a as [|e' a]; injection E as -> ->; [right; split; [exact N|exists w, f; auto]|]. left. exists a, w, f, b. auto.
Qed.

Lemma no_eq_test w : existsb (Ascii.eqb "="%char) w = false <-> no_eq w.
Proof.
  unfold no_eq. split.
  - intros E I. assert (X : existsb (Ascii.eqb "="%char) w = true); [|congruence]. apply existsb_exists. eauto using Ascii.eqb_refl.
  - intro N. destruct (existsb _ w) eqn:E; [|reflexivity]. apply existsb_exists in E as (x & I & X).
    apply Ascii.eqb_eq in X. subst. contradiction.
Qed.

Lemma filter_entries es : Forall entry_ok es ->
  filter (fun t => negb (existsb (Ascii.eqb "="%char) t)) (flat_map entry_words es)
  = flat_map (fun e => match e with Keyword _ => [] | Nuclide w n => [w; n] end) es.
Proof.
  induction 1 as [|e es O F IH]; cbn [flat_map]; [reflexivity|]. rewrite filter_app. apply f_equal2; [|exact IH].
  destruct e as [w|w n]; cbn [entry_words filter entry_ok] in *.
  - destruct (existsb _ w) eqn:E; [reflexivity|]. apply no_eq_test in E. contradiction.
  - destruct O as (A & B & _). apply no_eq_test in A, B. now rewrite A, B.
Qed.

Lemma mcnp_pairs_ok es : forall c x, Forall entry_ok es -> NoDup (keys c) ->
  exists c' x', mcnp_pairs (flat_map (fun e => match e with Keyword _ => [] | Nuclide w n => [w; n] end) es) c x = Some (c', x')
  /\ NoDup (keys c') /\ forall n, (In n (keys c') <-> In n (keys c) \/ lists n es) /\
    (forall v, dget n c' = Some v -> (v == match dget n c with Some u => u | None => 0 end + total (map (listed n) es))%Q) /\
    (forall l, library n es l -> dget n x' = Some l) /\ (~ lists n es -> dget n x' = dget n x).
Proof.
  induction es as [|e es IH]; intros c x F N; cbn [flat_map app].
  - exists c, x. split; [reflexivity|]. split; [exact N|]. intro n. split; [|split; [|split; [|reflexivity]]].
    + split; [tauto|]. intros [I|(w & f & [] & _)]. exact I.
    + intros v ->. cbn [map total]. ring.
    + intros l (a & w & f & b & E & _). destruct a; discriminate.
  - inversion F as [|? ? O F']. subst. destruct e as [w|w f]; cbn [app].
    + destruct (IH c x F' N) as (c' & x' & E & N' & H). exists c', x'. split; [exact E|]. split; [exact N'|].
      intro n. destruct (H n) as (H1 & H2 & H3 & H4). split; [|split; [|split]].
      * rewrite H1. unfold lists. split; (intros [I|(w' & f' & I & B)]; [tauto|right; exists w', f'; split; [|exact B]]).
        -- now right.
        -- destruct I as [I|I]; [discriminate|exact I].
      * intros v Ev. rewrite (H2 v Ev). cbn [map total listed]. ring.
      * intros l L. apply library_cons in L as [L|(_ & w' & f' & E' & _)]; [now apply H3|discriminate].
      * intro NL. apply H4. intros (w' & f' & I & B). apply NL. exists w', f'. split; [now right|exact B].
    + cbn [mcnp_pairs]. destruct O as (_ & _ & O). destruct (get_fortran_formatted_number f) as [q|] eqn:Eq; [|congruence].
      cbv zeta. rewrite nuclide_of_before.
      set (c1 := match dget (before_dot w) c with Some g => dset (before_dot w) (g + q)%Q c | None => dset (before_dot w) q c end).
      assert (N1 : NoDup (keys c1)) by (unfold c1; destruct (dget (before_dot w) c); now apply nodup_dset).
      destruct (IH c1 (dset (before_dot w) (xsid_of w) x) F' N1) as (c' & x' & E & N' & H).
      exists c', x'. split; [exact E|]. split; [exact N'|]. intro n. destruct (H n) as (H1 & H2 & H3 & H4).
      assert (K : In n (keys c1) <-> n = before_dot w \/ In n (keys c)).
      { unfold c1. destruct (dget (before_dot w) c); apply in_keys_dset. }
      split; [|split; [|split]].
      * rewrite H1, K. unfold lists. split.
        -- intros [[->|I]|(w' & f' & I & B)]; [right; exists w, f; split; [now left|reflexivity]|tauto|].
           right. exists w', f'. split; [now right|exact B].
        -- intros [I|(w' & f' & [I|I] & B)]; [tauto| |right; eauto]. injection I as -> ->. left. left. now symmetry.
      * intros v Ev. rewrite (H2 v Ev). cbn [map total listed]. rewrite Eq.
        assert (G : dget n c1 = if text_eqb (before_dot w) n
           then Some (match dget (before_dot w) c with Some g => g + q | None => q end)%Q else dget n c).
        { unfold c1. destruct (dget (before_dot w) c); apply dget_dset. }
        rewrite G. destruct (text_eqb_spec (before_dot w) n) as [B|B]; [|ring].
        subst n. destruct (dget (before_dot w) c); ring.
      * intros l L. apply library_cons in L as [L|(NL & w' & f' & E' & B & A)]; [now apply H3|]. injection E' as <- <-.
        rewrite (H4 NL), dget_dset, xsid_of_after, A. now rewrite (proj2 (text_eqb_eq _ _) B).
      * intro NL. rewrite H4, dget_dset.
        -- destruct (text_eqb_spec (before_dot w) n) as [B|B]; [|reflexivity]. elim NL. exists w, f. split; [now left|exact B].
        -- intros (w' & f' & I & B). apply NL. exists w', f'. split; [now right|exact B].
Qed.

Theorem C37_mcnp_sums s es : words (replace_char newline [] s) = flat_map entry_words es -> Forall entry_ok es ->
  exists c x, mcnp_composition s = Some (c, x) /\ NoDup (keys c) /\
    forall n, (In n (keys c) <-> lists n es) /\
      (forall v, dget n c = Some v -> (v == total (map (listed n) es))%Q) /\ (forall l, library n es l -> dget n x = Some l).
Proof.
  intros W F. unfold mcnp_composition. rewrite W, filter_entries by exact F.
  destruct (mcnp_pairs_ok es [] [] F (NoDup_nil _)) as (c & x & E & N & H). exists c, x. split; [exact E|].
  split; [exact N|]. intro n. destruct (H n) as (H1 & H2 & H3 & _). split; [rewrite H1; cbn [keys map In]; tauto|]. split; [|exact H3].
  intros v Ev. rewrite (H2 v Ev). cbn [dget]. ring.
Qed.
Print Assumptions C37_mcnp_sums.

Example C37_example :
  mcnp_composition (T "1001.70c 0.5 nlib=70c 8016 1 1001.80c 0.25 ")
  = Some ([(T "1001", (5 # 10) + (25 # 100)); (T "8016", 1 # 1)], [(T "1001", T "80c"); (T "8016", T "")])%Q.
Proof. vm_compute. reflexivity. Qed.
Example C37_example_hyps :
  words (replace_char newline [] (T "1001.70c 0.5 nlib=70c 8016 1 1001.80c 0.25 "))
  = flat_map entry_words [Nuclide (T "1001.70c") (T "0.5"); Keyword (T "nlib=70c"); Nuclide (T "8016") (T "1");
                          Nuclide (T "1001.80c") (T "0.25")]
  /\ Forall entry_ok [Nuclide (T "1001.70c") (T "0.5"); Keyword (T "nlib=70c"); Nuclide (T "8016") (T "1");
                          Nuclide (T "1001.80c") (T "0.25")].
Proof.
  split; [vm_compute; reflexivity|].
  assert (H : forall w n, no_eq w -> no_eq n -> get_fortran_formatted_number n <> None -> entry_ok (Nuclide w n))
    by (intros; split; [|split]; assumption).
  repeat apply Forall_cons; try apply Forall_nil;
    try (apply H; [apply no_eq_test; vm_compute; reflexivity|apply no_eq_test; vm_compute; reflexivity|vm_compute; discriminate]).
  do 4 right. left. reflexivity.
Qed.

Lemma library_exists z es : lists z es -> exists l, library z es l.
Proof.
  induction es as [|e es IH] using rev_ind; intros (w & f & I & B); [destruct I|].
  assert (D : (exists w f, e = Nuclide w f /\ before_dot w = z) \/ ~ (exists w f, e = Nuclide w f /\ before_dot w = z)).
  { destruct e as [t|t g]; [right; intros (? & ? & Q & _); discriminate|]. destruct (list_eq_dec ascii_dec (before_dot t) z) as [E|N]; [left; now exists t, g|].
    right. intros (w' & f' & Q & H). injection Q as <- <-. contradiction. }
  destruct D as [(w' & f' & -> & B')|N].
  - exists (after_dot w'), es, w', f', []. split; [reflexivity|]. split; [exact B'|]. split; [reflexivity|]. intros (? & ? & [] & _).
  - apply in_app_iff in I as [I|[-> | []]]; [|elim N; now exists w, f]. destruct IH as (l & a & w' & f' & b & -> & H1 & H2 & H3); [now exists w, f|].
    exists l, a, w', f', (b ++ [e]). rewrite <- app_assoc. split; [reflexivity|]. split; [exact H1|]. split; [exact H2|]. intros (w2 & f2 & I2 & B2).
    apply in_app_iff in I2 as [I2|[-> | []]]; [apply H3; now exists w2, f2|apply N; now exists w2, f2].
Qed.

(** C85: every nuclide keeps the library that the card names for it, when the card names one library for each nuclide. *)
Theorem C85_library_kept_partial s es : words (replace_char newline [] s) = flat_map entry_words es -> Forall entry_ok es ->
  (forall w f w' f', In (Nuclide w f) es -> In (Nuclide w' f') es -> before_dot w = before_dot w' -> after_dot w = after_dot w') ->
  exists c x, mcnp_composition s = Some (c, x) /\ forall w f, In (Nuclide w f) es -> dget (before_dot w) x = Some (after_dot w).
Proof.
  intros W F ONE. destruct (C37_mcnp_sums s es W F) as (c & x & E & _ & H). exists c, x. split; [exact E|]. intros w f I.
  destruct (library_exists (before_dot w) es) as (l & L); [now exists w, f|]. rewrite (proj2 (proj2 (H (before_dot w))) l L). destruct L as (a & w' & f' & b & -> & B & <- & _).
  f_equal. symmetry. now apply (ONE w f w' f' I (in_elt _ a b)).
Qed.
Print Assumptions C85_library_kept_partial.

(** With two libraries for one nuclide the second is used for the sum of both. *)
Theorem C85_two_libraries_refuted : exists s es, words (replace_char newline [] s) = flat_map entry_words es /\ Forall entry_ok es /\
  exists c x w f, mcnp_composition s = Some (c, x) /\ In (Nuclide w f) es /\ dget (before_dot w) x <> Some (after_dot w).
Proof.
  exists (T "1001.70c 0.5 nlib=70c 8016 1 1001.80c 0.25 "), [Nuclide (T "1001.70c") (T "0.5"); Keyword (T "nlib=70c"); Nuclide (T "8016") (T "1"); Nuclide (T "1001.80c") (T "0.25")].
  split; [apply C37_example_hyps|]. split; [apply C37_example_hyps|]. eexists _, _, (T "1001.70c"), (T "0.5"). split; [exact C37_example|]. split; [now left|vm_compute; discriminate].
Qed.
Print Assumptions C85_two_libraries_refuted.
Example C85_example : mcnp_composition (T "1001.70c 0.5 8016 1") = Some ([(T "1001", (5 # 10)); (T "8016", 1 # 1)], [(T "1001", T "70c"); (T "8016", T "")])%Q.
Proof. vm_compute. reflexivity. Qed.

(** The serpent reader keeps the last fraction instead. *)
Theorem C37_serpent_sums_refuted : exists s es c x v,
  words (replace_char newline [blank] s) = flat_map entry_words es /\ Forall entry_ok es /\
  serpent_composition s = Some (c, x) /\ dget (T "1001") c = Some v /\ ~ (v == total (map (listed (T "1001")) es))%Q.
Proof.
  exists (T "1001.70c 0.5 1001.80c 0.25"), [Nuclide (T "1001.70c") (T "0.5"); Nuclide (T "1001.80c") (T "0.25")].
  do 3 eexists. split; [vm_compute; reflexivity|]. split.
  - repeat constructor; try (apply no_eq_test; vm_compute; reflexivity); try (vm_compute; discriminate).
  - split; [vm_compute; reflexivity|]. split; [vm_compute; reflexivity|]. vm_compute. discriminate.
Qed.
Print Assumptions C37_serpent_sums_refuted.

(** With every nuclide listed once the serpent reader gets the same. (Missing for the full statement:
    repeated nuclides, see [C37_serpent_sums_refuted].) *)
Definition nuclides_of (es : list entry) : list text :=
  flat_map (fun e => match e with Keyword _ => [] | Nuclide w _ => [before_dot w] end) es.
Definition is_nuclide (e : entry) : Prop := match e with Keyword _ => False | Nuclide _ _ => True end.

Lemma lists_iff n es : lists n es <-> In n (nuclides_of es).
Proof.
  unfold lists, nuclides_of. rewrite in_flat_map. split.
  - intros (w & f & I & B). exists (Nuclide w f). split; [exact I|]. now left.
  - intros ([w|w f] & I & B); [destruct B|]. destruct B as [B|[]]. exists w, f. auto.
Qed.

Lemma listed_zero n es : ~ lists n es -> (total (map (listed n) es) == 0)%Q.
Proof.
  induction es as [|e es IH]; cbn [map total]; intro N; [reflexivity|]. rewrite IH.
  - destruct e as [w|w f]; cbn [listed]; [ring|]. destruct (text_eqb_spec (before_dot w) n) as [B|B]; [|ring].
    exfalso. apply N. exists w, f. split; [now left|exact B].
  - intros (w & f & I & B). apply N. exists w, f. split; [now right|exact B].
Qed.

Lemma serpent_pairs_ok es : forall c x, Forall entry_ok es -> Forall is_nuclide es ->
  NoDup (keys c ++ nuclides_of es) ->
  exists c' x', serpent_pairs (flat_map entry_words es) c x = Some (c', x')
  /\ NoDup (keys c') /\ forall n, (In n (keys c') <-> In n (keys c) \/ lists n es) /\
    forall v, dget n c' = Some v -> (v == match dget n c with Some u => u | None => 0 end + total (map (listed n) es))%Q.
Proof.
  induction es as [|e es IH]; intros c x F Fn N; cbn [flat_map app].
  - exists c, x. split; [reflexivity|]. cbn [nuclides_of flat_map] in N. rewrite app_nil_r in N. split; [exact N|]. intro n. split.
    + split; [tauto|]. intros [I|(w & f & [] & _)]. exact I.
    + intros v ->. cbn [map total]. ring.
  - inversion F as [|? ? O F']. inversion Fn as [|? ? Oe Fn']. subst. destruct e as [w|w f]; [destruct Oe|].
    cbn [entry_words app serpent_pairs]. destruct O as (_ & _ & O).
    destruct (get_fortran_formatted_number f) as [q|] eqn:Eq; [|congruence]. cbv zeta. rewrite nuclide_of_before.
    cbn [nuclides_of flat_map app] in N. fold (nuclides_of es) in N.
    assert (Nw : ~ In (before_dot w) (keys c)).
    { intro I. apply nodup_app_parts in N as (_ & _ & D). apply (D _ I). now left. }
    rewrite dset_new by exact Nw.
    destruct (IH (c ++ [(before_dot w, q)]) (dset (before_dot w) (xsid_of w) x) F' Fn') as (c' & x' & E & N' & H).
    { unfold keys in *. rewrite map_app. cbn [map fst]. now rewrite <- app_assoc. }
    exists c', x'. split; [exact E|]. split; [exact N'|]. intro n. destruct (H n) as [H1 H2].
    assert (K : In n (keys (c ++ [(before_dot w, q)])) <-> In n (keys c) \/ n = before_dot w).
    { unfold keys. rewrite map_app, in_app_iff. cbn [map fst In]. intuition. }
    assert (G : dget n (c ++ [(before_dot w, q)]) = if text_eqb (before_dot w) n then Some q else dget n c).
    { rewrite <- dset_new by exact Nw. apply dget_dset. }
    split.
    + rewrite H1, K. unfold lists. split.
      * intros [[I|I]|(w' & f' & I & B)]; [tauto|right; exists w, f; split; [now left|auto]|].
        right. exists w', f'. split; [now right|exact B].
      * intros [I|(w' & f' & [I|I] & B)]; [tauto| |right; eauto]. injection I as -> ->. left. right. now symmetry.
    + intros v Ev. rewrite (H2 v Ev), G. cbn [map total listed]. rewrite Eq.
      destruct (text_eqb_spec (before_dot w) n) as [B|B]; [|ring]. subst n.
      assert (D : dget (before_dot w) c = None) by now apply dget_none. rewrite D. ring.
Qed.

Theorem C37_serpent_sums_partial s es : words (replace_char newline [blank] s) = flat_map entry_words es ->
  Forall entry_ok es -> Forall is_nuclide es -> NoDup (nuclides_of es) ->
  exists c x, serpent_composition s = Some (c, x) /\ NoDup (keys c) /\
    forall n, (In n (keys c) <-> lists n es) /\
      (forall v, dget n c = Some v -> (v == total (map (listed n) es))%Q).
Proof.
  intros W F Fn N. unfold serpent_composition. rewrite W.
  destruct (serpent_pairs_ok es [] [] F Fn N) as (c & x & E & N' & H). exists c, x. split; [exact E|].
  split; [exact N'|]. intro n. destruct (H n) as [H1 H2]. split; [rewrite H1; cbn [keys map In]; tauto|].
  intros v Ev. rewrite (H2 v Ev). cbn [dget]. ring.
Qed.
Print Assumptions C37_serpent_sums_partial.

Example C37_serpent_example :
  serpent_composition (T "1001.70c 0.5 8016 1") = Some ([(T "1001", 5 # 10); (T "8016", 1 # 1)], [(T "1001", T "70c"); (T "8016", T "")])%Q
  /\ NoDup (nuclides_of [Nuclide (T "1001.70c") (T "0.5"); Nuclide (T "8016") (T "1")]).
Proof. split; [vm_compute; reflexivity|]. repeat constructor; cbn; intuition discriminate. Qed.

(** ** C56: densities written for SCONE *)

(** The atom density (per barn cm) of a substance of mass density [rho] with atom fractions [f] of mass
    numbers [a]: Avogadro's constant times [rho] over the mean mass. *)
Definition mean_mass (l : list (Z * Q)) : Q :=
  (total (map (fun p => snd p * inject_Z (fst p mod 1000)) l) / total (map snd l))%Q.

(** Atom fractions (positive): the proportions are those of the composition and the sum is right. *)
Theorem C56_scone_atoms_partial rho c l : (rho < 0)%Q ->
  Forall2 (fun e p => py_int (fst e) = Some (fst p) /\ snd e = snd p) c l ->
  Forall (fun p => 0 < snd p /\ 0 < inject_Z (fst p mod 1000))%Q l -> l <> [] ->
  exists c' k, scone_densities rho c = Some c' /\
    Forall2 (fun e e' => fst e' = fst e /\ (snd e' == k * snd e)%Q) c c' /\ (0 < k)%Q /\
    (total (map snd c') == - rho * (602214 # 1000000) / mean_mass l)%Q.
Proof.
  intros Hr F2 Pl Nl. unfold scone_densities.
  assert (R : Qle_bool rho 0 = true) by (apply Qle_bool_iff; lra). rewrite R. cbn [negb].
  assert (Zs : zaids c = Some (map fst l)).
  { clear -F2. induction F2 as [|[k f] [z g] c l [E _] F2 IH]; [reflexivity|]. cbn [zaids fst map] in *. now rewrite E, IH. }
  rewrite Zs. cbv zeta.
  set (m := sum_q (map (fun p : text * Q * Z => (snd (fst p) * inject_Z (snd p mod 1000))%Q) (combine c (map fst l)))).
  assert (Em : (m == total (map (fun p => snd p * inject_Z (fst p mod 1000)) l))%Q).
  { unfold m. rewrite sum_q_total. clear -F2. induction F2 as [|[k f] [z g] c l [_ E] F2 IH]; [reflexivity|].
    cbn [combine map total fst snd] in *. rewrite IH, E. reflexivity. }
  assert (Pt : (0 < total (map (fun p => snd p * inject_Z (fst p mod 1000)) l) /\ 0 < total (map snd l))%Q).
  { clear -Pl Nl. destruct l as [|p l]; [congruence|]. clear Nl.
    assert (H : (0 <= total (map (fun p => snd p * inject_Z (fst p mod 1000)) l) /\ 0 <= total (map snd l))%Q).
    { inversion Pl as [|? ? _ P]. subst. clear Pl. induction P as [|q l [A B] P IH]; cbn [map total]; [split; lra|].
      assert (X := Qmult_lt_0_compat _ _ A B). destruct IH. split; lra. }
    inversion Pl as [|? ? [A B] _]. subst. cbn [map total]. assert (X := Qmult_lt_0_compat _ _ A B). destruct H. split; lra. }
  assert (Z0 : Qeq_bool m 0 = false).
  { destruct (Qeq_bool m 0) eqn:E; [|reflexivity]. apply Qeq_bool_iff in E. rewrite Em in E. lra. }
  rewrite Z0. clearbody m. eexists. exists (- rho * (602214 # 1000000) / m)%Q. split; [reflexivity|]. split; [|split].
  - clear. induction c as [|e c IH]; cbn [map]; constructor; [|exact IH]. cbn [fst snd]. split; [reflexivity|]. ring.
  - destruct Pt as [P1 P2]. rewrite <- Em in P1. apply Qlt_shift_div_l; [exact P1|]. lra.
  - rewrite map_map. cbn [snd]. rewrite (total_scale snd).
    assert (Ec : (total (map snd c) == total (map snd l))%Q).
    { clear -F2. induction F2 as [|[k f] [z g] c l [_ E] F2 IH]; [reflexivity|]. cbn [map total fst snd] in *. rewrite IH, E. reflexivity. }
    rewrite Ec, Em. unfold mean_mass. destruct Pt. field. split; lra.
Qed.
Print Assumptions C56_scone_atoms_partial.

(** A material with an atom density: the fractions times the density. *)
Theorem C56_scone_atom_density_partial d c : (0 < d)%Q ->
  exists c', scone_densities d c = Some c' /\
    Forall2 (fun e e' => fst e' = fst e /\ (snd e' == d * snd e)%Q) c c' /\
    (total (map snd c') == d * total (map snd c))%Q.
Proof.
  intro P. unfold scone_densities. destruct (Qle_bool d 0) eqn:E; [apply Qle_bool_iff in E; lra|]. cbn [negb].
  eexists. split; [reflexivity|]. split.
  - clear. induction c as [|e c IH]; cbn [map]; constructor; [|exact IH]. cbn [fst snd]. split; [reflexivity|]. ring.
  - rewrite map_map. cbn [snd]. rewrite (total_scale snd). ring.
Qed.
Print Assumptions C56_scone_atom_density_partial.

Example C56_example : exists c', scone_densities (-1 # 1) [(T "1001", 2 # 3); (T "8016", 1 # 3)]%Q = Some c' /\
  (total (map snd c') == (602214 # 1000000) / 6)%Q.
Proof. eexists. split; [vm_compute; reflexivity|]. vm_compute. reflexivity. Qed.
Example C56_example_hyps :
  Forall2 (fun (e : text * Q) p => py_int (fst e) = Some (fst p) /\ snd e = snd p)
    [(T "1001", 2 # 3); (T "8016", 1 # 3)]%Q [(1001%Z, 2 # 3); (8016%Z, 1 # 3)]
  /\ Forall (fun p => 0 < snd p /\ 0 < inject_Z (fst p mod 1000))%Q [(1001%Z, 2 # 3); (8016%Z, 1 # 3)].
Proof. split; repeat constructor. Qed.

(** With mass fractions the atom densities are wrong: in water by mass (1/9 hydrogen, 8/9 oxygen) the
    amounts of hydrogen and oxygen are written as 1 to 8 instead of 2 to 1. *)
Theorem C56_scone_mass_refuted : exists c c' h o,
  c = [(T "1001", - (1) # 9); (T "8016", - (8) # 9)]%Q /\ scone_densities (-1 # 1) c = Some c' /\
  dget (T "1001") c' = Some h /\ dget (T "8016") c' = Some o /\ (o == 8 * h)%Q /\
  (** the number of atoms is the mass over the mass number *)
  ~ (h * ((8 # 9) / 16) == o * ((1 # 9) / 1))%Q.
Proof.
  do 4 eexists. split; [reflexivity|]. split; [vm_compute; reflexivity|]. split; [vm_compute; reflexivity|].
  split; [vm_compute; reflexivity|]. split; [vm_compute; reflexivity|]. vm_compute. discriminate.
Qed.
Print Assumptions C56_scone_mass_refuted.

(** With an atom density and mass fractions, negative densities are written. *)
Theorem C56_scone_negative_refuted : exists c c' h,
  c = [(T "1001", - (1) # 9); (T "8016", - (8) # 9)]%Q /\ scone_densities (1 # 10) c = Some c' /\
  dget (T "1001") c' = Some h /\ (h < 0)%Q.
Proof.
  do 3 eexists. split; [reflexivity|]. split; [vm_compute; reflexivity|]. split; [vm_compute; reflexivity|].
  vm_compute. reflexivity.
Qed.
Print Assumptions C56_scone_negative_refuted.
