(** Facts about the reorganisation of materials by density. *)
From Coq Require Import QArith Permutation.
From Verif Require Import PyStr PyStrFacts FortranNumber PyInt PyIntFacts PyDict NuclideData MaterialModel MaterialProofs.
Open Scope nat_scope.
Open Scope list_scope.

(** ** Fresh numbers *)
Lemma free_from_ok ks : forall fuel idx, (forall t, free_from fuel idx ks = Some t -> ~ In t ks) /\
  (forall l, NoDup l -> (forall t, In t l -> In t ks) -> (forall z, (idx <= z)%Z -> ~ In (str_Z z) l) ->
     length ks < length l + fuel -> exists t, free_from fuel idx ks = Some t).
Proof.
  induction fuel as [|n IH]; intro idx; cbn [free_from].
  - split; [discriminate|]. intros l N I _ H. exfalso. pose proof (NoDup_incl_length N I). lia.
  - destruct (IH (idx + 1)%Z) as [A B]. destruct (existsb (text_eqb (str_Z idx)) ks) eqn:E.
    + split; [exact A|]. intros l N I F H. apply (B (str_Z idx :: l)).
      * constructor; [apply F; lia|exact N].
      * intros t [<-|It]; [|auto]. apply existsb_exists in E as (y & Iy & Ey). apply text_eqb_eq in Ey. now subst.
      * intros z Hz [Ez|Iz]; [apply str_Z_inj in Ez; lia|]. apply (F z); [lia|exact Iz].
      * cbn [length]. lia.
    + split; [|intros; eauto]. intros t H. injection H as <-. intro I.
      assert (X : existsb (text_eqb (str_Z idx)) ks = true); [|congruence].
      apply existsb_exists. eauto using text_eqb_refl.
Qed.

(** The loop of [__next_free_int] ends, with a number that is not in use. *)
Lemma next_free_fresh ks : exists t, next_free_int ks = Some t /\ ~ In t ks.
Proof.
  unfold next_free_int. destruct (free_from_ok ks (S (length ks)) 1) as [A B].
  destruct (B [] (NoDup_nil _)) as [t E]; cbn [length In]; [tauto|auto|lia|]. exists t. auto.
Qed.

(** ** Cells *)
Definition rule := (Z * Q * text)%type.
Definition apply_rules (p : list rule) (c : mcell) : mcell :=
  fold_left (fun c e => renumber (fst (fst e)) (snd (fst e)) (snd e) c) p c.
Definition hits (m : Z) (d : Q) (e : rule) : bool := ((fst (fst e) =? m)%Z && Qeq_bool d (snd (fst e)))%bool.

Lemma apply_rules_str p t d : apply_rules p (mkC (MStr t) d) = mkC (MStr t) d.
Proof. induction p as [|e p IH]; [reflexivity|]. exact IH. Qed.

Lemma apply_rules_app p q c : apply_rules (p ++ q) c = apply_rules q (apply_rules p c).
Proof. unfold apply_rules. apply fold_left_app. Qed.

Lemma apply_rules_int p m d : apply_rules p (mkC (MInt m) d) =
  match List.find (hits m d) p with Some e => mkC (MStr (snd e)) d | None => mkC (MInt m) d end.
Proof.
  induction p as [|[[m' d'] t] p IH]; [reflexivity|]. cbn [apply_rules fold_left List.find fst snd].
  unfold renumber at 2, hits at 1. cbn [k_mat k_dens is_mat fst snd]. rewrite (Z.eqb_sym m m').
  destruct ((m' =? m)%Z && Qeq_bool d d')%bool; [|exact IH]. apply apply_rules_str.
Qed.

(** ** Copies *)
Definition copy_of (show : Q -> text) (mat : Z) (m : material) (d : Q) (n : text) : material :=
  mkM n (T "Copy of Material " ++ str_Z mat ++ T " with density " ++ show d) d (m_comp m) (m_xs m) (m_colour m).

Lemma copies_ok show mat ds : forall ms cs m, NoDup (keys ms) -> dget (str_Z mat) ms = Some m ->
  exists ns ms', copies show mat ds ms cs = Some (ms', map (apply_rules (combine (map (pair mat) ds) ns)) cs) /\
    length ns = length ds /\ NoDup ns /\ NoDup (keys ms') /\
    (forall n, In n ns -> ~ In n (keys ms)) /\ (forall k, In k (keys ms') <-> In k (keys ms) \/ In k ns) /\
    (forall k, ~ In k ns -> dget k ms' = dget k ms) /\
    (forall d n, In (d, n) (combine ds ns) -> dget n ms' = Some (copy_of show mat m d n)).
Proof.
  induction ds as [|d ds IH]; intros ms cs m N G; cbn [copies].
  - exists [], ms. cbn [length combine map In]. split; [f_equal; f_equal; symmetry; apply map_id|].
    split; [reflexivity|]. split; [constructor|]. split; [exact N|]. split; [tauto|]. split; [tauto|]. split; [auto|tauto].
  - rewrite G. destruct (next_free_fresh (keys ms)) as (n & E & Fr). rewrite E. cbv zeta.
    fold (copy_of show mat m d n). set (ms1 := dset n (copy_of show mat m d n) ms).
    assert (Nn : n <> str_Z mat).
    { intros ->. apply Fr. apply dget_some_in in G. now apply (in_map fst) in G. }
    assert (G1 : dget (str_Z mat) ms1 = Some m).
    { unfold ms1. rewrite dget_dset. destruct (text_eqb_spec n (str_Z mat)); [contradiction|exact G]. }
    assert (N1 : NoDup (keys ms1)) by now apply nodup_dset.
    destruct (IH ms1 (map (renumber mat d n) cs) m N1 G1) as (ns & ms' & Ec & L & Nd & N' & Fr' & K & Old & New).
    assert (Nn' : ~ In n ns).
    { intro I. apply (Fr' n I). unfold ms1. apply in_keys_dset. now left. }
    exists (n :: ns), ms'. split; [|split; [|split; [|split; [|split; [|split; [|split]]]]]].
    + rewrite Ec. f_equal. f_equal. rewrite map_map. apply map_ext. intro c. reflexivity.
    + cbn [length]. now rewrite L.
    + now constructor.
    + exact N'.
    + intros x [<-|I]; [exact Fr|]. intro J. apply (Fr' x I). apply in_keys_dset. now right.
    + intro k. rewrite K. unfold ms1. rewrite in_keys_dset. cbn [In]. intuition.
    + intros k Nk. cbn [In] in Nk. rewrite Old by tauto. unfold ms1. rewrite dget_dset.
      destruct (text_eqb_spec n k); [tauto|reflexivity].
    + intros d' n' I. cbn [combine In] in I. destruct I as [I|I]; [|auto]. injection I as -> ->.
      rewrite Old by exact Nn'. unfold ms1. rewrite dget_dset, text_eqb_refl. reflexivity.
Qed.

(** ** The loop over the materials *)
Definition further (e : Z * list Q) : list (Z * Q) := map (pair (fst e)) (tl (snd e)).

Lemma split_ok show l : forall ms cs, NoDup (keys ms) -> NoDup (map fst l) ->
  Forall (fun e => snd e <> [] /\ In (str_Z (fst e)) (keys ms)) l ->
  exists p ms', split_materials show l ms cs = Some (ms', map (apply_rules p) cs) /\ NoDup (keys ms') /\
    map fst p = flat_map further l /\ NoDup (map snd p) /\
    (forall n, In n (map snd p) -> ~ In n (keys ms)) /\
    (forall k, In k (keys ms') <-> In k (keys ms) \/ In k (map snd p)) /\
    (forall k, ~ In k (map snd p) -> (forall e, In e l -> str_Z (fst e) <> k) -> dget k ms' = dget k ms) /\
    (forall m d ds a, In (m, d :: ds) l -> dget (str_Z m) ms = Some a -> dget (str_Z m) ms' = Some (with_dens a d)) /\
    (forall m d n a, In (m, d, n) p -> dget (str_Z m) ms = Some a ->
       exists b, dget n ms' = Some b /\ m_dens b = d /\ m_comp b = m_comp a /\ m_xs b = m_xs a /\ m_colour b = m_colour a).
Proof.
  induction l as [|[mat ds] l IH]; intros ms cs N Nl F; cbn [split_materials].
  - exists [], ms. cbn [map flat_map In]. split; [f_equal; f_equal; symmetry; apply map_id|]. split; [exact N|].
    split; [reflexivity|]. split; [constructor|]. split; [tauto|]. split; [tauto|]. split; [auto|]. split; [intros; contradiction|].
    intros; contradiction.
  - inversion F as [|? ? [Nd Dk] F']. inversion Nl as [|? ? Nm Nl']. subst. cbn [fst snd] in *.
    destruct ds as [|d ds]; [congruence|]. destruct (dget_key _ _ Dk) as [a Ga]. unfold set_density. rewrite Ga.
    set (ms1 := dset (str_Z mat) (with_dens a d) ms). assert (N1 : NoDup (keys ms1)) by now apply nodup_dset.
    assert (K1 : forall k, In k (keys ms1) <-> In k (keys ms)).
    { intro k. unfold ms1. rewrite in_keys_dset. split; [intros [->|]; assumption|tauto]. }
    assert (G1 : dget (str_Z mat) ms1 = Some (with_dens a d)) by (unfold ms1; now rewrite dget_dset, text_eqb_refl).
    destruct (copies_ok show mat ds ms1 cs _ N1 G1) as (ns & ms2 & Ec & L & Nn & N2 & Fr & K2 & Old & New).
    rewrite Ec.
    assert (F2 : Forall (fun e => snd e <> [] /\ In (str_Z (fst e)) (keys ms2)) l).
    { apply (Forall_impl _) with (2 := F'). intros e [A B]. split; [exact A|]. apply K2. left. now apply K1. }
    set (r := combine (map (pair mat) ds) ns) in *.
    destruct (IH ms2 (map (apply_rules r) cs) N2 Nl' F2) as (p & ms' & Es & N' & Pf & Pn & Fr' & K' & Old' & First & Copy).
    assert (Rs : map snd r = ns).
    { unfold r. clear -L. revert ns L. induction ds as [|x ds IH]; intros [|n ns] L; cbn [length] in L; try discriminate; [reflexivity|].
      cbn [map combine snd]. f_equal. apply IH. lia. }
    assert (Rf : map fst r = map (pair mat) ds).
    { unfold r. clear -L. revert ns L. induction ds as [|x ds IH]; intros [|n ns] L; cbn [length] in L; try discriminate; [reflexivity|].
      cbn [map combine fst]. f_equal. apply IH. lia. }
    assert (Rin : forall m' d' n', In (m', d', n') r -> m' = mat /\ In (d', n') (combine ds ns)).
    { unfold r. clear -L. revert ns L. induction ds as [|x ds IH]; intros [|n ns] L; cbn [length] in L; try discriminate;
        cbn [map combine In]; [tauto|]. intros m' d' n' [E|I]; [injection E as <- <- <-; auto|].
      destruct (IH ns ltac:(lia) _ _ _ I). auto. }
    exists (r ++ p), ms'. split; [|split; [|split; [|split; [|split; [|split; [|split; [|split]]]]]]].
    + rewrite Es. f_equal. f_equal. rewrite map_map. apply map_ext. intro c. symmetry. apply apply_rules_app.
    + exact N'.
    + rewrite map_app, Pf, Rf. reflexivity.
    + rewrite map_app, Rs. apply nodup_app_intro; [exact Nn|exact Pn|]. intros x Ix Jx. apply (Fr' x Jx). apply K2. now right.
    + intros n I. rewrite map_app, Rs in I. apply in_app_or in I as [I|I].
      * intro J. apply (Fr n I). now apply K1.
      * intro J. apply (Fr' n I). apply K2. left. now apply K1.
    + intro k. rewrite K', K2, K1, map_app, Rs, in_app_iff. tauto.
    + intros k Nk Ne. rewrite map_app, Rs, in_app_iff in Nk. rewrite Old'; [|tauto|intros e I; apply Ne; now right].
      rewrite Old by tauto. unfold ms1. rewrite dget_dset.
      destruct (text_eqb_spec (str_Z mat) k) as [E|E]; [|reflexivity]. exfalso. apply (Ne (mat, d :: ds)); [now left|exact E].
    + intros m0 d0 ds0 a0 [I|I] G0.
      * injection I as <- <- <-. assert (a0 = a) by congruence. subst a0.
        assert (Nk : ~ In (str_Z mat) (map snd p)).
        { intro J. apply (Fr' _ J). apply K2. left. now apply K1. }
        rewrite Old'; [|exact Nk|].
        -- rewrite Old; [exact G1|]. intro J. apply (Fr _ J). now apply K1.
        -- intros e Ie E. apply str_Z_inj in E. apply Nm. rewrite <- E. now apply in_map.
      * assert (Nq : m0 <> mat). { intros ->. apply Nm. now apply (in_map fst) in I. }
        apply (First m0 d0 ds0); [exact I|]. assert (Hk : In (str_Z m0) (keys ms)) by (apply dget_some_in in G0; now apply (in_map fst) in G0).
        rewrite Old.
        -- unfold ms1. rewrite dget_dset. destruct (text_eqb_spec (str_Z mat) (str_Z m0)) as [E|E]; [|exact G0].
           apply str_Z_inj in E. congruence.
        -- intro J. apply (Fr _ J). now apply K1.
    + intros m0 d0 n0 a0 I G0. assert (Hk : In (str_Z m0) (keys ms)) by (apply dget_some_in in G0; now apply (in_map fst) in G0).
      apply in_app_or in I as [I|I].
      * apply Rin in I as [-> I]. assert (a0 = a) by congruence. subst a0. exists (copy_of show mat (with_dens a d) d0 n0).
        split; [|now repeat split]. assert (In0 : In n0 ns) by (apply in_combine_r in I; exact I). rewrite Old'.
        -- apply New. exact I.
        -- intro J. apply (Fr' _ J). apply K2. now right.
        -- intros e Ie E. apply (Fr n0 In0). rewrite <- E. apply K1. rewrite Forall_forall in F'. now apply F'.
      * destruct (text_eqb_spec (str_Z m0) (str_Z mat)) as [E|E].
        -- exfalso. apply str_Z_inj in E. subst m0. apply Nm. assert (J : In (mat, d0) (flat_map further l)).
           { rewrite <- Pf. now apply (in_map fst) in I. }
           apply in_flat_map in J as ([m1 l1] & I1 & J). unfold further in J. cbn [fst snd] in J. apply in_map_iff in J as (q & Eq & _).
           injection Eq as -> _. now apply (in_map fst) in I1.
        -- apply (Copy m0 d0 n0); [exact I|]. rewrite Old.
           ++ unfold ms1. rewrite dget_dset. destruct (text_eqb_spec (str_Z mat) (str_Z m0)); [congruence|exact G0].
           ++ intro J. apply (Fr _ J). now apply K1.
Qed.

(** ** The densities of each material *)
Definition apart (ds : list Q) : Prop := forall i j a b, nth_error ds i = Some a -> nth_error ds j = Some b -> (a == b)%Q -> i = j.

Lemma apart_app ds d : apart ds -> existsb (Qeq_bool d) ds = false -> apart (ds ++ [d]).
Proof.
  intros A E i j a b Hi Hj H.
  assert (X : forall i a, nth_error (ds ++ [d]) i = Some a -> nth_error ds i = Some a /\ i < length ds \/ i = length ds /\ a = d).
  { clear. intros i a H. destruct (Nat.lt_ge_cases i (length ds)) as [L|L].
    - left. rewrite nth_error_app1 in H by exact L. auto.
    - right. rewrite nth_error_app2 in H by exact L. destruct (i - length ds) as [|k] eqn:Ek; cbn [nth_error] in H.
      + injection H as ->. split; [lia|reflexivity].
      + destruct k; discriminate. }
  assert (Y : forall i a, nth_error ds i = Some a -> ~ (d == a)%Q).
  { intros k c Hk C. apply nth_error_In in Hk. assert (existsb (Qeq_bool d) ds = true); [|congruence].
    apply existsb_exists. exists c. split; [exact Hk|]. now apply Qeq_bool_iff. }
  destruct (X _ _ Hi) as [[Hi' _]|[-> ->]], (X _ _ Hj) as [[Hj' _]|[-> ->]].
  - now apply (A i j a b).
  - exfalso. apply (Y i a Hi'). now symmetry.
  - exfalso. now apply (Y j b Hj').
  - reflexivity.
Qed.

(** What the table of densities says of the cells seen. *)
Record table_ok (l : list (Z * list Q)) (cs : list mcell) : Prop := {
  to_keys : NoDup (map fst l);
  to_rows : Forall (fun e => snd e <> [] /\ apart (snd e)) l;
  to_cell : forall m d, In (mkC (MInt m) d) cs -> exists ds, In (m, ds) l /\ existsb (Qeq_bool d) ds = true;
  to_used : forall e, In e l -> exists d, In (mkC (MInt (fst e)) d) cs }.

Lemma add_density_keys mat d l : map fst (add_density mat d l) =
  if existsb (Z.eqb mat) (map fst l) then map fst l else map fst l ++ [mat].
Proof.
  induction l as [|[m ds] l IH]; cbn [add_density map fst existsb app]; [reflexivity|].
  rewrite (Z.eqb_sym mat m). destruct (m =? mat)%Z; cbn [orb map fst]; [reflexivity|]. rewrite IH.
  destruct (existsb (Z.eqb mat) (map fst l)); reflexivity.
Qed.

Lemma add_density_in mat d l e : NoDup (map fst l) -> In e (add_density mat d l) ->
  (In e l /\ fst e <> mat) \/ (exists ds, In (mat, ds) l /\ e = (mat, if existsb (Qeq_bool d) ds then ds else ds ++ [d]))
  \/ (~ In mat (map fst l) /\ e = (mat, [d])).
Proof.
  induction l as [|[m ds] l IH]; cbn [add_density map fst]; intros N I.
  - destruct I as [<-|[]]. right. right. split; [intros []|reflexivity].
  - inversion N as [|? ? Nm N']. subst. destruct (Z.eqb_spec m mat) as [E|E].
    + subst. destruct I as [<-|I].
      * right. left. exists ds. split; [now left|reflexivity].
      * left. split; [now right|]. intro E. apply Nm. rewrite <- E. now apply in_map.
    + destruct I as [<-|I]; [left; split; [now left|exact E]|].
      destruct (IH N' I) as [[A B]|[(ds' & A & B)|[A B]]].
      * left. split; [now right|exact B].
      * right. left. exists ds'. split; [now right|exact B].
      * right. right. split; [|exact B]. cbn [In]. tauto.
Qed.

Lemma add_density_has mat d l : NoDup (map fst l) -> exists ds, In (mat, ds) (add_density mat d l) /\ existsb (Qeq_bool d) ds = true.
Proof.
  induction l as [|[m ds] l IH]; cbn [add_density map fst]; intro N.
  - exists [d]. split; [now left|]. cbn [existsb]. rewrite (proj2 (Qeq_bool_iff d d)); reflexivity.
  - inversion N as [|? ? Nm N']. subst. destruct (Z.eqb_spec m mat) as [E|E].
    + subst. eexists. split; [left; reflexivity|]. destruct (existsb (Qeq_bool d) ds) eqn:X; [exact X|].
      rewrite existsb_app. cbn [existsb]. rewrite (proj2 (Qeq_bool_iff d d)) by reflexivity. apply orb_true_r.
    + destruct (IH N') as (ds' & A & B). exists ds'. split; [now right|exact B].
Qed.

Lemma add_density_keeps mat d l m ds : In (m, ds) l ->
  exists ds', In (m, ds') (add_density mat d l) /\ (forall q, existsb (Qeq_bool q) ds = true -> existsb (Qeq_bool q) ds' = true).
Proof.
  induction l as [|[m' ds0] l IH]; intro I; [destruct I|]. cbn [add_density]. destruct I as [I|I].
  - injection I as -> ->. destruct (m =? mat)%Z; (eexists; split; [left; reflexivity|]); [|auto].
    intros q Hq. destruct (existsb (Qeq_bool d) ds); [exact Hq|]. rewrite existsb_app, Hq. reflexivity.
  - destruct (m' =? mat)%Z; [exists ds; split; [now right|auto]|].
    destruct (IH I) as (ds' & A & B). exists ds'. split; [now right|exact B].
Qed.

Lemma densities_ok cs : Forall (fun c => exists m, k_mat c = MInt m) cs -> table_ok (densities cs) cs.
Proof.
  unfold densities.
  cut (forall seen l, table_ok l seen -> Forall (fun c => exists m, k_mat c = MInt m) cs ->
       table_ok (fold_left (fun l c => match k_mat c with MInt z => add_density z (k_dens c) l | MStr _ => l end) cs l) (seen ++ cs)).
  { intros H F. apply (H [] []); [|exact F]. split; cbn [map In]; try constructor; intros; contradiction. }
  induction cs as [|[r d] cs IH]; intros seen l Hl F; cbn [fold_left]; [now rewrite app_nil_r|].
  inversion F as [|? ? [mat Em] F']. subst. cbn [k_mat] in Em. subst r. cbn [k_mat k_dens].
  change (seen ++ mkC (MInt mat) d :: cs) with (seen ++ ([mkC (MInt mat) d] ++ cs)). rewrite app_assoc. apply IH; [|exact F'].
  clear IH F F'. destruct Hl as [Nk Rows Cell Used]. split.
  - rewrite add_density_keys. destruct (existsb (Z.eqb mat) (map fst l)) eqn:E; [exact Nk|].
    apply nodup_app_intro; [exact Nk|repeat constructor; intros []|]. intros x I [<-|[]].
    assert (existsb (Z.eqb mat) (map fst l) = true); [|congruence]. apply existsb_exists. exists mat. split; [exact I|apply Z.eqb_refl].
  - apply Forall_forall. intros e I. rewrite Forall_forall in Rows. destruct (add_density_in mat d l e Nk I) as [[A _]|[(ds & A & ->)|[_ ->]]].
    + now apply Rows.
    + destruct (Rows _ A) as [R1 R2]. cbn [snd] in *. destruct (existsb (Qeq_bool d) ds) eqn:X; [auto|].
      split; [destruct ds; discriminate|]. now apply apart_app.
    + cbn [snd]. split; [discriminate|]. intros [|[|i]] [|[|j]] a b Hi Hj _; cbn [nth_error] in *; try reflexivity; discriminate.
  - intros m q I. apply in_app_or in I as [I|[I|[]]].
    + destruct (Cell m q I) as (ds & A & B). destruct (add_density_keeps mat d l m ds A) as (ds' & C & D). exists ds'. auto.
    + injection I as -> ->. now apply add_density_has.
  - intros e I. destruct (add_density_in mat d l e Nk I) as [[A _]|[(ds & A & ->)|[_ ->]]].
    + destruct (Used e A) as [q Hq]. exists q. apply in_or_app. now left.
    + exists d. apply in_or_app. right. now left.
    + exists d. apply in_or_app. right. now left.
Qed.

Lemma insert_mat_perm e l : Permutation (insert_mat e l) (e :: l).
Proof.
  induction l as [|a l IH]; cbn [insert_mat]; [reflexivity|]. destruct (fst e <=? fst a)%Z; [reflexivity|].
  rewrite IH. apply perm_swap.
Qed.
Lemma sort_mats_perm l : Permutation (sort_mats l) l.
Proof. induction l as [|a l IH]; cbn [sort_mats fold_right]; [reflexivity|]. fold (sort_mats l). now rewrite insert_mat_perm, IH. Qed.

(** ** The last step *)
Lemma finish_all_ok ms : (forall k m, In (k, m) ms -> finish_material m <> None) ->
  exists ms', finish_all ms = Some ms' /\ keys ms' = keys ms /\
    forall k m, dget k ms = Some m -> exists m', finish_material m = Some m' /\ dget k ms' = Some m'.
Proof.
  induction ms as [|[k m] ms IH]; intro H; cbn [finish_all].
  - exists []. split; [reflexivity|]. split; [reflexivity|]. discriminate.
  - destruct (finish_material m) as [m'|] eqn:E; [|exfalso; apply (H k m); [now left|exact E]].
    destruct IH as (ms' & Ea & Ek & G). { intros k' x I. apply (H k' x). now right. }
    rewrite Ea. exists ((k, m') :: ms'). split; [reflexivity|]. split; [cbn [keys map fst]; f_equal; exact Ek|].
    intros k' x. cbn [dget]. destruct (text_eqb k k'); [|apply G]. intro X. injection X as <-. exists m'. auto.
Qed.

Lemma finish_same a b : m_comp b = m_comp a -> m_xs b = m_xs a ->
  forall fa, finish_material a = Some fa -> exists fb, finish_material b = Some fb /\ m_comp fb = m_comp fa /\ m_xs fb = m_xs fa
    /\ m_dens fb = m_dens b /\ m_colour fb = m_colour b /\ m_num fb = m_num b.
Proof.
  intros Ec Ex fa. unfold finish_material. rewrite Ec, Ex. destruct (normalise (m_comp a)) as [c|]; [|discriminate].
  destruct (explode_elements c (m_xs a)) as [[c' x']|]; [|discriminate]. intro H. injection H as <-. eexists.
  split; [reflexivity|]. repeat split.
Qed.
