(** Property theorems: the nuclides of the materials written for FLUKA (C66, C67). *)
From Coq Require Import QArith Qabs Lia ZifyBool Permutation.
From Verif Require Import PyStr PyStrFacts PyInt PyIntFacts FortranNumber FortranNumberProofs PyDict MaterialModel MaterialProofs CellText SurfWriters
  SurfWritersProofs PyFmtE PyFmtEFacts FlukaInput PropFlukaMat.
Open Scope nat_scope.
Open Scope list_scope.

(** * Specification: what a nuclide is called in FLUKA *)

(** By the tables of FLUKAInput.py a nuclide has its own name or that of its element; some elements have none. *)
Inductive called : Z -> text -> Prop :=
| own_name z n : In (z, n) zz_table -> called z (T n)
| element_name z n : (forall n', ~ In (z, n') zz_table) -> In (1000 * Z.quot z 1000, n)%Z zz_table ->
    ~ In (1000 * Z.quot z 1000)%Z zz_to_remove -> called z (T n).
Definition dropped (z : Z) : Prop := (forall n, ~ In (z, n) zz_table) /\ In (1000 * Z.quot z 1000)%Z zz_to_remove.

(** * The tables *)
Definition nodup_Z (l : list Z) : bool := (length (nodup Z.eq_dec l) =? length l).
Lemma table_once : NoDup (map fst zz_table).
Proof.
  assert (H : nodup Z.eq_dec (map fst zz_table) = map fst zz_table) by (vm_compute; reflexivity).
  rewrite <- H. apply NoDup_nodup.
Qed.
Lemma zz_some z f : zz_to_fluka z = Some f <-> exists n, In (z, n) zz_table /\ f = T n.
Proof.
  unfold zz_to_fluka. split.
  - destruct (List.find _ zz_table) as [[z' n]|] eqn:E; [|discriminate]. intro H. injection H as <-. apply find_some in E as [I E].
    cbn [fst] in E. apply Z.eqb_eq in E. subst. eauto.
  - intros (n & I & ->). destruct (List.find (fun e => (fst e =? z)%Z) zz_table) as [[z' n']|] eqn:E.
    + apply find_some in E as [I' E]. cbn [fst] in E. apply Z.eqb_eq in E. subst. cbn [option_map snd]. f_equal.
      assert (K : n' = n); [|congruence]. assert (U := table_once). clear - I I' U. induction zz_table as [|[a b] l IH]; [destruct I|].
      cbn [map fst] in U. inversion U as [|? ? N U']. subst. destruct I as [I|I], I' as [I'|I'].
      * congruence.
      * exfalso. apply N. injection I as -> _. apply (in_map fst) in I'. exact I'.
      * exfalso. apply N. injection I' as -> _. apply (in_map fst) in I. exact I.
      * auto.
    + exfalso. apply (find_none _ _ E) in I. cbn [fst] in I. rewrite Z.eqb_refl in I. discriminate.
Qed.
Lemma zz_none z : zz_to_fluka z = None <-> forall n, ~ In (z, n) zz_table.
Proof.
  split.
  - intros H n I. assert (K : zz_to_fluka z = Some (T n)) by (apply zz_some; eauto). congruence.
  - intro H. destruct (zz_to_fluka z) as [f|] eqn:E; [|reflexivity]. apply zz_some in E as (n & I & _). exfalso. exact (H n I).
Qed.
Lemma remove_in z : existsb (Z.eqb z) zz_to_remove = true <-> In z zz_to_remove.
Proof. rewrite existsb_exists. split; [intros (x & I & E); apply Z.eqb_eq in E; now subst|intro I; exists z; split; [exact I|apply Z.eqb_refl]]. Qed.

Lemma collapse_called n z f : py_int n = Some z -> (collapse n = Some (Some f) <-> called z f).
Proof.
  intro P. unfold collapse. rewrite P. rewrite (Z.mul_comm (Z.quot z 1000)). destruct (zz_to_fluka z) as [g|] eqn:E.
  - assert (E' := E). apply zz_some in E' as (m & I & ->). split.
    + intro H. injection H as <-. now constructor.
    + intro C. inversion C as [z0 k J|z0 k N J R]; subst; [|exfalso; exact (N _ I)]. do 2 f_equal. assert (K : zz_to_fluka z = Some (T k)) by (apply zz_some; eauto). congruence.
  - assert (E' := proj1 (zz_none z) E). destruct (existsb _ zz_to_remove) eqn:R.
    + apply remove_in in R. split; [discriminate|]. intro C. inversion C as [z0 k J|z0 k N J R']; subst; [exfalso; exact (E' _ J)|contradiction].
    + assert (R' : ~ In (1000 * Z.quot z 1000)%Z zz_to_remove) by (intro I; apply remove_in in I; congruence).
      destruct (zz_to_fluka (1000 * Z.quot z 1000)) as [g|] eqn:G.
      * assert (G' := G). apply zz_some in G' as (m & I & ->). split.
        -- intro H. injection H as <-. now apply element_name.
        -- intro C. inversion C as [z0 k J|z0 k N J R2]; subst; [exfalso; exact (E' _ J)|]. do 2 f_equal.
           assert (K : zz_to_fluka (1000 * Z.quot z 1000) = Some (T k)) by (apply zz_some; eauto). congruence.
      * split; [discriminate|]. intro C. inversion C as [z0 k J|z0 k N J R2]; subst; [exfalso; exact (E' _ J)|].
        exfalso. exact (proj1 (zz_none _) G _ J).
Qed.
Lemma collapse_dropped n z : py_int n = Some z -> (collapse n = Some None <-> dropped z).
Proof.
  intro P. unfold collapse, dropped. rewrite P. rewrite (Z.mul_comm (Z.quot z 1000)). destruct (zz_to_fluka z) as [g|] eqn:E.
  - apply zz_some in E as (m & I & _). split; [discriminate|]. intros [N _]. exfalso. exact (N _ I).
  - assert (E' := proj1 (zz_none z) E). destruct (existsb _ zz_to_remove) eqn:R.
    + apply remove_in in R. tauto.
    + assert (R' : ~ In (1000 * Z.quot z 1000)%Z zz_to_remove) by (intro I; apply remove_in in I; congruence).
      destruct (zz_to_fluka (1000 * Z.quot z 1000)); (split; [discriminate|tauto]).
Qed.

(** * Sums *)
Definition amount (n : text) (d : dict Q) : Q := match dget n d with Some q => q | None => 0%Q end.

Lemma total_perm a b : Permutation a b -> (total a == total b)%Q.
Proof.
  induction 1 as [|x a b P IH|x y a|a b c P1 IH1 P2 IH2].
  - reflexivity.
  - cbn [total fold_right]. fold (total a) (total b). now rewrite IH.
  - cbn [total fold_right]. ring.
  - now rewrite IH1.
Qed.

(** Entries of the map. *)
Definition entries (order : list text) : dict text :=
  flat_map (fun n => match collapse n with Some (Some f) => [(n, f)] | _ => [] end) order.
Lemma collapsed_map_entries order cm : collapsed_map order = Some cm -> cm = entries order /\ forall n, In n order -> collapse n <> None.
Proof.
  revert cm. induction order as [|n l IH]; intros cm H; cbn [collapsed_map] in H.
  - injection H as <-. split; [reflexivity|intros n []].
  - unfold entries. cbn [flat_map]. fold (entries l). destruct (collapse n) as [[f|]|] eqn:C; [| |discriminate H].
    + destruct (collapsed_map l) as [d|]; [|discriminate H]. injection H as <-. destruct (IH d eq_refl) as [-> N].
      split; [reflexivity|]. intros x [<-|I]; [congruence|auto].
    + destruct (collapsed_map l) as [d|]; [|discriminate H]. injection H as <-. destruct (IH d eq_refl) as [-> N].
      split; [reflexivity|]. intros x [<-|I]; [congruence|auto].
Qed.
Lemma in_entries n f order : In (n, f) (entries order) <-> In n order /\ collapse n = Some (Some f).
Proof.
  unfold entries. rewrite in_flat_map. split.
  - intros (x & I & H). destruct (collapse x) as [[g|]|] eqn:C; try destruct H. injection H as -> ->. auto. destruct H.
  - intros [I C]. exists n. split; [exact I|]. rewrite C. now left.
Qed.

Definition same_name (name : text) (n : text) : bool := match collapse n with Some (Some f) => text_eqb f name | _ => false end.

Lemma named_amount comp name cm : forall d,
  (amount name (fold_left (add_name comp) cm d) == amount name d + total (map (fun e => amount (fst e) comp) (filter (fun e => text_eqb (snd e) name) cm)))%Q.
Proof.
  induction cm as [|[n f] cm IH]; intro d; cbn [fold_left filter snd]; [cbn [map total]; ring|]. rewrite IH.
  assert (A : (amount name (add_name comp d (n, f)) == amount name d + (if text_eqb f name then amount n comp else 0))%Q).
  { unfold add_name, amount at 1. cbn [fst snd]. unfold amount at 2. destruct (dget n comp) as [q|] eqn:G.
    - rewrite dget_dset. destruct (text_eqb_spec f name) as [E|E].
      + subst f. unfold amount. destruct (dget name d); ring.
      + fold (amount name d). ring.
    - fold (amount name d). destruct (text_eqb f name); ring. }
  rewrite A. destruct (text_eqb f name); cbn [map fst total]; [|ring].
  unfold total. ring.
Qed.

Lemma filter_entries name order : map (fun e => fst e) (filter (fun e => text_eqb (snd e) name) (entries order)) = filter (same_name name) order.
Proof.
  induction order as [|n l IH]; [reflexivity|]. unfold entries. cbn [flat_map]. fold (entries l). rewrite filter_app, map_app, IH.
  cbn [filter]. assert (E : same_name name n = match collapse n with Some (Some f) => text_eqb f name | _ => false end) by reflexivity. rewrite E.
  destruct (collapse n) as [[f|]|]; try reflexivity. cbn [filter snd]. destruct (text_eqb f name); reflexivity.
Qed.

Lemma total_filter_zero {A} (g : A -> Q) (p : A -> bool) l : (forall x, In x l -> p x = false -> g x == 0)%Q ->
  (total (map g l) == total (map g (filter p l)))%Q.
Proof.
  induction l as [|x l IH]; intro H; [reflexivity|]. cbn [filter map total]. rewrite IH by (intros y I; apply H; now right).
  destruct (p x) eqn:E; cbn [map total].
  - unfold total. reflexivity.
  - rewrite (H x (or_introl eq_refl) E). ring.
Qed.

Lemma amounts_of_comp (comp : dict Q) p : NoDup (keys comp) ->
  (total (map (fun n => amount n comp) (filter p (keys comp))) == total (map snd (filter (fun e => p (fst e)) comp)))%Q.
Proof.
  intro N. assert (G : forall l, incl l comp -> (total (map (fun n => amount n comp) (filter p (keys l))) == total (map snd (filter (fun e => p (fst e)) l)))%Q).
  { induction l as [|[n q] l IH]; intro I; [reflexivity|]. cbn [keys map fst filter]. fold (keys l). specialize (IH (fun x J => I x (or_intror J))).
    destruct (p n); [|exact IH]. cbn [map snd total]. unfold total in IH. rewrite IH. unfold amount at 1.
    rewrite (in_dget n q comp N) by (apply I; now left). reflexivity. }
  apply G. intros x I. exact I.
Qed.

Lemma keys_perm (comp : dict Q) order p : NoDup order -> NoDup (keys comp) -> incl (keys comp) order ->
  (total (map (fun n => amount n comp) (filter p order)) == total (map snd (filter (fun e => p (fst e)) comp)))%Q.
Proof.
  intros NO NK I. rewrite <- amounts_of_comp by exact NK.
  rewrite (total_filter_zero (fun n => amount n comp) (fun n => has_key n comp)).
  - apply total_perm, Permutation_map. apply NoDup_Permutation; [now apply NoDup_filter, NoDup_filter|now apply NoDup_filter|].
    intro x. rewrite !filter_In, has_key_in. split; [tauto|]. intros [A B]. split; [split; [apply I; exact A|exact B]|exact A].
  - intros x _ H. unfold amount. destruct (dget x comp) as [q|] eqn:G; [|reflexivity].
    apply dget_some_in, (in_map fst) in G. change (In x (keys comp)) in G. apply has_key_in in G. congruence.
Qed.

Lemma named_val comp order name : NoDup order -> NoDup (keys comp) -> incl (keys comp) order ->
  (amount name (named (entries order) comp) == total (map snd (filter (fun e => same_name name (fst e)) comp)))%Q.
Proof.
  intros NO NK I. unfold named. rewrite named_amount. change (amount name []) with 0%Q. rewrite Qplus_0_l.
  rewrite <- keys_perm with (order := order) by assumption. rewrite <- filter_entries, map_map. reflexivity.
Qed.

Lemma named_keys comp name cm : forall d, In name (keys (fold_left (add_name comp) cm d)) <->
  In name (keys d) \/ exists n, In (n, name) cm /\ In n (keys comp).
Proof.
  induction cm as [|[n f] cm IH]; intro d; cbn [fold_left].
  - split; [tauto|]. intros [H|(n & [] & _)]. exact H.
  - rewrite IH. unfold add_name. cbn [fst snd]. destruct (dget n comp) as [q|] eqn:G.
    + rewrite in_keys_dset. apply dget_some_in, (in_map fst) in G. cbn [fst] in G. split.
      * intros [[H|H]|(m & J & K)]; [subst; right; exists n; split; [now left|exact G]|now left|right; exists m; split; [now right|exact K]].
      * intros [H|(m & [J|J] & K)]; [tauto|injection J as -> ->; tauto|right; eauto].
    + apply dget_none in G. split.
      * intros [H|(m & J & K)]; [now left|right; exists m; split; [now right|exact K]].
      * intros [H|(m & [J|J] & K)]; [now left|injection J as -> ->; contradiction|right; eauto].
Qed.
Lemma named_nodup comp cm : forall d, NoDup (keys d) -> NoDup (keys (fold_left (add_name comp) cm d)).
Proof.
  induction cm as [|[n f] cm IH]; intros d N; [exact N|]. cbn [fold_left]. apply IH. unfold add_name. cbn [fst snd].
  destruct (dget n comp); [now apply nodup_dset|exact N].
Qed.

Lemma total_dset name v (d : dict Q) : NoDup (keys d) -> (total (map snd (dset name v d)) == total (map snd d) - amount name d + v)%Q.
Proof.
  unfold amount. induction d as [|[k x] d IH]; intro N; cbn [dset map snd total dget]; [ring|]. cbn [keys map fst] in N. inversion N as [|? ? Nk N']. subst.
  destruct (text_eqb_spec k name) as [E|E]; cbn [map snd total]; [ring|]. rewrite IH by exact N'. ring.
Qed.
Lemma named_total comp cm : forall d, NoDup (keys d) ->
  (total (map snd (fold_left (add_name comp) cm d)) == total (map snd d) + total (map (fun e => amount (fst e) comp) cm))%Q.
Proof.
  induction cm as [|[n f] cm IH]; intros d N; cbn [fold_left map total]; [ring|].
  assert (N' : NoDup (keys (add_name comp d (n, f)))) by (unfold add_name; cbn [fst snd]; destruct (dget n comp); [now apply nodup_dset|exact N]).
  rewrite IH by exact N'. unfold add_name. cbn [fst snd]. unfold amount at 2. destruct (dget n comp) as [q|]; [|ring].
  rewrite total_dset by exact N. unfold amount at 1. destruct (dget f d); ring.
Qed.
Definition kept (n : text) : bool := match collapse n with Some (Some _) => true | _ => false end.
Lemma entries_fst order : map fst (entries order) = filter kept order.
Proof.
  induction order as [|n l IH]; [reflexivity|]. unfold entries. cbn [flat_map]. fold (entries l). rewrite map_app, IH. cbn [filter]. unfold kept at 2.
  destruct (collapse n) as [[f|]|]; reflexivity.
Qed.
Lemma named_whole comp order : NoDup order -> NoDup (keys comp) -> incl (keys comp) order ->
  (total (map snd (named (entries order) comp)) == total (map snd (filter (fun e => kept (fst e)) comp)))%Q.
Proof.
  intros NO NK I. unfold named. rewrite named_total by constructor. cbn [map total]. rewrite Qplus_0_l.
  rewrite <- keys_perm with (order := order) by assumption. rewrite <- entries_fst, map_map. reflexivity.
Qed.

(** * C66 *)

(** Materials written, in terms of the model. *)
Lemma written_materials show fuel order ms cards ms' : write_fluka_materials show fuel order ms = Some (cards, ms') ->
  (forall n, In n order -> collapse n <> None) /\ ms' = rename_all (entries order) ms /\
  exists es l, element_cards (entries order) [] = Some es /\ material_cards show fuel ms' = Some l /\ cards = es ++ l.
Proof.
  intro W. unfold write_fluka_materials in W. destruct (collapsed_map order) as [cm|] eqn:C; [|discriminate W].
  apply collapsed_map_entries in C as [-> CN]. split; [exact CN|].
  destruct (element_cards (entries order) []) as [es|] eqn:EE; [|discriminate W].
  destruct (material_cards show fuel (rename_all (entries order) ms)) as [l|] eqn:EL; [|discriminate W].
  injection W as <- <-. split; [reflexivity|]. exists es, l. auto.
Qed.

(** C66: the composition written has the names of the nuclides, each with the sum of the fractions of the nuclides of
    that name, whatever order the set of nuclides has; together these are all the nuclides that are not dropped.
    Missing from the full property: nuclides of elements FLUKA has no name for are dropped ([C66_dropped_refuted]) or
    stop the translation ([C66_unnamed_refuted]). *)
Theorem C66_fractions_partial show fuel order ms cards ms' :
  is_nuclide_set ms order -> (forall k m, In (k, m) ms -> NoDup (keys (m_comp m))) ->
  write_fluka_materials show fuel order ms = Some (cards, ms') ->
  Forall2 (fun a b => fst b = fst a /\ m_num (snd b) = m_num (snd a) /\ m_dens (snd b) = m_dens (snd a) /\
    NoDup (keys (m_comp (snd b))) /\
    (forall name, In name (keys (m_comp (snd b))) <-> exists n z, In n (keys (m_comp (snd a))) /\ py_int n = Some z /\ called z name) /\
    (forall name q, dget name (m_comp (snd b)) = Some q -> forall is_it,
       (forall n z, In n (keys (m_comp (snd a))) -> py_int n = Some z -> is_it n = true <-> called z name) ->
       (q == total (map snd (filter (fun e => is_it (fst e)) (m_comp (snd a)))))%Q) /\
    (forall is_kept, (forall n z, In n (keys (m_comp (snd a))) -> py_int n = Some z -> is_kept n = true <-> ~ dropped z) ->
       (total (map snd (m_comp (snd b))) == total (map snd (filter (fun e => is_kept (fst e)) (m_comp (snd a)))))%Q)) ms ms'.
Proof.
  intros [NO SO] ND W. destruct (written_materials _ _ _ _ _ _ W) as (CN & -> & _). clear W cards.
  unfold rename_all. apply Forall2_map_self. intros [k m] I. cbn [fst snd m_num m_dens m_comp with_comp].
  assert (IN : incl (keys (m_comp m)) order) by (intros n J; apply SO; eauto).
  assert (PI : forall n, In n (keys (m_comp m)) -> exists z, py_int n = Some z).
  { intros n J. assert (K := CN n (IN n J)). unfold collapse in K. destruct (py_int n); [eauto|contradiction]. }
  split; [reflexivity|]. split; [reflexivity|]. split; [reflexivity|]. split; [apply named_nodup; constructor|]. split; [|split].
  - intro name. unfold named. rewrite named_keys. split.
    + intros [[]|(n & J & K)]. apply in_entries in J as [J C]. destruct (PI n K) as [z P]. exists n, z. split; [exact K|]. split; [exact P|].
      now apply (collapse_called n z name P).
    + intros (n & z & K & P & C). right. exists n. split; [|exact K]. apply in_entries. split; [now apply IN|]. now apply (collapse_called n z name P).
  - intros name q G is_it H. assert (V := named_val (m_comp m) order name NO (ND k m I) IN). unfold amount in V. rewrite G in V. rewrite V.
    assert (E : filter (fun e : text * Q => same_name name (fst e)) (m_comp m) = filter (fun e => is_it (fst e)) (m_comp m)).
    { apply filter_ext_in. intros [n x] J. cbn [fst]. apply (in_map fst) in J. cbn [fst] in J. destruct (PI n J) as [z P]. specialize (H n z J P).
      unfold same_name. assert (K := collapse_called n z name P). destruct (collapse n) as [[f|]|].
      - destruct (text_eqb_spec f name) as [E|E].
        + subst f. symmetry. apply H, K. reflexivity.
        + destruct (is_it n); [|reflexivity]. exfalso. apply E. assert (X : Some (Some f) = Some (Some name)) by (apply K, H; reflexivity). now injection X.
      - destruct (is_it n); [|reflexivity]. exfalso. assert (X : @Some (option text) None = Some (Some name)) by (apply K, H; reflexivity). discriminate X.
      - destruct (is_it n); [|reflexivity]. exfalso. assert (X : @None (option text) = Some (Some name)) by (apply K, H; reflexivity). discriminate X. }
    rewrite E. reflexivity.
  - intros is_kept H. rewrite named_whole by (try assumption; eapply ND; exact I).
    assert (E : filter (fun e : text * Q => kept (fst e)) (m_comp m) = filter (fun e => is_kept (fst e)) (m_comp m)).
    { apply filter_ext_in. intros [n x] J. cbn [fst]. apply (in_map fst) in J. cbn [fst] in J. destruct (PI n J) as [z P]. specialize (H n z J P).
      assert (D := collapse_dropped n z P). assert (X := CN n (IN n J)). unfold kept. destruct (collapse n) as [[f|]|]; [| |congruence].
      - symmetry. apply H. intro Y. apply D in Y. discriminate Y.
      - destruct (is_kept n); [|reflexivity]. exfalso. apply (proj1 H eq_refl). now apply D. }
    rewrite E. reflexivity.
Qed.
Print Assumptions C66_fractions_partial.

(** Two lithium isotopes with their own names, two isotopes of oxygen and one of iron. *)
Definition named_deck : dict material :=
  [(T "1", mkM (T "1") (T "") (-1)%Q [(T "3006", 1 # 4); (T "3007", 1 # 4); (T "8016", 1 # 3); (T "8017", 1 # 6)]%Q [] None);
   (T "2", mkM (T "2") (T "") (-8)%Q [(T "26056", 1); (T "39089", 1)]%Q [] None)].
Example fractions_ex : is_nuclide_set named_deck (map T ["8017"; "3006"; "26056"; "39089"; "3007"; "8016"]%string) /\
  (forall k m, In (k, m) named_deck -> NoDup (keys (m_comp m))) /\
  match write_fluka_materials (fun _ => T "1.0") 99 (map T ["8017"; "3006"; "26056"; "39089"; "3007"; "8016"]%string) named_deck with
  | Some (_, ms') => map (fun e => m_comp (snd e)) ms' = [[(T "OXYGEN", 9 # 18); (T "LITHIU-6", 1 # 4); (T "LITHIU-7", 1 # 4)]; [(T "IRON", 1)]]%Q
  | None => False
  end.
Proof.
  split; [|split; [|vm_compute; reflexivity]].
  - split.
    + repeat constructor; vm_compute; intuition discriminate.
    + intro n. split.
      * intro I. cbn [map In] in I. unfold named_deck. decompose [or] I; subst; try contradiction;
          solve [exists (T "1"); eexists; split; [left; reflexivity|vm_compute; tauto] | exists (T "2"); eexists; split; [right; left; reflexivity|vm_compute; tauto]].
      * intros (k & m & [J|[J|[]]] & K); injection J as <- <-; vm_compute in K |- *; tauto.
  - intros k m [J|[J|[]]]; injection J as <- <-; repeat constructor; vm_compute; intuition discriminate.
Qed.

(** C66 is false of elements without a FLUKA name: half of this material is lost without a word. *)
Theorem C66_dropped_refuted : exists show fuel order ms cards ms' m m',
  is_nuclide_set ms order /\ write_fluka_materials show fuel order ms = Some (cards, ms') /\ In (T "1", m) ms /\ In (T "1", m') ms' /\
  (total (map snd (m_comp m)) == 1)%Q /\ (total (map snd (m_comp m')) == 1 # 2)%Q.
Proof.
  exists (fun _ => T "1.0"), 9, [T "26056"; T "39089"], [(T "1", mkM (T "1") (T "") (-8)%Q [(T "26056", 1 # 2); (T "39089", 1 # 2)]%Q [] None)].
  eexists _, _, _, _. split; [|split; [vm_compute; reflexivity|split; [left; reflexivity|split; [left; reflexivity|split; vm_compute; reflexivity]]]].
  split; [repeat constructor; vm_compute; intuition discriminate|]. intro n. split.
  - intro I. eexists _, _. split; [left; reflexivity|exact I].
  - intros (k & m & [J|[]] & K). injection J as <- <-. exact K.
Qed.
Print Assumptions C66_dropped_refuted.

(** A nuclide which has no name and is not in the list of elements to drop stops the translation, whatever the order. *)
Theorem C66_unnamed_fails show fuel order ms k m n z : is_nuclide_set ms order -> In (k, m) ms -> In n (keys (m_comp m)) ->
  py_int n = Some z -> (forall name, ~ called z name) -> ~ dropped z -> write_fluka_materials show fuel order ms = None.
Proof.
  intros [_ SO] I J P NC ND. destruct (write_fluka_materials show fuel order ms) as [[cards ms']|] eqn:W; [|reflexivity]. exfalso.
  destruct (written_materials _ _ _ _ _ _ W) as (CN & _). assert (X := CN n (proj2 (SO n) (ex_intro _ k (ex_intro _ m (conj I J))))).
  destruct (collapse n) as [[f|]|] eqn:C; [| |congruence].
  - apply (collapse_called n z f P) in C. exact (NC f C).
  - apply (collapse_dropped n z P) in C. contradiction.
Qed.
Print Assumptions C66_unnamed_fails.

(** C66 is false of uranium 236, which natural and irradiated uranium contain. *)
Theorem C66_unnamed_refuted : exists ms, ms <> [] /\ (forall k m, In (k, m) ms -> NoDup (keys (m_comp m)) /\ (total (map snd (m_comp m)) == 1)%Q) /\
  forall show fuel order, is_nuclide_set ms order -> write_fluka_materials show fuel order ms = None.
Proof.
  exists [(T "1", mkM (T "1") (T "") (-19)%Q [(T "92235", 3 # 4); (T "92236", 1 # 4)]%Q [] None)]. split; [discriminate|]. split.
  - intros k m [J|[]]. injection J as <- <-. split; [repeat constructor; vm_compute; intuition discriminate|vm_compute; reflexivity].
  - intros show fuel order S. eapply (C66_unnamed_fails _ _ _ _ _ _ (T "92236") 92236%Z S); [left; reflexivity|right; left; reflexivity|reflexivity| |].
    + intros name C. apply (collapse_called (T "92236") _ name eq_refl) in C. vm_compute in C. discriminate C.
    + intro D. apply (collapse_dropped (T "92236") _ eq_refl) in D. vm_compute in D. discriminate D.
Qed.
Print Assumptions C66_unnamed_refuted.

(** * C67 *)

(** How FLUKA reads the name, the atomic number and the density of a MATERIAL card. *)
Definition is_material (card name : text) : Prop := words (field 0 card) = [T "MATERIAL"] /\ words (field 7 card) = [name].
Definition atomic_number (card : text) (z : Z) : Prop := exists w q, words (field 1 card) = [w] /\ py_float w = Some q /\ (q == inject_Z z)%Q.

(** Every name stands for one element. *)
Definition table_ok : bool :=
  forallb (fun e => let n := T (snd e) in
     (length n <=? 10) && negb (length n =? 0) && forallb (fun c => negb (is_space c)) n && (0 <? fst e)%Z && (fst e <? 99000)%Z &&
     negb (match n with c :: r => Ascii.eqb c "M" && forallb is_digit r | [] => false end) &&
     forallb (fun e' => negb (text_eqb (T (snd e')) n) || (Z.quot (fst e') 1000 =? Z.quot (fst e) 1000)%Z) zz_table) zz_table.
Lemma table_checked : table_ok = true.
Proof. vm_compute. reflexivity. Qed.
Lemma table_entry z n : In (z, n) zz_table ->
  word (T n) /\ length (T n) <= 10 /\ (0 < z < 99000)%Z /\ (forall d, all_digits d -> T n <> T "M" ++ d) /\
  forall z' n', In (z', n') zz_table -> T n' = T n -> Z.quot z' 1000 = Z.quot z 1000.
Proof.
  intro I. assert (H := table_checked). unfold table_ok in H. rewrite forallb_forall in H. specialize (H _ I). cbn [fst snd] in H.
  rewrite !andb_true_iff in H. destruct H as [[[[[[A B] C] D] E] F] G].
  apply Nat.leb_le in A. apply Z.ltb_lt in D, E. split; [split; [|exact C]|].
  - intro K. rewrite K in B. discriminate B.
  - split; [exact A|]. split; [lia|]. split.
    + intros d AD K. rewrite K in F. change (T "M" ++ d) with ("M"%char :: d) in F. cbn [Ascii.eqb] in F. unfold all_digits in AD. rewrite AD in F. discriminate F.
    + intros z' n' I' K. rewrite forallb_forall in G. specialize (G _ I'). cbn [fst snd] in G. rewrite K, text_eqb_refl in G. apply Z.eqb_eq in G. exact G.
Qed.
Lemma quot_element z : Z.quot (1000 * Z.quot z 1000) 1000 = Z.quot z 1000.
Proof. rewrite Z.mul_comm. apply Z.quot_mul. lia. Qed.
Lemma called_facts z f : called z f ->
  word f /\ length f <= 10 /\ (0 <= Z.quot z 1000 < 99)%Z /\ (forall d, all_digits d -> f <> T "M" ++ d) /\
  forall z', called z' f -> Z.quot z' 1000 = Z.quot z 1000.
Proof.
  assert (K : forall z f, called z f -> exists y n, In (y, n) zz_table /\ f = T n /\ Z.quot y 1000 = Z.quot z 1000).
  { intros ? ? C. inversion C; subst; [eauto|]. do 2 eexists. split; [eassumption|]. split; [reflexivity|apply quot_element]. }
  intro C. destruct (K z f C) as (y & n & I & -> & E). destruct (table_entry y n I) as (W & L & R & M & U). split; [exact W|]. split; [exact L|].
  split; [|split; [exact M|]].
  - rewrite <- E. split; [apply Z.quot_pos; lia|]. apply Z.quot_lt_upper_bound; lia.
  - intros z' C'. destruct (K z' _ C') as (y' & n' & I' & E1 & E2). rewrite <- E2, <- E. apply (U y' n' I'). now symmetry.
Qed.

Lemma element_number_check : forallb (fun k => let z := Z.of_nat k in
    (length (str_Z z ++ T ".0") <=? 10) && forallb (fun c => negb (is_space c)) (str_Z z ++ T ".0") &&
    match py_float (str_Z z ++ T ".0") with Some q => Qeq_bool q (inject_Z z) | None => false end) (seq 0 99) = true.
Proof. vm_compute. reflexivity. Qed.
Lemma element_number z : (0 <= z < 99)%Z -> length (str_Z z ++ T ".0") <= 10 /\ word (str_Z z ++ T ".0") /\
  exists q, py_float (str_Z z ++ T ".0") = Some q /\ (q == inject_Z z)%Q.
Proof.
  intro R. assert (H := element_number_check). rewrite forallb_forall in H. specialize (H (Z.to_nat z)). rewrite Z2Nat.id in H by lia.
  assert (I : In (Z.to_nat z) (seq 0 99)) by (apply in_seq; lia). specialize (H I). cbv zeta in H. rewrite !andb_true_iff in H.
  destruct H as [[A B] C]. apply Nat.leb_le in A. split; [exact A|]. split.
  - split; [destruct (str_Z z); discriminate|exact B].
  - destruct (py_float (str_Z z ++ T ".0")) as [q|]; [|discriminate C]. exists q. split; [reflexivity|now apply Qeq_bool_iff].
Qed.

(** The three kinds of cards, field by field. *)
Lemma pad_left_fits n s : length s <= n -> length (pad_left n s) = n.
Proof. intro L. rewrite pad_left_length. lia. Qed.
Lemma element_card n z f c : py_int n = Some z -> called z f -> write_fluka_material_element n f = Some c ->
  is_material c f /\ atomic_number c (Z.quot z 1000) /\ length c = 81.
Proof.
  intros P C W. unfold write_fluka_material_element in W. rewrite P in W.
  match type of W with Some ?t = _ => assert (EW : c = t) by (symmetry; exact (f_equal (fun o => match o with Some x => x | None => c end) W)) end.
  subst c. clear W.
  destruct (called_facts z f C) as (WF & LF & R & _). destruct (element_number _ R) as (L1 & W1 & q & E1 & E2).
  assert (K0 : length (pad_right 10 (T "MATERIAL")) = 10) by reflexivity.
  assert (K1 := pad_left_fits 10 _ L1). assert (K7 := pad_left_fits 10 _ LF). assert (KB : length (pad_left 10 []) = 10) by reflexivity.
  assert (KC : length (pad_left 10 (T "1.0")) = 10) by reflexivity.
  unfold is_material, atomic_number. rewrite field_0 by exact K0.
  rewrite !(field_S _ (pad_right 10 (T "MATERIAL"))) by exact K0. rewrite !(field_S _ (pad_left 10 (str_Z (Z.quot z 1000) ++ T ".0"))) by exact K1.
  rewrite !field_S by (exact KB || exact KC). rewrite !field_0 by assumption. split; [|split].
  - split; [reflexivity|now apply pad_left_word].
  - exists (str_Z (Z.quot z 1000) ++ T ".0"), q. split; [now apply pad_left_word|]. auto.
  - rewrite !app_length, K0, K1, K7, KB, KC. reflexivity.
Qed.
Lemma material_card_fields show m : nonspace (m_num m) -> length (m_num m) <= 9 -> length (show (Qabs (m_dens m))) <= 10 ->
  is_material (write_fluka_material show m) (T "M" ++ m_num m) /\ field 3 (write_fluka_material show m) = pad_left 10 (show (Qabs (m_dens m))) /\
  length (write_fluka_material show m) = 81.
Proof.
  intros WN LN LS. unfold write_fluka_material, is_material.
  assert (K0 : length (pad_right 10 (T "MATERIAL")) = 10) by reflexivity. assert (KB : length (pad_left 10 []) = 10) by reflexivity.
  assert (K3 := pad_left_fits 10 _ LS).
  assert (K7 : length (pad_left 10 (T "M" ++ m_num m)) = 10) by (apply pad_left_fits; rewrite app_length; cbn [T list_ascii_of_string length]; lia).
  rewrite field_0 by exact K0. rewrite !(field_S _ (pad_right 10 (T "MATERIAL"))) by exact K0. rewrite !(field_S _ (pad_left 10 [])) by exact KB.
  rewrite !(field_S _ (pad_left 10 (show (Qabs (m_dens m))))) by exact K3. rewrite !(field_S _ (pad_left 10 [])) by exact KB. rewrite !field_0 by assumption.
  split; [split; [reflexivity|now apply pad_left_word, m_num_word]|]. split; [reflexivity|]. rewrite !app_length, K0, K3, K7, KB. reflexivity.
Qed.

(** The cards of the elements. *)
Lemma element_cards_names cm : forall written es, element_cards cm written = Some es ->
  (forall n f, In (n, f) cm -> exists z, py_int n = Some z /\ called z f) ->
  exists names, Forall2 (fun c f => is_material c f /\ length c = 81 /\ exists z, called z f /\ atomic_number c (Z.quot z 1000)) es names /\
    NoDup names /\ (forall f, In f names -> ~ In f written) /\
    forall n f, In (n, f) cm -> In f fluka_special_mats \/ In f written \/ In f names.
Proof.
  induction cm as [|[n f] cm IH]; intros written es E H; cbn [element_cards] in E.
  - injection E as <-. exists []. split; [constructor|]. split; [constructor|]. split; [intros f []|intros n f []].
  - assert (HT : forall n f, In (n, f) cm -> exists z, py_int n = Some z /\ called z f) by (intros; apply H; now right).
    assert (X : forall l, existsb (text_eqb f) l = true <-> In f l).
    { intro l. rewrite existsb_exists. split; [intros (x & J & Q); apply text_eqb_eq in Q; now subst|intro J; exists f; split; [exact J|apply text_eqb_refl]]. }
    destruct (existsb (text_eqb f) fluka_special_mats || existsb (text_eqb f) written) eqn:B.
    + destruct (IH written es E HT) as (names & F & N & D & U). exists names. split; [exact F|]. split; [exact N|]. split; [exact D|].
      intros n' f' [J|J]; [|eauto]. injection J as <- <-. apply orb_true_iff in B as [B|B]; apply X in B; tauto.
    + apply orb_false_iff in B as [B1 B2]. destruct (write_fluka_material_element n f) as [c|] eqn:W; [|discriminate E].
      destruct (element_cards cm (f :: written)) as [l|] eqn:EL; [|discriminate E]. injection E as <-.
      destruct (IH (f :: written) l EL HT) as (names & F & N & D & U). destruct (H n f (or_introl eq_refl)) as (z & P & C).
      destruct (element_card n z f c P C W) as (M & A & L). exists (f :: names). split; [|split; [|split]].
      * constructor; [|exact F]. split; [exact M|]. split; [exact L|]. eauto.
      * constructor; [|exact N]. intro J. apply (D f J). now left.
      * intros g [<-|J]; [intro K; apply X in K; congruence|]. intro K. apply (D g J). now right.
      * intros n' f' [J|J]; [injection J as <- <-; right; right; now left|]. destruct (U n' f' J) as [K|[[K|K]|K]]; cbn [In]; tauto.
Qed.

(** The cards of the materials. *)
Definition good_material (show : Q -> text) (m : material) : Prop :=
  m_num m <> [] /\ all_digits (m_num m) /\ length (m_num m) <= 9 /\ length (show (Qabs (m_dens m))) <= 10.
Lemma material_cards_names show fuel ms l : material_cards show fuel ms = Some l ->
  (forall k m, In (k, m) ms -> good_material show m /\ Forall good_component (m_comp m)) ->
  Forall (fun c => length c = 81 /\ (words (field 0 c) = [T "COMPOUND"] \/ exists d, all_digits d /\ is_material c (T "M" ++ d))) l.
Proof.
  revert l. induction ms as [|[k m] ms IH]; intros l E H; cbn [material_cards] in E; [injection E as <-; constructor|].
  destruct (write_fluka_compound fuel m) as [cs|] eqn:W; [|discriminate E]. destruct (material_cards show fuel ms) as [r|]; [|discriminate E]. injection E as <-.
  destruct (H k m (or_introl eq_refl)) as [(NE & AD & LN & LS) GC]. assert (WN := digits_nonspace _ AD).
  destruct (C42_compound_partial m WN LN GC) as (cards & WC & OK & _).
  assert (EC : cs = cards).
  { assert (X : write_fluka_compound (fuel + S (length (m_comp m))) m = Some cs).
    { clear - W. unfold write_fluka_compound in *. revert cs W. generalize (comp_string (m_comp m)). induction fuel as [|f IHf]; intros s cs W; [discriminate W|].
      cbn [Nat.add]. cbn [compound_loop] in *. destruct s as [|a s]; [exact W|].
      match goal with |- context [let (part, rest) := ?e in _] => destruct e as [part rest] end.
      destruct (compound_loop f (m_num m) rest) as [x|] eqn:L; [|discriminate W]. rewrite (IHf _ _ L). exact W. }
    rewrite WC in X by lia. now injection X. }
  subst cs. constructor.
  - destruct (material_card_fields show m WN LN LS) as (M & _ & L). split; [exact L|]. right. eauto.
  - apply Forall_app. split.
    + apply (Forall_impl _) with (2 := OK). intros c (F0 & _ & L & _). split; [exact L|]. left. rewrite F0. reflexivity.
    + apply IH; [reflexivity|]. intros k' m' J. apply (H k' m'). now right.
Qed.

(** C67: every component of a material is predefined in FLUKA or declared by exactly one MATERIAL card, which gives the
    atomic number of every nuclide of that name, and all cards have their fields in the right columns.  Missing from the
    full property: numbers printed wider than their field ([C67_wide_refuted]). *)
Theorem C67_declared_partial show fuel order ms cards ms' :
  is_nuclide_set ms order -> (forall k m, In (k, m) ms -> good_material show m) ->
  (forall k m e, In (k, m) ms' -> In e (m_comp m) -> moderate (snd e)) ->
  write_fluka_materials show fuel order ms = Some (cards, ms') ->
  Forall (fun c => length c = 81) cards /\
  forall k m name, In (k, m) ms' -> In name (keys (m_comp m)) -> In name fluka_special_mats \/
    exists before card after, cards = before ++ card :: after /\ is_material card name /\
      (forall n z, In n order -> py_int n = Some z -> called z name -> atomic_number card (Z.quot z 1000)) /\
      (forall c, In c (before ++ after) -> ~ is_material c name).
Proof.
  intros [NO SO] GM MO W. destruct (written_materials _ _ _ _ _ _ W) as (CN & EM & es & l & EE & EL & ->). clear W.
  assert (HC : forall n f, In (n, f) (entries order) -> exists z, py_int n = Some z /\ called z f).
  { intros n f I. apply in_entries in I as [I C]. assert (C' := C). unfold collapse in C'. destruct (py_int n) as [z|] eqn:P; [|discriminate C'].
    exists z. split; [reflexivity|]. now apply (collapse_called n z f P). }
  assert (HM : forall k m, In (k, m) ms' -> good_material show m /\ Forall good_component (m_comp m) /\
                forall name, In name (keys (m_comp m)) -> exists n, In (n, name) (entries order)).
  { intros k m I. assert (I' := I). rewrite EM in I'. unfold rename_all in I'. apply in_map_iff in I' as ([k0 m0] & E & J). cbn [fst snd] in E. injection E as <- <-.
    assert (HN : forall name, In name (keys (named (entries order) (m_comp m0))) -> exists n, In (n, name) (entries order)).
    { intros name X. unfold named in X. apply named_keys in X as [[]|(n & X & _)]. eauto. }
    split; [exact (GM k0 m0 J)|]. cbn [m_comp with_comp] in *. split; [|exact HN].
    apply Forall_forall. intros [f q] X. assert (Y := MO _ _ _ I X). cbn [snd] in Y. apply (in_map fst) in X. cbn [fst] in X. destruct (HN f X) as [n Z].
    destruct (HC n f Z) as (z & _ & C). destruct (called_facts z f C) as (A & B & _). split; [exact A|]. split; [exact B|exact Y]. }
  destruct (element_cards_names (entries order) [] es EE HC) as (names & F2 & NN & _ & UN).
  assert (ML := material_cards_names show fuel ms' l EL (fun k m I => conj (proj1 (HM k m I)) (proj1 (proj2 (HM k m I))))).
  split.
  - apply Forall_app. split; [|apply (Forall_impl _) with (2 := ML); tauto]. clear - F2. induction F2 as [|c f es names H F IH]; constructor; tauto.
  - intros k m name I J. destruct (proj2 (proj2 (HM k m I)) name J) as [n EN]. destruct (UN n name EN) as [S|[[]|S]]; [now left|]. right.
    destruct (HC n name EN) as (z & P & C). apply in_split in S as (n1 & n2 & ->). apply Forall2_app_inv_r in F2 as (e1 & e2' & F1 & F2 & ->).
    inversion F2 as [|card x e2 y (M & _ & z0 & C0 & A0) F2']. subst. clear F2. exists e1, card, (e2 ++ l). split; [now rewrite <- app_assoc|]. split; [exact M|]. split.
    + intros n' z' I' P' C'. destruct (called_facts z' name C') as (_ & _ & _ & _ & U). rewrite <- (U z0 C0). exact A0.
    + assert (ONE : forall c f, is_material c f -> is_material c name -> f = name) by (intros c f [_ X] [_ Y]; congruence).
      apply NoDup_remove_2 in NN. rewrite in_app_iff in NN.
      assert (NE : forall es names, Forall2 (fun c f => is_material c f /\ length c = 81 /\ exists z, called z f /\ atomic_number c (Z.quot z 1000)) es names ->
                   ~ In name names -> forall c, In c es -> ~ is_material c name).
      { clear - ONE. induction 1 as [|c f es names (M & _) F IH]; intros N x [].
        - subst x. intro K. apply N. left. eapply ONE; eassumption.
        - apply IH; [|assumption]. intro K. apply N. now right. }
      intros c IC. rewrite !in_app_iff in IC. destruct IC as [IC|[IC|IC]].
      * eapply NE; [exact F1|tauto|exact IC].
      * eapply NE; [exact F2'|tauto|exact IC].
      * intro K. rewrite Forall_forall in ML. destruct (ML c IC) as [_ [X|(d & AD & X)]].
        -- destruct K as [K _]. rewrite K in X. discriminate X.
        -- apply ONE in X; [|exact K]. destruct (called_facts z name C) as (_ & _ & _ & MN & _). exact (MN d AD (eq_sym X)).
Qed.
Print Assumptions C67_declared_partial.

Definition named_order : list text := map T ["8017"; "3006"; "26056"; "39089"; "3007"; "8016"]%string.
Example declared_ex : (forall k m, In (k, m) named_deck -> good_material (fun _ => T "8.0") m) /\
  match write_fluka_materials (fun _ => T "8.0") 99 named_order named_deck with
  | Some (cards, ms') => nth 0 cards [] = T "MATERIAL         3.0                 1.0                                LITHIU-6" ++ nl /\ length cards = 6 /\
      forall k m e, In (k, m) ms' -> In e (m_comp m) -> moderate (snd e)
  | None => False
  end.
Proof.
  split.
  - intros k m [J|[J|[]]]; injection J as <- <-; (split; [discriminate|]; split; [reflexivity|]; split; apply Nat.leb_le; reflexivity).
  - assert (E : exists cards, write_fluka_materials (fun _ => T "8.0") 99 named_order named_deck = Some (cards, rename_all (entries named_order) named_deck) /\
        nth 0 cards [] = T "MATERIAL         3.0                 1.0                                LITHIU-6" ++ nl /\ length cards = 6)
      by (eexists; split; [vm_compute; reflexivity|split; vm_compute; reflexivity]).
    destruct E as (cards & -> & E1 & E2). split; [exact E1|]. split; [exact E2|].
    assert (R : forallb (fun km => forallb (fun e : text * Q => Qle_bool (10 ^ (-99)) (Qabs (snd e)) && negb (Qle_bool (10 ^ 99) (Qabs (snd e)))) (m_comp (snd km)))
                  (rename_all (entries named_order) named_deck) = true) by (vm_compute; reflexivity).
    intros k m e I J. rewrite forallb_forall in R. specialize (R _ I). rewrite forallb_forall in R. specialize (R _ J). apply andb_true_iff in R as [A B].
    right. split; [now apply Qle_bool_iff|]. apply Qnot_le_lt. intro K. apply Qle_bool_iff in K. rewrite K in B. discriminate B.
Qed.

(** C67 is false when a density takes more than ten characters: the card of the material has its name outside the name field. *)
Theorem C67_wide_refuted : exists show fuel order ms cards ms' m q,
  is_nuclide_set ms order /\ In (T "1", m) ms /\ py_float (show (Qabs (m_dens m))) = Some q /\ (q == Qabs (m_dens m))%Q /\
  write_fluka_materials show fuel order ms = Some (cards, ms') /\ ms' <> [] /\
  forall card, In card cards -> ~ is_material card (T "M1").
Proof.
  exists (fun _ => T "1.2345678901"), 9, [T "26056"], [(T "1", mkM (T "1") (T "") (- (12345678901 # 10000000000))%Q [(T "26056", 1)]%Q [] None)].
  eexists _, _, _, _. split; [|split; [left; reflexivity|split; [vm_compute; reflexivity|split; [vm_compute; reflexivity|split; [vm_compute; reflexivity|split; [discriminate|]]]]]].
  - split; [repeat constructor; vm_compute; intuition discriminate|]. intro n. split.
    + intro I. eexists _, _. split; [left; reflexivity|exact I].
    + intros (k & m & [J|[]] & K). injection J as <- <-. exact K.
  - intros card [<-|[<-|[]]] [H0 H7]; [vm_compute in H7; discriminate H7|vm_compute in H0; discriminate H0].
Qed.
Print Assumptions C67_wide_refuted.
