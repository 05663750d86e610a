(** Facts about the removal of duplicate surfaces. *)
From Coq Require Import Reals Lra.
From Verif Require Import PyStr PyStrFacts PyInt PyIntFacts RegionSpec RegionFacts GeomSpec SurfModel SurfSpec SurfProofs
  FlattenModel NotsModel NotsProofs CellModel CellProofs DedupeModel.
Open Scope nat_scope.

(** The comparison of two entries: [Some rev] if they are the same. *)
Definition sameb (s c : ent) : option bool :=
  let '((same, rev), _) := diff_gen (e_gen s) (e_gen c) true in if same then Some rev else None.

Lemma compare_one_eq s d c : compare_one s d c = match sameb s c with Some r => dict_set c (s, r) d | None => d end.
Proof. unfold compare_one, sameb. destruct (diff_gen _ _ _) as [[same rev] ?]. destruct same; reflexivity. Qed.

Lemma sameb_iff s c : sameb s c <> None <->
  s_type (e_gen c) = s_type (e_gen s) /\
  (s_coef (e_gen c) = s_coef (e_gen s) \/ s_coef (reverse (e_gen c)) = s_coef (e_gen s)).
Proof.
  unfold sameb, diff_gen. destruct (stype_beq (s_type (e_gen c)) (s_type (e_gen s))) eqn:Ty; cbn [negb].
  - apply internal_stype_dec_bl in Ty.
    destruct (list_Reqb (s_coef (e_gen c)) (s_coef (e_gen s))) eqn:E1.
    + apply list_Reqb_true in E1. split; [auto|discriminate].
    + destruct (list_Reqb (s_coef (reverse (e_gen c))) (s_coef (e_gen s))) eqn:E2.
      * apply list_Reqb_true in E2. split; [auto|discriminate].
      * split; [congruence|]. intros [_ [E|E]]; apply list_Reqb_true in E; congruence.
  - split; [congruence|]. intros [E _]. rewrite E in Ty. rewrite internal_stype_dec_lb in Ty by reflexivity. discriminate.
Qed.

Lemma rev_coefs c : map (fun i => (i * -1)%R) (map (fun i => (i * -1)%R) c) = c.
Proof. rewrite map_map. rewrite <- (map_id c) at 2. apply map_ext. intro x. ring. Qed.

Lemma sameb_sym a b : sameb a b <> None -> sameb b a <> None.
Proof.
  rewrite !sameb_iff. unfold reverse. cbn [s_coef set_tc]. intros [T [E|E]]; (split; [congruence|]); [left; congruence|].
  right. rewrite <- E. apply rev_coefs.
Qed.

Lemma sameb_trans a b c : sameb a b <> None -> sameb b c <> None -> sameb a c <> None.
Proof.
  rewrite !sameb_iff. unfold reverse. cbn [s_coef set_tc]. intros [T [E|E]] [T' [E'|E']]; (split; [congruence|]).
  - left. congruence.
  - right. congruence.
  - right. congruence.
  - left. rewrite <- E, <- E'. symmetry. apply rev_coefs.
Qed.

(** * The dictionary *)

Fixpoint lookup (d : dups) (k : ent) : option (ent * bool) :=
  match d with
  | [] => None
  | (k', v) :: r => if e_ix k' =? e_ix k then Some v else lookup r k
  end.

Lemma lookup_set c v d k : lookup (dict_set c v d) k = if e_ix c =? e_ix k then Some v else lookup d k.
Proof.
  induction d as [|[k' v'] d IH]; cbn [dict_set lookup]; [reflexivity|].
  destruct (Nat.eqb_spec (e_ix k') (e_ix c)) as [E|E]; cbn [lookup].
  - rewrite E. destruct (e_ix c =? e_ix k); reflexivity.
  - rewrite IH. destruct (Nat.eqb_spec (e_ix k') (e_ix k)); [|reflexivity].
    destruct (Nat.eqb_spec (e_ix c) (e_ix k)); [congruence|reflexivity].
Qed.

Definition uniq (l : list ent) : Prop := NoDup (map e_ix l).

Lemma uniq_app_l a b : uniq (a ++ b) -> uniq a.
Proof.
  unfold uniq. rewrite map_app. induction (map e_ix a) as [|x l IH]; intro H; [constructor|].
  cbn [app] in H. inversion H as [|? ? N H']. subst. constructor; [|auto]. intro I. apply N. apply in_or_app. now left.
Qed.

Lemma uniq_mid a k b : uniq (a ++ k :: b) -> ~ In (e_ix k) (map e_ix a) /\ ~ In (e_ix k) (map e_ix b).
Proof.
  unfold uniq. rewrite map_app. cbn [map]. intro H. apply NoDup_remove_2 in H.
  split; intro I; apply H; apply in_or_app; auto.
Qed.

Lemma fold_compare e k : forall l d, uniq l ->
  (In k l -> lookup (fold_left (compare_one e) l d) k =
     match sameb e k with Some r => Some (e, r) | None => lookup d k end) /\
  (~ In (e_ix k) (map e_ix l) -> lookup (fold_left (compare_one e) l d) k = lookup d k).
Proof.
  induction l as [|c l IH]; intros d U; cbn [fold_left].
  - split; [intros []|reflexivity].
  - unfold uniq in U. cbn [map] in U. inversion U as [|? ? N U']. subst. destruct (IH (compare_one e d c) U') as [I1 I2].
    assert (L : e_ix c <> e_ix k -> lookup (compare_one e d c) k = lookup d k).
    { intro Ne. rewrite compare_one_eq. destruct (sameb e c); [|reflexivity]. rewrite lookup_set.
      destruct (Nat.eqb_spec (e_ix c) (e_ix k)); [contradiction|reflexivity]. }
    split.
    + intros [->|I].
      * rewrite I2 by assumption. rewrite compare_one_eq. destruct (sameb e k); [|reflexivity].
        rewrite lookup_set, Nat.eqb_refl. reflexivity.
      * rewrite I1 by assumption. destruct (sameb e k); [reflexivity|]. apply L. intro E. apply N. rewrite E. now apply in_map.
    + cbn [map]. intro Nk. rewrite I2 by (intro; apply Nk; now right). apply L. intro E. apply Nk. now left.
Qed.

Fixpoint last_match (k : ent) (l : list ent) : option (ent * bool) :=
  match l with
  | [] => None
  | e :: r => match last_match k r with
              | Some x => Some x
              | None => match sameb e k with Some b => Some (e, b) | None => None end
              end
  end.

Lemma last_match_some k l t r : last_match k l = Some (t, r) ->
  exists a b, l = a ++ t :: b /\ sameb t k = Some r /\ last_match k b = None.
Proof.
  induction l as [|e l IH]; [discriminate|]. cbn [last_match]. destruct (last_match k l) as [x|] eqn:M.
  - intro H. injection H as ->. destruct (IH eq_refl) as (a & b & -> & S & N). exists (e :: a), b. auto.
  - destruct (sameb e k) eqn:S; [|discriminate]. intro H. injection H as <- <-. exists [], l. auto.
Qed.

Lemma last_match_none k l : last_match k l = None <-> forall e, In e l -> sameb e k = None.
Proof.
  induction l as [|e l IH]; cbn [last_match].
  - split; [intros _ ? []|reflexivity].
  - destruct (last_match k l) as [x|] eqn:M.
    + split; [discriminate|]. intro H. assert (Some x = None) by (apply IH; intros x' I; apply H; now right). discriminate.
    + destruct (sameb e k) eqn:S.
      * split; [discriminate|]. intro H. rewrite (H e (or_introl eq_refl)) in S. discriminate.
      * split; [|reflexivity]. intros _ x [<-|I]; [exact S|]. apply IH; [reflexivity|exact I].
Qed.

Lemma scan_lookup k : forall rest earlier d, uniq (earlier ++ rest) ->
  (In k earlier -> lookup (scan earlier rest d) k =
     match last_match k rest with Some x => Some x | None => lookup d k end) /\
  (~ In (e_ix k) (map e_ix (earlier ++ rest)) -> lookup (scan earlier rest d) k = lookup d k).
Proof.
  induction rest as [|e rest IH]; intros earlier d U; cbn [scan].
  - split; reflexivity.
  - assert (U' : uniq ((earlier ++ [e]) ++ rest)) by now rewrite <- app_assoc.
    destruct (IH (earlier ++ [e]) (fold_left (compare_one e) earlier d) U') as [I1 I2].
    destruct (fold_compare e k earlier d (uniq_app_l _ _ U)) as [F1 F2]. split.
    + intro I. rewrite I1 by (apply in_or_app; now left). cbn [last_match].
      destruct (last_match k rest); [reflexivity|]. rewrite F1 by assumption. destruct (sameb e k); reflexivity.
    + intro N. rewrite I2 by (rewrite <- app_assoc; exact N). apply F2. intro I. apply N. rewrite map_app. apply in_or_app. now left.
Qed.

Lemma scan_app a b : forall earlier d, scan earlier (a ++ b) d = scan (earlier ++ a) b (scan earlier a d).
Proof.
  induction a as [|e a IH]; intros earlier d; cbn [app scan]; [now rewrite app_nil_r|].
  rewrite IH. rewrite <- app_assoc. reflexivity.
Qed.

Lemma scan_group a k b d : uniq (a ++ k :: b) ->
  lookup (scan [] (a ++ k :: b) d) k = match last_match k b with Some x => Some x | None => lookup d k end.
Proof.
  intro U. rewrite scan_app. cbn [app scan].
  assert (U' : uniq ((a ++ [k]) ++ b)) by now rewrite <- app_assoc.
  destruct (scan_lookup k b (a ++ [k]) (fold_left (compare_one k) a (scan [] a d)) U') as [S _].
  rewrite S by (apply in_or_app; right; now left). destruct (last_match k b); [reflexivity|].
  destruct (uniq_mid _ _ _ U) as [Na _].
  destruct (fold_compare k k a (scan [] a d) (uniq_app_l _ _ U)) as [_ F]. rewrite F by assumption.
  destruct (scan_lookup k a [] d (uniq_app_l _ _ U)) as [_ S2]. apply S2. exact Na.
Qed.

(** * The groups *)

Definition of_type (t : stype) (e : ent) : bool := stype_beq t (s_type (e_gen e)).

Lemma stype_beq_spec a b : reflect (a = b) (stype_beq a b).
Proof.
  destruct (stype_beq a b) eqn:E; constructor.
  - now apply internal_stype_dec_bl.
  - intros ->. rewrite internal_stype_dec_lb in E by reflexivity. discriminate.
Qed.

Lemma filter_snoc {A} (f : A -> bool) l x : filter f (l ++ [x]) = filter f l ++ (if f x then [x] else []).
Proof. rewrite filter_app. cbn [filter]. reflexivity. Qed.


Lemma in_add_group e gs t l : NoDup (map fst gs) -> In (t, l) (add_group e gs) ->
  (t <> s_type (e_gen e) /\ In (t, l) gs) \/
  (t = s_type (e_gen e) /\ exists l0, In (t, l0) gs /\ l = l0 ++ [e]) \/
  (t = s_type (e_gen e) /\ ~ In t (map fst gs) /\ l = [e]).
Proof.
  induction gs as [|[t' l'] gs IH]; cbn [add_group map fst]; intros Nd I.
  - destruct I as [I|[]]. injection I as <- <-. right. right. auto.
  - inversion Nd as [|? ? N Nd']. subst. destruct (stype_beq_spec t' (s_type (e_gen e))) as [E|E].
    + destruct I as [I|I].
      * injection I as <- <-. right. left. split; [exact E|]. exists l'. split; [now left|reflexivity].
      * left. split; [|now right]. intro F. apply N. rewrite E, <- F. change t with (fst (t, l)). now apply in_map.
    + destruct I as [I|I].
      * injection I as <- <-. left. split; [exact E|now left].
      * destruct (IH Nd' I) as [[A B]|[(A & l0 & B & C)|(A & B & C)]].
        -- left. split; [exact A|now right].
        -- right. left. split; [exact A|]. exists l0. split; [now right|exact C].
        -- right. right. split; [exact A|]. split; [|exact C]. intros [F|F]; [congruence|contradiction].
Qed.

Lemma keys_add_group e gs t : In t (map fst (add_group e gs)) <-> In t (map fst gs) \/ t = s_type (e_gen e).
Proof.
  induction gs as [|[t' l'] gs IH]; cbn [add_group map fst]; [cbn; intuition|].
  destruct (stype_beq_spec t' (s_type (e_gen e))) as [E|E]; cbn [map fst In].
  - intuition. subst. auto.
  - rewrite IH. tauto.
Qed.

Lemma nodup_add_group e gs : NoDup (map fst gs) -> NoDup (map fst (add_group e gs)).
Proof.
  induction gs as [|[t' l'] gs IH]; cbn [add_group map fst]; intro Nd; [repeat constructor; intros []|].
  inversion Nd as [|? ? N Nd']. subst.
  destruct (stype_beq_spec t' (s_type (e_gen e))) as [E|E]; cbn [map fst]; constructor; auto.
  intro I. apply keys_add_group in I as [I|I]; contradiction.
Qed.

Lemma groups_ok es :
  NoDup (map fst (groups es)) /\ (forall t l, In (t, l) (groups es) -> l = filter (of_type t) es) /\
  (forall e, In e es -> In (s_type (e_gen e)) (map fst (groups es))).
Proof.
  unfold groups. induction es as [|e l IH] using rev_ind.
  { cbn. repeat split; [constructor|intros ? ? []|intros ? []]. }
  rewrite fold_left_app. cbn [fold_left]. destruct IH as (Nd & Fi & Co). set (gs := fold_left _ l []) in *. clearbody gs.
  split; [now apply nodup_add_group|]. split.
  - intros t lt I. rewrite filter_snoc. unfold of_type at 2.
    destruct (in_add_group _ _ _ _ Nd I) as [[A B]|[(A & l0 & B & ->)|(A & B & ->)]].
    + destruct (stype_beq_spec t (s_type (e_gen e))); [contradiction|]. rewrite app_nil_r. now apply Fi.
    + destruct (stype_beq_spec t (s_type (e_gen e))); [|contradiction]. now rewrite (Fi _ _ B).
    + destruct (stype_beq_spec t (s_type (e_gen e))); [|contradiction].
      replace (filter (of_type t) l) with (@nil ent); [reflexivity|].
      destruct (filter (of_type t) l) as [|x f] eqn:F; [reflexivity|]. exfalso. apply B.
      assert (Ix : In x (filter (of_type t) l)) by (rewrite F; now left).
      apply filter_In in Ix as [Ix Tx]. unfold of_type in Tx. apply internal_stype_dec_bl in Tx. rewrite Tx. auto.
  - intros x I. apply keys_add_group. apply in_app_or in I as [I|[<-|[]]]; auto.
Qed.

Lemma uniq_filter f l : uniq l -> uniq (filter f l).
Proof.
  unfold uniq. induction l as [|e l IH]; [auto|]. cbn [map filter]. intro U. inversion U as [|? ? N U']. subst.
  destruct (f e); [|auto]. cbn [map]. constructor; [|auto]. intro I. apply N.
  apply in_map_iff in I as (x & E & Ix). apply filter_In in Ix as [Ix _]. rewrite <- E. now apply in_map.
Qed.

Lemma last_match_filter k l : last_match k (filter (of_type (s_type (e_gen k))) l) = last_match k l.
Proof.
  induction l as [|e l IH]; [reflexivity|]. cbn [filter last_match]. unfold of_type at 1.
  destruct (stype_beq_spec (s_type (e_gen k)) (s_type (e_gen e))) as [E|E].
  - cbn [last_match]. now rewrite IH.
  - rewrite IH. destruct (last_match k l); [reflexivity|]. destruct (sameb e k) eqn:S; [|reflexivity].
    exfalso. assert (N : sameb e k <> None) by congruence. apply sameb_iff in N as [N _]. contradiction.
Qed.

Lemma find_dups_lookup a k b : uniq (a ++ k :: b) -> lookup (find_dups (a ++ k :: b)) k = last_match k b.
Proof.
  set (es := a ++ k :: b). intro U. unfold find_dups. destruct (groups_ok es) as (Nd & Fi & Co).
  assert (K : In (s_type (e_gen k)) (map fst (groups es))) by (apply Co; apply in_elt).
  assert (Out : forall gs d, (forall t l, In (t, l) gs -> l = filter (of_type t) es) -> ~ In (s_type (e_gen k)) (map fst gs) ->
     lookup (fold_left (fun d g => scan [] (snd g) d) gs d) k = lookup d k).
  { induction gs as [|[t l] gs IH]; intros d F N; [reflexivity|]. cbn [fold_left snd].
    rewrite IH; [|intros; apply F; now right|intro; apply N; now right].
    rewrite (F t l (or_introl eq_refl)).
    destruct (scan_lookup k (filter (of_type t) es) [] d) as [_ S]; [cbn [app]; now apply uniq_filter|].
    apply S. cbn [app]. intro I. apply in_map_iff in I as (x & E & Ix). apply filter_In in Ix as [Ix Tx].
    unfold of_type in Tx. apply internal_stype_dec_bl in Tx.
    assert (x = k). { clear - E Ix U. unfold es in *. apply in_app_or in Ix. destruct (uniq_mid _ _ _ U) as [Na Nb].
      destruct Ix as [Ix|[Ix|Ix]]; [|auto|].
      - exfalso. apply Na. rewrite <- E. now apply in_map.
      - exfalso. apply Nb. rewrite <- E. now apply in_map. }
    subst x. apply N. cbn [map fst]. now left. }
  assert (G : forall gs d, NoDup (map fst gs) -> (forall t l, In (t, l) gs -> l = filter (of_type t) es) ->
     In (s_type (e_gen k)) (map fst gs) -> lookup d k = None ->
     lookup (fold_left (fun d g => scan [] (snd g) d) gs d) k = last_match k b).
  { induction gs as [|[t l] gs IH]; intros d N F I L; [destruct I|]. cbn [fold_left snd].
    cbn [map fst] in N, I. inversion N as [|? ? Nt N']. subst.
    destruct I as [I|I].
    - subst t. rewrite Out; [|intros; apply F; now right|assumption].
      rewrite (F _ l (or_introl eq_refl)). unfold es. rewrite filter_app. cbn [filter]. unfold of_type at 2.
      rewrite internal_stype_dec_lb by reflexivity. rewrite scan_group.
      + rewrite last_match_filter, L. destruct (last_match k b); reflexivity.
      + replace (filter (of_type (s_type (e_gen k))) a ++ k :: filter (of_type (s_type (e_gen k))) b) with
          (filter (of_type (s_type (e_gen k))) es); [now apply uniq_filter|].
        unfold es. rewrite filter_app. cbn [filter]. unfold of_type at 2. rewrite internal_stype_dec_lb by reflexivity. reflexivity.
    - apply IH; auto.
      + intros; apply F; now right.
      + assert (Nk : t <> s_type (e_gen k)) by (intros ->; contradiction).
        rewrite (F _ l (or_introl eq_refl)).
        destruct (scan_lookup k (filter (of_type t) es) [] d) as [_ S]; [cbn [app]; now apply uniq_filter|].
        rewrite S; [exact L|]. cbn [app]. intro J. apply in_map_iff in J as (x & E & Ix). apply filter_In in Ix as [Ix Tx].
        unfold of_type in Tx. apply internal_stype_dec_bl in Tx.
        assert (x = k). { clear - E Ix U. unfold es in *. apply in_app_or in Ix. destruct (uniq_mid _ _ _ U) as [Na Nb].
          destruct Ix as [Ix|[Ix|Ix]]; [|auto|].
          - exfalso. apply Na. rewrite <- E. now apply in_map.
          - exfalso. apply Nb. rewrite <- E. now apply in_map. }
        subst x. contradiction. }
  apply G; auto.
Qed.

(** * The keys *)

Definition keys_in (es : list ent) (d : dups) : Prop :=
  NoDup (map (fun kv => e_ix (fst kv)) d) /\ forall k v, In (k, v) d -> In k es /\ In (fst v) es.

Lemma keys_set es c v d : keys_in es d -> In c es -> In (fst v) es -> keys_in es (dict_set c v d).
Proof.
  intros [Nd I] Ic Iv.
  assert (A : forall k w, In (k, w) (dict_set c v d) -> In k es /\ In (fst w) es).
  { clear Nd. induction d as [|[k' v'] d IH]; cbn [dict_set]; intros k w J.
    - destruct J as [J|[]]. injection J as <- <-. auto.
    - destruct (e_ix k' =? e_ix c).
      + destruct J as [J|J]; [injection J as <- <-; split; [apply (I k' v'); now left|exact Iv]|]. apply I. now right.
      + destruct J as [J|J]; [apply I; now left|]. apply IH; [|exact J]. intros; apply I; now right. }
  split; [|exact A]. clear I A. induction d as [|[k' v'] d IH]; cbn [dict_set map fst]; [repeat constructor; intros []|].
  cbn [map fst] in Nd. inversion Nd as [|? ? N Nd']. subst.
  destruct (Nat.eqb_spec (e_ix k') (e_ix c)) as [E|E]; cbn [map fst]; constructor; auto.
  intro J. clear IH Nd Nd'. induction d as [|[k2 v2] d IH2]; cbn [dict_set map fst] in J.
  - destruct J as [J|[]]; congruence.
  - destruct (e_ix k2 =? e_ix c); cbn [map fst] in J.
    + apply N. exact J.
    + destruct J as [J|J]; [apply N; now left|]. apply IH2; [|exact J]. intro; apply N; now right.
Qed.

Lemma keys_compare es e l : In e es -> (forall c, In c l -> In c es) -> forall d, keys_in es d -> keys_in es (fold_left (compare_one e) l d).
Proof.
  intros Ie. induction l as [|c l IH]; intros Il d K; [exact K|]. cbn [fold_left]. apply IH.
  - intros; apply Il; now right.
  - rewrite compare_one_eq. destruct (sameb e c); [|exact K]. apply keys_set; auto. apply Il. now left.
Qed.

Lemma keys_scan es : forall rest earlier d, (forall e, In e (earlier ++ rest) -> In e es) -> keys_in es d -> keys_in es (scan earlier rest d).
Proof.
  induction rest as [|e rest IH]; intros earlier d I K; [exact K|]. cbn [scan]. apply IH.
  - intros x J. apply I. rewrite <- app_assoc in J. exact J.
  - apply keys_compare; auto.
    + apply I. apply in_elt.
    + intros c J. apply I. apply in_or_app. now left.
Qed.

Lemma keys_find_dups es : keys_in es (find_dups es).
Proof.
  unfold find_dups. destruct (groups_ok es) as (_ & Fi & _).
  assert (G : forall gs d, (forall t l, In (t, l) gs -> l = filter (of_type t) es) -> keys_in es d ->
    keys_in es (fold_left (fun d g => scan [] (snd g) d) gs d)).
  { induction gs as [|[t l] gs IH]; intros d F K; [exact K|]. cbn [fold_left snd]. apply IH; [intros; apply F; now right|].
    apply keys_scan; [|exact K]. intros x J. cbn [app] in J. rewrite (F t l (or_introl eq_refl)) in J. now apply filter_In in J. }
  apply G; [exact Fi|]. split; [constructor|intros ? ? []].
Qed.

Lemma in_lookup d k v : NoDup (map (fun kv : ent * (ent * bool) => e_ix (fst kv)) d) -> In (k, v) d -> lookup d k = Some v.
Proof.
  induction d as [|[k' v'] d IH]; intros N I; [destruct I|]. cbn [map fst] in N. inversion N as [|? ? Nk N']. subst.
  cbn [lookup]. destruct I as [I|I].
  - injection I as -> ->. now rewrite Nat.eqb_refl.
  - destruct (Nat.eqb_spec (e_ix k') (e_ix k)) as [E|E]; [|auto]. exfalso. apply Nk. rewrite E.
    apply (in_map (fun kv => e_ix (fst kv)) d (k, v)). exact I.
Qed.

Lemma lookup_none d k : lookup d k = None <-> existsb (fun kv => e_ix (fst kv) =? e_ix k) d = false.
Proof.
  induction d as [|[k' v] d IH]; cbn [lookup existsb fst]; [tauto|].
  destruct (e_ix k' =? e_ix k); cbn [orb]; [|exact IH]. split; discriminate.
Qed.

(** What the dictionary contains: a key is replaced by the last surface that is the same,
    and that one is not a key. *)
Lemma dups_facts es k t r : uniq es -> In (k, (t, r)) (find_dups es) ->
  In k es /\ In t es /\ sameb t k = Some r /\ lookup (find_dups es) t = None /\ e_ix t <> e_ix k.
Proof.
  intros U I. destruct (keys_find_dups es) as [Nd Ks]. destruct (Ks _ _ I) as [Ik It]. cbn [fst] in It.
  pose proof (in_lookup _ _ _ Nd I) as L. split; [exact Ik|]. split; [exact It|].
  destruct (in_split _ _ Ik) as (a & b & ->). rewrite find_dups_lookup in L by exact U.
  destruct (last_match_some _ _ _ _ L) as (b1 & b2 & -> & S & N). split; [exact S|].
  assert (E : a ++ k :: b1 ++ t :: b2 = (a ++ k :: b1) ++ t :: b2) by (rewrite <- app_assoc; reflexivity).
  split.
  - rewrite E in U |- *. rewrite find_dups_lookup by exact U. apply last_match_none. intros e Ie.
    destruct (sameb e t) eqn:X; [|reflexivity]. exfalso.
    assert (Y : sameb e k <> None) by (apply (sameb_trans e t k); congruence).
    apply Y. now apply (proj1 (last_match_none k b2)).
  - destruct (uniq_mid _ _ _ U) as [_ Nb]. intro F. apply Nb. rewrite <- F. apply in_map. apply in_elt.
Qed.
