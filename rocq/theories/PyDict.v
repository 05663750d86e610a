(** Python dictionaries with text keys, in insertion order, and the facts used about them. *)
From Coq Require Import Permutation.
From Verif Require Import PyStr PyStrFacts.

(** A dictionary (e.g. MaterialCard.py 105-106, MCNPInput.py 40). *)
Definition dict (V : Type) := list (text * V).

(** [d[k]]; [None] is a KeyError (e.g. MCNPInput.py 349). *)
Fixpoint dget {V} (k : text) (d : dict V) : option V :=
  match d with
  | [] => None
  | (k', v) :: r => if text_eqb k' k then Some v else dget k r
  end.

(** [d[k] = v]: an old key keeps its place, a new one comes last (e.g. MCNPInput.py 361). *)
Fixpoint dset {V} (k : text) (v : V) (d : dict V) : dict V :=
  match d with
  | [] => [(k, v)]
  | (k', v') :: r => if text_eqb k' k then (k', v) :: r else (k', v') :: dset k v r
  end.

(** [del d[k]] for a key of the dictionary (e.g. MaterialCard.py 167). *)
Fixpoint ddel {V} (k : text) (d : dict V) : dict V :=
  match d with
  | [] => []
  | (k', v) :: r => if text_eqb k' k then r else (k', v) :: ddel k r
  end.

(** [d.keys()] (e.g. MCNPInput.py 309). *)
Definition keys {V} (d : dict V) : list text := map fst d.
Definition has_key {V} (k : text) (d : dict V) : bool := existsb (text_eqb k) (keys d).

Lemma text_eqb_sym a b : text_eqb a b = text_eqb b a.
Proof. destruct (text_eqb_spec a b), (text_eqb_spec b a); congruence. Qed.

Section Facts.
Context {V : Type}.
Implicit Types (d : dict V) (v : V).

Lemma has_key_in k d : has_key k d = true <-> In k (keys d).
Proof.
  unfold has_key. rewrite existsb_exists. split.
  - intros (x & I & E). apply text_eqb_eq in E. now subst.
  - intro I. exists k. split; [exact I|apply text_eqb_refl].
Qed.

Lemma dget_none k d : dget k d = None <-> ~ In k (keys d).
Proof.
  induction d as [|[k' v] d IH]; cbn [dget keys map fst In]; [tauto|].
  destruct (text_eqb_spec k' k) as [E|E].
  - split; [discriminate|tauto].
  - rewrite IH. unfold keys. tauto.
Qed.

Lemma dget_some_in k v d : dget k d = Some v -> In (k, v) d.
Proof.
  induction d as [|[k' v'] d IH]; cbn [dget]; [discriminate|].
  destruct (text_eqb_spec k' k) as [E|E]; intro H; [left; congruence|right; auto].
Qed.

Lemma in_dget k v d : NoDup (keys d) -> In (k, v) d -> dget k d = Some v.
Proof.
  induction d as [|[k' v'] d IH]; cbn [dget keys map fst]; intros N I; [destruct I|].
  inversion N as [|? ? Nk N']. subst. destruct I as [I|I].
  - injection I as -> ->. now rewrite text_eqb_refl.
  - destruct (text_eqb_spec k' k) as [E|E]; [|auto]. exfalso. apply Nk. subst. now apply (in_map fst) in I.
Qed.

Lemma dget_key k d : In k (keys d) -> exists v, dget k d = Some v.
Proof. intro I. destruct (dget k d) as [v|] eqn:E; [eauto|]. apply dget_none in E. contradiction. Qed.

Lemma dget_dset k v k' d : dget k' (dset k v d) = if text_eqb k k' then Some v else dget k' d.
Proof.
  induction d as [|[a b] d IH]; cbn [dset dget].
  - reflexivity.
  - destruct (text_eqb_spec a k) as [E|E]; cbn [dget].
    + subst. destruct (text_eqb k k'); reflexivity.
    + rewrite IH. destruct (text_eqb_spec a k') as [F|F]; [|reflexivity].
      destruct (text_eqb_spec k k') as [G|G]; [congruence|reflexivity].
Qed.

Lemma keys_dset k v d : keys (dset k v d) = if has_key k d then keys d else keys d ++ [k].
Proof.
  unfold has_key. induction d as [|[a b] d IH]; cbn [dset keys map fst existsb app]; [reflexivity|].
  rewrite (text_eqb_sym k a). destruct (text_eqb a k); cbn [orb map fst]; [reflexivity|].
  unfold keys in *. rewrite IH. destruct (existsb (text_eqb k) (map fst d)); reflexivity.
Qed.

Lemma in_keys_dset k v k' d : In k' (keys (dset k v d)) <-> k' = k \/ In k' (keys d).
Proof.
  rewrite keys_dset. destruct (has_key k d) eqn:H.
  - apply has_key_in in H. split; [tauto|]. intros [->|I]; assumption.
  - rewrite in_app_iff. cbn [In]. intuition.
Qed.

Lemma nodup_dset k v d : NoDup (keys d) -> NoDup (keys (dset k v d)).
Proof.
  rewrite keys_dset. destruct (has_key k d) eqn:H; [auto|]. intro N.
  assert (X : ~ In k (keys d)) by (intro I; apply has_key_in in I; congruence).
  apply (Permutation_NoDup (l := k :: keys d)); [apply Permutation_cons_append|now constructor].
Qed.

Lemma dget_ddel k k' d : NoDup (keys d) -> dget k' (ddel k d) = if text_eqb k k' then None else dget k' d.
Proof.
  induction d as [|[a b] d IH]; cbn [ddel dget keys map fst]; intro N.
  - destruct (text_eqb k k'); reflexivity.
  - inversion N as [|? ? Na N']. subst. destruct (text_eqb_spec a k) as [E|E]; cbn [dget].
    + subst a. destruct (text_eqb_spec k k') as [F|F]; [|reflexivity]. subst. now apply dget_none.
    + rewrite IH by assumption. destruct (text_eqb_spec a k') as [F|F]; [|reflexivity].
      destruct (text_eqb_spec k k') as [G|G]; [congruence|reflexivity].
Qed.

Lemma in_keys_ddel k k' d : NoDup (keys d) -> (In k' (keys (ddel k d)) <-> In k' (keys d) /\ k' <> k).
Proof.
  intro N. assert (A := dget_ddel k k' d N). split.
  - intro I. destruct (text_eqb_spec k k') as [E|E].
    + apply dget_none in A. contradiction.
    + split; [|congruence]. destruct (dget_key _ _ I) as [v Ev]. rewrite A in Ev. apply dget_some_in in Ev.
      now apply (in_map fst) in Ev.
  - intros [I E]. destruct (text_eqb_spec k k') as [F|F]; [congruence|].
    destruct (dget_key _ _ I) as [v Ev]. rewrite <- A in Ev. apply dget_some_in in Ev. now apply (in_map fst) in Ev.
Qed.

Lemma nodup_ddel k d : NoDup (keys d) -> NoDup (keys (ddel k d)).
Proof.
  induction d as [|[a b] d IH]; cbn [ddel keys map fst]; intro N; [constructor|].
  inversion N as [|? ? Na N']. subst. destruct (text_eqb a k); [assumption|]. cbn [map fst]. constructor; [|auto].
  intro I. apply Na. apply in_keys_ddel in I; [tauto|assumption].
Qed.
End Facts.
