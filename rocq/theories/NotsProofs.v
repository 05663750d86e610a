(** Facts about the expansion of cell complements. *)
From Verif Require Import PyStr PyStrFacts FortranNumber FortranNumberProofs PyInt PyIntFacts RegionSpec RegionFacts
  CellModel CellProofs NotsModel.

(** * Replacing one atom of an expression by a factor of the same truth *)

Lemma app_mid {A} (a b t1 : list A) x t2 : a ++ b = t1 ++ x :: t2 ->
  (exists l, a = t1 ++ x :: l /\ t2 = l ++ b) \/ (exists l, t1 = a ++ l /\ b = l ++ x :: t2).
Proof.
  revert t1. induction a as [|y a IH]; intros t1 E.
  - right. exists t1. split; [reflexivity|exact E].
  - destruct t1 as [|z t1].
    + left. cbn in E. injection E as <- E. exists a. subst. auto.
    + cbn in E. injection E as <- E. destruct (IH _ E) as [(l & -> & ->)|(l & -> & ->)]; [left|right]; eexists; split; reflexivity.
Qed.

Lemma replace_atom w ts g : factor ts g ->
  (forall l r, expr l r -> forall t1 t2, l = t1 ++ TAtom w :: t2 ->
     exists r', expr (t1 ++ ts ++ t2) r' /\ forall env, env w = holds env g -> holds env r' = holds env r) /\
  (forall l r, term l r -> forall t1 t2, l = t1 ++ TAtom w :: t2 ->
     exists r', term (t1 ++ ts ++ t2) r' /\ forall env, env w = holds env g -> holds env r' = holds env r) /\
  (forall l r, factor l r -> forall t1 t2, l = t1 ++ TAtom w :: t2 ->
     exists r', factor (t1 ++ ts ++ t2) r' /\ forall env, env w = holds env g -> holds env r' = holds env r).
Proof.
  intro F. apply region_mutind.
  - intros l r _ IH t1 t2 E. destruct (IH _ _ E) as (r' & H & K). exists r'. split; [now constructor|exact K].
  - intros l1 r1 l2 r2 E1 IH1 E2 IH2 t1 t2 E. apply app_mid in E as [(l & -> & ->)|(l & -> & E)].
    + destruct (IH1 _ _ eq_refl) as (r' & H & K). exists (ROr r' r2). split.
      * replace (t1 ++ ts ++ l ++ TUnion :: l2) with ((t1 ++ ts ++ l) ++ TUnion :: l2) by now rewrite <- !app_assoc.
        now constructor.
      * intros env He. cbn [holds]. now rewrite (K env He).
    + destruct l as [|x l]; [discriminate|]. cbn [app] in E. injection E as <- ->.
      destruct (IH2 _ _ eq_refl) as (r' & H & K). exists (ROr r1 r'). split.
      * rewrite <- app_assoc. cbn [app]. now constructor.
      * intros env He. cbn [holds]. now rewrite (K env He).
  - intros l r _ IH t1 t2 E. destruct (IH _ _ E) as (r' & H & K). exists r'. split; [now constructor|exact K].
  - intros l1 r1 l2 r2 E1 IH1 E2 IH2 t1 t2 E. apply app_mid in E as [(l & -> & ->)|(l & -> & ->)].
    + destruct (IH1 _ _ eq_refl) as (r' & H & K). exists (RAnd r' r2). split.
      * replace (t1 ++ ts ++ l ++ l2) with ((t1 ++ ts ++ l) ++ l2) by now rewrite <- !app_assoc. now constructor.
      * intros env He. cbn [holds]. now rewrite (K env He).
    + destruct (IH2 _ _ eq_refl) as (r' & H & K). exists (RAnd r1 r'). split.
      * rewrite <- app_assoc. now constructor.
      * intros env He. cbn [holds]. now rewrite (K env He).
  - intros w' t1 t2 E. destruct t1 as [|x t1]; [|destruct t1; discriminate].
    cbn in E. injection E as -> <-. exists g. split; [now rewrite app_nil_r|]. intros env He. cbn [holds]. now rewrite He.
  - intros l r _ IH t1 t2 E. destruct t1 as [|x t1]; [discriminate|]. cbn [app] in E. injection E as <- E.
    apply app_mid in E as [(l' & -> & ->)|(l' & -> & E)].
    + destruct (IH _ _ eq_refl) as (r' & H & K). exists r'. split; [|exact K].
      cbn [app]. replace (t1 ++ ts ++ l' ++ [TClose]) with ((t1 ++ ts ++ l') ++ [TClose]) by now rewrite <- !app_assoc.
      now constructor.
    + destruct l' as [|x l']; [discriminate|]. destruct l'; discriminate.
  - intros l r _ IH t1 t2 E. destruct t1 as [|x t1]; [discriminate|]. cbn [app] in E. injection E as <- E.
    destruct t1 as [|x t1]; [discriminate|]. cbn [app] in E. injection E as <- E.
    apply app_mid in E as [(l' & -> & ->)|(l' & -> & E)].
    + destruct (IH _ _ eq_refl) as (r' & H & K). exists (RNot r'). split.
      * cbn [app]. replace (t1 ++ ts ++ l' ++ [TClose]) with ((t1 ++ ts ++ l') ++ [TClose]) by now rewrite <- !app_assoc.
        now constructor.
      * intros env He. cbn [holds]. now rewrite (K env He).
    + destruct l' as [|x l']; [discriminate|]. destruct l'; discriminate.
Qed.

(** * The words "#n" *)

Definition ref (n : Z) : text := "#"%char :: str_Z n.

Lemma span_digits_all d : all_digits d -> span_digits d = d.
Proof.
  induction d as [|c d IH]; [reflexivity|]. unfold all_digits. cbn [forallb span_digits]. intro H.
  apply andb_prop in H as [-> H2]. now rewrite IH.
Qed.

Lemma str_Z_nonneg n : (0 <= n)%Z -> str_Z n <> [] /\ all_digits (str_Z n).
Proof.
  intro H. unfold str_Z. destruct (Z.ltb_spec n 0); [lia|].
  destruct (str_N_ok (Z.to_N n)) as (A & B & _). auto.
Qed.

Lemma hash_ref n : (0 <= n)%Z -> hash_digits (ref n) = Some (str_Z n).
Proof.
  intro H. destruct (str_Z_nonneg n H) as (A & B). unfold ref. cbn [hash_digits].
  change (Ascii.eqb "#" "#") with true. cbv iota. rewrite span_digits_all by assumption.
  destruct (str_Z n); [congruence|reflexivity].
Qed.

Lemma ref_word n : is_word (ref n) = true.
Proof. reflexivity. Qed.

Lemma hash_digits_hash s d : hash_digits s = Some d -> has_hash s = true.
Proof.
  unfold has_hash. induction s as [|c s IH]; [discriminate|]. cbn [hash_digits existsb].
  rewrite (Ascii.eqb_sym c). destruct (Ascii.eqb "#" c) eqn:E; [reflexivity|]. exact IH.
Qed.

Definition no_hash (l : list item) : Prop := forall s, In (Str s) l -> has_hash s = false.

Lemma no_hash_done l : no_hash l -> nots_remaining l = false.
Proof.
  intro H. unfold nots_remaining. destruct (existsb has_not l) eqn:E; [|reflexivity].
  apply existsb_exists in E as ([o|s] & I & K); [discriminate|]. cbn [has_not] in K.
  destruct (hash_digits s) eqn:D; [|discriminate]. apply hash_digits_hash in D. rewrite (H s I) in D. discriminate.
Qed.

Lemma no_hash_dec l : no_hash l \/ exists a s b, l = a ++ Str s :: b /\ no_hash a /\ has_hash s = true.
Proof.
  induction l as [|i l IH].
  - left. intros s [].
  - destruct i as [o|s].
    + destruct IH as [IH|(a & s & b & -> & Ha & Hs)].
      * left. intros s [I|I]; [discriminate|auto].
      * right. exists (Op o :: a), s, b. split; [reflexivity|]. split; [|exact Hs]. intros x [I|I]; [discriminate|auto].
    + destruct (has_hash s) eqn:Hs.
      * right. exists [], s, l. split; [reflexivity|]. split; [intros ? []|exact Hs].
      * destruct IH as [IH|(a & s' & b & -> & Ha & Hs')].
        -- left. intros x [I|I]; [injection I as <-; exact Hs|auto].
        -- right. exists (Str s :: a), s', b. split; [reflexivity|]. split; [|exact Hs'].
           intros x [I|I]; [injection I as <-; exact Hs|auto].
Qed.

Lemma no_hash_app a b : no_hash a -> no_hash b -> no_hash (a ++ b).
Proof. intros Ha Hb s I. apply in_app_or in I as [I|I]; auto. Qed.

Lemma first_hash_mid a s b : no_hash a -> has_hash s = true -> first_hash (a ++ Str s :: b) = Some (a, s, b).
Proof.
  intros Ha Hs. induction a as [|i a IH]; cbn [app first_hash].
  - now rewrite Hs.
  - assert (Ha' : no_hash a) by (intros x I; apply Ha; now right). rewrite (IH Ha').
    destruct i as [o|x]; [reflexivity|]. now rewrite (Ha x (or_introl eq_refl)).
Qed.

Definition enclosed (t : list item) : list item := Op NOT :: Str (T "(") :: t ++ [Str (T ")")].

Lemma nots_mid a n b : (0 <= n)%Z -> nots_remaining (a ++ Str (ref n) :: b) = true.
Proof.
  intro H. unfold nots_remaining. apply existsb_exists. exists (Str (ref n)). split; [apply in_elt|].
  cbn [has_not]. now rewrite hash_ref.
Qed.

Lemma has_hash_ref n : has_hash (ref n) = true.
Proof. reflexivity. Qed.

Lemma split_mid look a n b t : no_hash a -> (0 <= n)%Z -> look (str_Z n) = Some t ->
  split_nots look (a ++ Str (ref n) :: b) = Some (a ++ enclosed t ++ b).
Proof.
  intros Ha Hn L. unfold split_nots. rewrite first_hash_mid by (assumption || reflexivity).
  rewrite hash_ref by assumption. now rewrite L.
Qed.

(** * Separation of words is kept *)

Lemma spaced_close a b : forall ok, spaced ok a = true -> spaced false b = true ->
  spaced ok (a ++ Str (T ")") :: b) = true.
Proof.
  induction a as [|[[]|s] a IH]; intros ok Ha Hb; cbn [app spaced] in *; auto.
  destruct (is_word s); [|auto]. apply andb_prop in Ha as [-> Ha]. cbn [andb]. auto.
Qed.

Lemma spaced_mid w t b : is_word w = true -> spaced false t = true ->
  forall a ok, spaced ok (a ++ Str w :: b) = true -> spaced ok (a ++ enclosed t ++ b) = true.
Proof.
  intros W Ht. induction a as [|[[]|s] a IH]; intros ok H; cbn [app spaced] in *; auto.
  - rewrite W in H. apply andb_prop in H as [_ H]. unfold enclosed. cbn [app spaced].
    change (is_word (T "(")) with false. cbv iota. change (text_eqb (T "(") (T "(")) with true.
    rewrite <- app_assoc. cbn [app]. apply spaced_close; [|exact H]. now apply spaced_weaken.
  - destruct (is_word s); [|auto]. apply andb_prop in H as [-> H]. cbn [andb]. auto.
Qed.

Lemma tight_close a b : tight a = true -> tight b = true -> tight (a ++ Str (T ")") :: b) = true.
Proof.
  induction a as [|i a IH]; intros Ha Hb; [exact Hb|]. cbn [app].
  destruct i as [[]|s]; cbn [tight] in *; auto.
  destruct a as [|[[]|s] a]; try discriminate; cbn [app] in *; auto.
  apply andb_prop in Ha as [-> Ha]. cbn [andb]. auto.
Qed.

Lemma tight_mid w t b : is_word w = true -> tight t = true ->
  forall a, tight (a ++ Str w :: b) = true -> tight (a ++ enclosed t ++ b) = true.
Proof.
  intros W Ht. assert (E : tight b = true -> tight (enclosed t ++ b) = true).
  { intro Hb. unfold enclosed. cbn [app tight]. rewrite <- app_assoc. cbn [app]. now apply tight_close. }
  induction a as [|i a IH]; intro H.
  - cbn [app tight] in *. apply E. exact H.
  - cbn [app] in *. destruct i as [[]|s]; cbn [tight] in *; auto.
    destruct a as [|[[]|s] a]; cbn [app] in *; try discriminate.
    + rewrite W in H. cbn [andb] in H. specialize (IH H). unfold enclosed in *. exact IH.
    + auto.
    + apply andb_prop in H as [-> H]. cbn [andb]. auto.
Qed.

(** * The loop *)

Section Loop.
Context (cells0 : list cell) (rank : Z -> nat).

(** Truth of surfaces and membership of cells are consistent with the deck. *)
Definition consistent (sense incell : text -> bool) : Prop :=
  forall c r, In c cells0 -> expr (toks (c_items c)) r ->
    holds (atom_env sense incell) r = incell (str_Z (c_id c)).

Definition is_id (n : Z) : Prop := exists c, In c cells0 /\ c_id c = n.
Definition from_deck (s : text) : Prop := exists c, In c cells0 /\ In (Str s) (c_items c).

Definition low (k : nat) (l : list item) : Prop :=
  forall s, In (Str s) l -> has_hash s = true -> exists n, s = ref n /\ (0 <= n)%Z /\ rank n < k /\ is_id n.

Record kept (n : Z) (l : list item) : Prop := Kept {
  k_low : low (rank n) l;
  k_from : forall s, In (Str s) l -> is_word s = true -> from_deck s;
  k_spaced : spaced false l = true;
  k_tight : tight l = true;
  k_den : exists r, expr (toks l) r /\
    forall sense incell, consistent sense incell -> holds (atom_env sense incell) r = incell (str_Z n) }.

(** What the search for a cell of lower rank gives. *)
Definition finds (k : nat) (look : text -> option (list item)) : Prop :=
  forall n, is_id n -> rank n < k -> exists t, look (str_Z n) = Some t /\ kept n t.

Lemma in_enclosed s t : In (Str s) (enclosed t) -> s = T "(" \/ s = T ")" \/ In (Str s) t.
Proof.
  unfold enclosed. intros [I|[I|I]]; [discriminate|injection I as <-; auto|].
  apply in_app_or in I as [I|[I|[]]]; [auto|injection I as <-; auto].
Qed.

Lemma toks_enclosed t : toks (enclosed t) = TNot :: TOpen :: toks t ++ [TClose].
Proof. unfold enclosed, toks. cbn [flat_map item_toks]. rewrite flat_map_app. reflexivity. Qed.

Lemma low_step k a m b t : low k (a ++ Str (ref m) :: b) -> rank m < k -> low (rank m) t ->
  low k (a ++ enclosed t ++ b).
Proof.
  intros H Hm Ht s I Hs. apply in_app_or in I as [I|I].
  - apply H; [apply in_or_app; now left|exact Hs].
  - apply in_app_or in I as [I|I].
    + apply in_enclosed in I as [->|[->|I]]; [discriminate..|].
      destruct (Ht s I Hs) as (n & -> & P & Q & R). exists n. repeat split; auto. lia.
    + apply H; [apply in_or_app; right; now right|exact Hs].
Qed.

Lemma kept_step n a m b t : kept n (a ++ Str (ref m) :: b) -> (0 <= m)%Z -> rank m < rank n -> kept m t ->
  kept n (a ++ enclosed t ++ b).
Proof.
  intros K Hm Hr Kt. split.
  - eapply low_step; [exact (k_low _ _ K)|exact Hr|exact (k_low _ _ Kt)].
  - intros s I W. apply in_app_or in I as [I|I].
    + apply (k_from _ _ K); [apply in_or_app; now left|exact W].
    + apply in_app_or in I as [I|I].
      * apply in_enclosed in I as [->|[->|I]]; [discriminate..|]. exact (k_from _ _ Kt s I W).
      * apply (k_from _ _ K); [apply in_or_app; right; now right|exact W].
  - apply (spaced_mid (ref m)); [reflexivity|exact (k_spaced _ _ Kt)|exact (k_spaced _ _ K)].
  - apply (tight_mid (ref m)); [reflexivity|exact (k_tight _ _ Kt)|exact (k_tight _ _ K)].
  - destruct (k_den _ _ K) as (r & E & H). destruct (k_den _ _ Kt) as (rt & Et & Ht).
    unfold toks in E. rewrite flat_map_app in E. cbn [flat_map item_toks] in E.
    change (str_tok (ref m)) with (TAtom (ref m)) in E. cbn [app] in E.
    destruct (proj1 (replace_atom (ref m) (TNot :: TOpen :: toks t ++ [TClose]) (RNot rt) (factor_not _ _ Et)) _ _ E _ _ eq_refl)
      as (r' & E' & H').
    exists r'. split.
    + unfold toks at 1. rewrite !flat_map_app. fold (toks (enclosed t)). rewrite toks_enclosed. exact E'.
    + intros sense incell C. rewrite <- (H sense incell C). apply H'. cbn [holds]. rewrite (Ht _ _ C).
      unfold atom_env, ref. reflexivity.
Qed.

(** [N] steps of the loop. *)
Inductive steps (look : text -> option (list item)) : nat -> list item -> list item -> Prop :=
| steps_0 l : steps look 0 l l
| steps_S N l l1 l2 : nots_remaining l = true -> split_nots look l = Some l1 -> steps look N l1 l2 ->
    steps look (S N) l l2.

Lemma steps_app look N l l1 : steps look N l l1 -> forall M l2, steps look M l1 l2 -> steps look (N + M) l l2.
Proof. induction 1; intros M l3 H'; [exact H'|]. cbn [Nat.add]. econstructor; eauto. Qed.

Lemma steps_kept n look N l l' : finds (rank n) look -> steps look N l l' -> kept n l -> kept n l'.
Proof.
  intros F S. induction S as [|N l l1 l2 R Sp S IH]; intro K; [exact K|]. apply IH.
  destruct (no_hash_dec l) as [Hn|(a & s & b & -> & Ha & Hs)].
  { rewrite (no_hash_done l Hn) in R. discriminate. }
  destruct (k_low _ _ K s) as (m & -> & P & Q & I); [apply in_elt|exact Hs|].
  destruct (F m I Q) as (t & L & Kt). rewrite (split_mid look a m b t) in Sp by assumption.
  injection Sp as <-. now apply (kept_step n a m).
Qed.

Lemma steps_end k : forall look l, finds k look -> low k l -> forall pre post, no_hash pre ->
  exists N l', steps look N (pre ++ l ++ post) (pre ++ l' ++ post) /\ no_hash l'.
Proof.
  induction k as [k IHk] using lt_wf_ind. intros look l F.
  assert (G : forall len l, length l <= len -> low k l -> forall pre post, no_hash pre ->
    exists N l', steps look N (pre ++ l ++ post) (pre ++ l' ++ post) /\ no_hash l').
  { clear l. induction len as [|len IH]; intros l Len L pre post Hp.
    - destruct l; [|cbn in Len; lia]. exists 0, []. split; [constructor|intros ? []].
    - destruct (no_hash_dec l) as [Hn|(a & s & b & -> & Ha & Hs)].
      { exists 0, l. split; [constructor|exact Hn]. }
      destruct (L s) as (m & -> & P & Q & I); [apply in_elt|exact Hs|].
      destruct (F m I Q) as (t & Lt & Kt).
      assert (F' : finds (rank m) look) by (intros n In Rn; apply F; [exact In|lia]).
      destruct (IHk (rank m) Q look t F' (k_low _ _ Kt) (pre ++ a ++ [Op NOT; Str (T "(")]) (Str (T ")") :: b ++ post))
        as (N1 & t' & S1 & Ht').
      { apply no_hash_app; [exact Hp|]. apply no_hash_app; [exact Ha|].
        intros x [I'|[I'|[]]]; [discriminate|injection I' as <-; reflexivity]. }
      assert (Lb : low k b) by (intros x Ix; apply L; apply in_or_app; right; now right).
      assert (Len' : length b <= len) by (rewrite app_length in Len; cbn in Len; lia).
      assert (He : no_hash (a ++ enclosed t')).
      { apply no_hash_app; [exact Ha|]. intros x Ix. apply in_enclosed in Ix as [->|[->|Ix]]; auto. }
      destruct (IH b Len' Lb (pre ++ a ++ enclosed t') post) as (N2 & b' & S2 & Hb').
      { apply no_hash_app; assumption. }
      exists (S (N1 + N2)), (a ++ enclosed t' ++ b'). split.
      2:{ rewrite app_assoc. now apply no_hash_app. }
      assert (X1 : pre ++ (a ++ Str (ref m) :: b) ++ post = (pre ++ a) ++ Str (ref m) :: (b ++ post)).
      { now rewrite <- !app_assoc. }
      rewrite X1. eapply steps_S.
      + now apply nots_mid.
      + apply split_mid; [now apply no_hash_app|assumption|exact Lt].
      + assert (X2 : forall x, (pre ++ a) ++ enclosed x ++ b ++ post =
                     (pre ++ a ++ [Op NOT; Str (T "(")]) ++ x ++ Str (T ")") :: b ++ post).
        { intro x. unfold enclosed. rewrite <- !app_assoc. cbn [app]. rewrite <- app_assoc. reflexivity. }
        rewrite X2. eapply steps_app; [exact S1|]. rewrite <- X2.
        replace (pre ++ (a ++ enclosed t' ++ b') ++ post) with ((pre ++ a ++ enclosed t') ++ b' ++ post)
          by now rewrite <- !app_assoc.
        replace ((pre ++ a) ++ enclosed t' ++ b ++ post) with ((pre ++ a ++ enclosed t') ++ b ++ post)
          by now rewrite <- !app_assoc.
        exact S2. }
  intros L. exact (G (length l) l (le_n _) L).
Qed.
End Loop.

(** * The cells *)

Lemma find_cell_other b c a d : str_Z (c_id c) <> d -> find_cell (b ++ c :: a) d = find_cell (b ++ a) d.
Proof.
  intro N. unfold find_cell. replace (List.find (fun c0 => text_eqb (str_Z (c_id c0)) d) (b ++ c :: a))
    with (List.find (fun c0 => text_eqb (str_Z (c_id c0)) d) (b ++ a)); [reflexivity|].
  induction b as [|x b IH]; cbn [app List.find].
  - destruct (text_eqb_spec (str_Z (c_id c)) d); [contradiction|reflexivity].
  - now rewrite IH.
Qed.

Lemma find_cell_in cells n : (exists c, In c cells /\ c_id c = n) ->
  exists c, In c cells /\ c_id c = n /\ find_cell cells (str_Z n) = Some (c_items c).
Proof.
  intros (c & I & E). unfold find_cell.
  destruct (List.find (fun c0 => text_eqb (str_Z (c_id c0)) (str_Z n)) cells) as [c'|] eqn:F.
  - apply find_some in F as [I' T']. exists c'. split; [exact I'|]. split; [|reflexivity].
    destruct (text_eqb_spec (str_Z (c_id c')) (str_Z n)); [|discriminate]. now apply str_Z_inj.
  - pose proof (find_none _ _ F c I) as K. cbn beta in K. rewrite E in K.
    destruct (text_eqb_spec (str_Z n) (str_Z n)); [discriminate|contradiction].
Qed.

Lemma with_items_id c l : c_id (with_items c l) = c_id c.
Proof. reflexivity. Qed.

Lemma not_loop_ok cells0 rank before c after N l' :
  finds cells0 rank (rank (c_id c)) (find_cell (before ++ after)) ->
  steps (find_cell (before ++ after)) N (c_items c) l' -> kept cells0 rank (c_id c) (c_items c) -> no_hash l' ->
  forall f, N <= f -> not_loop f before c after = Done (with_items c l').
Proof.
  intros F S. remember (c_items c) as l eqn:El. revert c El F. induction S as [l|N l l1 l2 R Sp S IH]; intros c El F K Hn f Hf.
  - subst l. destruct f; cbn [not_loop]; rewrite (no_hash_done _ Hn); destruct c; reflexivity.
  - destruct f as [|f]; [lia|]. cbn [not_loop]. rewrite <- El, R.
    destruct (no_hash_dec l) as [Hx|(a & s & b & E & Ha & Hs)].
    { rewrite (no_hash_done l Hx) in R. discriminate. }
    destruct (k_low _ _ _ _ K s) as (m & Es & P & Q & I); [rewrite E; apply in_elt|exact Hs|]. rewrite Es in E.
    destruct (F m I Q) as (t & L & Kt).
    assert (Sp' : split_nots (find_cell (before ++ c :: after)) l = Some l1).
    { rewrite E in Sp |- *. rewrite (split_mid _ a m b t) in Sp by assumption.
      rewrite (split_mid _ a m b t); [exact Sp|assumption|assumption|].
      rewrite find_cell_other; [exact L|]. intro X. apply str_Z_inj in X. subst m. lia. }
    rewrite Sp'. rewrite (IH (with_items c l1) eq_refl F).
    + reflexivity.
    + eapply (steps_kept cells0 rank (c_id c)); [exact F| |exact K].
      eapply steps_S; [exact R|exact Sp|constructor].
    + exact Hn.
    + lia.
Qed.

(** A cell with a new description. *)
Definition same_but_items (c c' : cell) : Prop := c' = with_items c (c_items c').

Lemma explode_cells_ok cells0 rank : forall todo0 todo before before0,
  cells0 = before0 ++ todo0 ->
  Forall2 same_but_items before0 before -> Forall2 same_but_items todo0 todo ->
  Forall (fun c => kept cells0 rank (c_id c) (c_items c)) (before ++ todo) ->
  Forall (fun c => no_hash (c_items c)) before ->
  exists N cells', (forall fuel, N <= fuel -> explode_cells fuel before todo = Done cells') /\
    Forall2 same_but_items cells0 cells' /\
    Forall (fun c => kept cells0 rank (c_id c) (c_items c)) cells' /\
    Forall (fun c => no_hash (c_items c)) cells'.
Proof.
  induction todo0 as [|c0 todo0 IH]; intros todo before before0 E B0 T0 K H.
  - inversion T0. subst todo. rewrite app_nil_r in E, K. subst before0. exists 0, before. cbn [explode_cells]. auto.
  - inversion T0 as [|? c ? todo' Sc T0' ]. subst. rename todo' into todo.
    assert (Ids : forall n, is_id (before0 ++ c0 :: todo0) n -> n <> c_id c ->
                  exists x, In x (before ++ todo) /\ c_id x = n).
    { intros n (x & I & Ex) Nx. apply in_app_or in I as [I|[I|I]].
      - destruct (in_split _ _ I) as (l1 & l2 & ->). apply Forall2_app_inv_l in B0 as (m1 & m2 & _ & B2 & ->).
        inversion B2 as [|? y ? ? Sy]. subst. exists y. split; [apply in_or_app; left; apply in_elt|]. rewrite Sy. reflexivity.
      - subst x. rewrite Sc in Nx. cbn in Nx. congruence.
      - destruct (in_split _ _ I) as (l1 & l2 & ->). apply Forall2_app_inv_l in T0' as (m1 & m2 & _ & B2 & ->).
        inversion B2 as [|? y ? ? Sy]. subst. exists y. split; [apply in_or_app; right; apply in_elt|]. rewrite Sy. reflexivity. }
    assert (Fi : finds (before0 ++ c0 :: todo0) rank (rank (c_id c)) (find_cell (before ++ todo))).
    { intros n I R. destruct (find_cell_in (before ++ todo) n) as (x & Ix & Ex & Fx).
      { apply Ids; [exact I|]. intros ->. lia. }
      exists (c_items x). split; [exact Fx|]. rewrite Forall_forall in K. rewrite <- Ex. apply K.
      apply in_app_or in Ix as [Ix|Ix]; apply in_or_app; [now left|right; now right]. }
    assert (Kc : kept (before0 ++ c0 :: todo0) rank (c_id c) (c_items c)).
    { rewrite Forall_forall in K. apply K. apply in_elt. }
    destruct (steps_end _ _ _ _ _ Fi (k_low _ _ _ _ Kc) [] []) as (N1 & l' & S & Hl'); [intros ? []|].
    cbn [app] in S. rewrite !app_nil_r in S.
    assert (Nl := not_loop_ok _ _ _ _ _ _ _ Fi S Kc Hl').
    assert (Kl : kept (before0 ++ c0 :: todo0) rank (c_id c) l') by exact (steps_kept _ _ _ _ _ _ _ Fi S Kc).
    destruct (IH todo (before ++ [with_items c l']) (before0 ++ [c0])) as (N2 & cells' & X & Y & Z & W).
    + now rewrite <- app_assoc.
    + apply Forall2_app; [exact B0|]. constructor; [|constructor]. unfold same_but_items in *. rewrite Sc. reflexivity.
    + exact T0'.
    + rewrite <- app_assoc. cbn [app]. apply Forall_app in K as [K1 K2]. inversion K2. subst.
      apply Forall_app. split; [exact K1|]. constructor; [exact Kl|assumption].
    + apply Forall_app. split; [exact H|]. constructor; [exact Hl'|constructor].
    + exists (Nat.max N1 N2), cells'. split; [|auto]. intros fuel Hf. cbn [explode_cells].
      rewrite Nl by lia. apply X. lia.
Qed.

(** * A consistent membership exists when the references have no cycle *)

Lemma holds_atoms_env env1 env2 l r : expr (toks l) r ->
  (forall s, In (Str s) l -> is_word s = true -> env1 s = env2 s) -> holds env1 r = holds env2 r.
Proof.
  intros E H. apply holds_ext_atoms. intros w I. destruct (expr_words _ _ _ E I) as [I' W]. auto.
Qed.

Definition reading_of (cells : list cell) (env : text -> bool) (d : text) : bool :=
  match List.find (fun c => text_eqb (str_Z (c_id c)) d) cells with
  | Some c => match parse (toks (c_items c)) with Some r => holds env r | None => false end
  | None => false
  end.

Fixpoint nth_reading (cells : list cell) (sense : text -> bool) (k : nat) : text -> bool :=
  match k with
  | O => fun _ => false
  | S k => reading_of cells (atom_env sense (nth_reading cells sense k))
  end.

Lemma find_unique cells c : NoDup (map c_id cells) -> In c cells ->
  List.find (fun c0 => text_eqb (str_Z (c_id c0)) (str_Z (c_id c))) cells = Some c.
Proof.
  induction cells as [|x cells IH]; intros Nd I; [destruct I|]. cbn [map] in Nd. inversion Nd as [|? ? Nx Nd']. subst.
  cbn [List.find]. destruct (text_eqb_spec (str_Z (c_id x)) (str_Z (c_id c))) as [Ex|Ex].
  - destruct I as [->|I]; [reflexivity|]. apply str_Z_inj in Ex. exfalso. apply Nx. rewrite Ex. now apply in_map.
  - destruct I as [->|I]; [congruence|]. auto.
Qed.

Lemma atom_env_nonref sense i1 i2 s : has_hash s = false -> atom_env sense i1 s = atom_env sense i2 s.
Proof.
  destruct s as [|c s]; [reflexivity|]. unfold has_hash. cbn [existsb atom_env]. intro H.
  apply orb_false_iff in H as [H _]. rewrite Ascii.eqb_sym, H. reflexivity.
Qed.

Lemma consistent_exists cells rank sense : NoDup (map c_id cells) ->
  (forall c, In c cells -> low cells rank (rank (c_id c)) (c_items c)) ->
  exists incell, consistent cells sense incell.
Proof.
  intros Nd Lo.
  assert (St : forall k c, In c cells -> rank (c_id c) < k ->
    nth_reading cells sense (S k) (str_Z (c_id c)) = nth_reading cells sense k (str_Z (c_id c))).
  { induction k as [|k IH]; intros c I R; [lia|]. cbn [nth_reading].
    unfold reading_of at 1 3. rewrite find_unique by assumption.
    destruct (parse (toks (c_items c))) as [r|] eqn:P; [|reflexivity]. apply parse_sound in P.
    apply (holds_atoms_env _ _ _ _ P). intros s Is W. destruct (has_hash s) eqn:Hs.
    - destruct (Lo c I s Is Hs) as (n & -> & _ & Rn & c' & I' & <-). unfold ref.
      change (negb (nth_reading cells sense (S k) (str_Z (c_id c'))) = negb (nth_reading cells sense k (str_Z (c_id c')))).
      f_equal. apply (IH c' I'). lia.
    - now apply atom_env_nonref. }
  set (K := S (fold_right (fun c m => Nat.max (rank (c_id c)) m) 0 cells)).
  assert (HK : forall c, In c cells -> rank (c_id c) < K).
  { intros c I. unfold K. clear - I. induction cells as [|x l IH]; [destruct I|]. cbn [fold_right].
    destruct I as [->|I]; [lia|]. specialize (IH I). lia. }
  exists (nth_reading cells sense K). intros c r I E.
  rewrite <- (St K c I (HK c I)). cbn [nth_reading]. unfold reading_of. rewrite find_unique by assumption.
  now rewrite (parse_complete _ _ E).
Qed.
