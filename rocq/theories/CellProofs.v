From Coq Require Import QArith ZifyBool.
From Verif Require Import PyStr PyStrFacts FortranNumber FortranNumberProofs PyInt PyIntFacts
  RegionSpec RegionFacts CellModel.
Open Scope nat_scope.
Open Scope list_scope.

(** * Reading the description *)

(** The token a word of the description stands for. *)
Definition word_tok (s : text) : rtok :=
  if text_eqb s (T ":") then TUnion else if text_eqb s (T "#") then TNot else str_tok s.

(** Tokens after which the description may end. *)
Definition ends (t : rtok) : bool :=
  match t with TClose | TAtom _ => true | _ => false end.

Lemma word_tok_cases s :
  (s = T ":" /\ word_tok s = TUnion) \/ (s = T "#" /\ word_tok s = TNot) \/
  (s = T "(" /\ word_tok s = TOpen) \/
  (text_eqb s (T ":") = false /\ text_eqb s (T "#") = false /\ text_eqb s (T "(") = false /\
   word_tok s = (if text_eqb s (T ")") then TClose else TAtom s)).
Proof.
  unfold word_tok, str_tok.
  destruct (text_eqb_spec s (T ":")); [left; auto|].
  destruct (text_eqb_spec s (T "#")); [right; left; auto|].
  destruct (text_eqb_spec s (T "(")); [right; right; left; auto|].
  right; right; right. auto.
Qed.

Lemma gen_loop_toks l : forall prev,
  l <> [] -> ends (word_tok (last l [])) = true ->
  exists o z, gen_loop prev l = Some (o, z) /\ toks o = map word_tok l.
Proof.
  induction l as [|s l IH]; intros prev N E; [congruence|].
  cbn [gen_loop].
  assert (L : l = [] \/ (l <> [] /\ ends (word_tok (last l [])) = true)).
  { destruct l; [now left|right; split; [discriminate|exact E]]. }
  destruct (word_tok_cases s) as [(-> & W)|[(-> & W)|[(-> & W)|(E1 & E2 & E3 & W)]]].
  - destruct L as [->|[L1 L2]]; [cbn in E; discriminate|].
    destruct (IH (Op UNION) L1 L2) as (o & z & H & Ht). change (text_eqb (T ":") (T ":")) with true. cbv iota. rewrite H.
    eexists _, _; split; [reflexivity|]. cbn [map]. rewrite W, <- Ht. reflexivity.
  - destruct L as [->|[L1 L2]]; [cbn in E; discriminate|].
    destruct (IH (Op NOT) L1 L2) as (o & z & H & Ht).
    change (text_eqb (T "#") (T ":")) with false. change (text_eqb (T "#") (T "#")) with true. cbv iota. rewrite H.
    eexists _, _; split; [reflexivity|]. cbn [map]. rewrite W, <- Ht. reflexivity.
  - destruct L as [->|[L1 L2]]; [cbn in E; discriminate|].
    destruct (IH (Str (T "(")) L1 L2) as (o & z & H & Ht).
    change (text_eqb (T "(") (T ":")) with false. change (text_eqb (T "(") (T "#")) with false.
    change (text_eqb (T "(") (T "(")) with true. cbv iota. rewrite H.
    eexists _, _; split; [reflexivity|]. cbn [map]. rewrite W, <- Ht. reflexivity.
  - rewrite E1, E2, E3.
    assert (W' : str_tok s = word_tok s) by (rewrite W; unfold str_tok; now rewrite E3).
    destruct (negb (item_is (T "(") prev) && negb (text_eqb s (T ")"))) eqn:B.
    + destruct L as [->|[L1 L2]].
      * eexists _, _; split; [reflexivity|]. cbn. now rewrite W'.
      * destruct (IH (Str s) L1 L2) as (o & z & H & Ht).
        destruct l as [|s' l']; [congruence|]. rewrite H.
        eexists _, _; split; [reflexivity|].
        change (toks ([Op AND; Str s] ++ o)) with (str_tok s :: toks o). rewrite W', Ht. reflexivity.
    + destruct L as [->|[L1 L2]].
      * eexists _, _; split; [reflexivity|]. cbn. now rewrite W'.
      * destruct (IH (Str s) L1 L2) as (o & z & H & Ht).
        destruct l as [|s' l']; [congruence|]. rewrite H.
        eexists _, _; split; [reflexivity|].
        change (toks ([Str s] ++ o)) with (str_tok s :: toks o). rewrite W', Ht. reflexivity.
Qed.

(** Well-formed token lists end in an atom or a closing parenthesis. *)
Lemma wf_ends :
  (forall ts r, expr ts r -> exists ts' t, ts = ts' ++ [t] /\ ends t = true) /\
  (forall ts r, term ts r -> exists ts' t, ts = ts' ++ [t] /\ ends t = true) /\
  (forall ts r, factor ts r -> exists ts' t, ts = ts' ++ [t] /\ ends t = true).
Proof.
  apply region_mutind; intros; auto.
  - destruct H0 as (t' & t0 & -> & E). exists (ts1 ++ TUnion :: t'), t0. split; [|assumption].
    now rewrite <- app_assoc.
  - destruct H0 as (t' & t0 & -> & E). exists (ts1 ++ t'), t0. split; [|assumption].
    now rewrite <- app_assoc.
  - exists [], (TAtom w). auto.
  - exists (TOpen :: ts), TClose. auto.
  - exists (TNot :: TOpen :: ts), TClose. auto.
Qed.

Lemma generalise_toks l r : expr (map word_tok l) r ->
  exists o z, generalise l = Some (o, z) /\ toks o = map word_tok l.
Proof.
  intro H. destruct (proj1 wf_ends _ _ H) as (t' & t & E & En).
  unfold generalise. apply gen_loop_toks.
  - intros ->. destruct t'; discriminate.
  - destruct (exists_last (l := l)) as (l' & x & El).
    { intros ->. destruct t'; discriminate. }
    rewrite El in *. rewrite map_app in E. cbn in E. apply app_inj_tail in E as [_ E].
    rewrite last_last. now rewrite E.
Qed.

(** * Separation of words in the generic description *)

(** Every word is directly preceded by AND or an opening parenthesis.  [ok]: what has
    just been read allows a word to follow. *)
Definition is_word (s : text) : bool := negb (text_eqb s (T "(") || text_eqb s (T ")")).

Fixpoint spaced (ok : bool) (l : list item) : bool :=
  match l with
  | [] => true
  | Op AND :: r => spaced true r
  | Op _ :: r => spaced false r
  | Str s :: r => if is_word s then ok && spaced false r else spaced (text_eqb s (T "(")) r
  end.

Lemma gen_loop_spaced l : forall prev o z,
  gen_loop prev l = Some (o, z) -> spaced (item_is (T "(") prev) o = true.
Proof.
  induction l as [|s l IH]; intros prev o z H; [discriminate|]. cbn [gen_loop] in H.
  destruct (text_eqb s (T ":")) eqn:E1.
  { destruct (gen_loop (Op UNION) l) as [[o' z']|] eqn:G; [|discriminate]. injection H as <- <-.
    cbn [spaced]. exact (IH _ _ _ G). }
  destruct (text_eqb s (T "#")) eqn:E2.
  { destruct (gen_loop (Op NOT) l) as [[o' z']|] eqn:G; [|discriminate]. injection H as <- <-.
    cbn [spaced]. exact (IH _ _ _ G). }
  destruct (text_eqb s (T "(")) eqn:E3.
  { destruct (gen_loop (Str s) l) as [[o' z']|] eqn:G; [|discriminate]. injection H as <- <-.
    apply IH in G. cbn [item_is] in G. cbn [spaced]. unfold is_word in *. rewrite E3 in *. exact G. }
  remember (item_is (T "(") prev) as b0 eqn:Eb. clear Eb.
  assert (P : spaced b0 (fst (if negb b0 && negb (text_eqb s (T ")"))
          then ([Op AND; Str s], surf_of s) else ([Str s], []))) = true /\
     forall o', spaced false o' = true ->
       spaced b0 (fst (if negb b0 && negb (text_eqb s (T ")"))
          then ([Op AND; Str s], surf_of s) else ([Str s], @nil Z)) ++ o') = true).
  { assert (W : is_word s = negb (text_eqb s (T ")"))) by (unfold is_word; now rewrite E3).
    destruct b0; cbn [negb andb].
    - cbn [fst app spaced]. rewrite W, E3. destruct (text_eqb s (T ")")); cbn [negb andb]; auto.
    - destruct (text_eqb s (T ")")); cbn [negb fst app spaced]; rewrite W, ?E3; cbn [negb andb]; auto. }
  destruct P as [P1 P2].
  destruct (if negb b0 && negb (text_eqb s (T ")")) then _ else _) as [fr z0].
  destruct l as [|s' l'].
  { injection H as <- <-. exact P1. }
  destruct (gen_loop (Str s) (s' :: l')) as [[o' z']|] eqn:G; [|discriminate]. injection H as <- <-.
  apply P2. apply IH in G. cbn [item_is] in G. rewrite E3 in G. exact G.
Qed.

Lemma spaced_weaken l ok : spaced false l = true -> spaced ok l = true.
Proof.
  destruct ok; [|trivial]. destruct l as [|[[]|s] r]; cbn; auto. destruct (is_word s); cbn; auto. discriminate.
Qed.

Lemma generalise_spaced l r o z : expr (map word_tok l) r -> generalise l = Some (o, z) -> spaced false o = true.
Proof.
  intros E G. pose proof (gen_loop_spaced _ _ _ _ G) as H. cbn [item_is] in H.
  destruct (proj1 wf_ends _ _ E) as (t' & t & Et & En).
  destruct (exists_last (l := l)) as (l' & x & El).
  { intros ->. destruct t'; discriminate. }
  rewrite El in *. rewrite last_last in H. rewrite map_app in Et. cbn [map] in Et.
  apply app_inj_tail in Et as [_ Et].
  destruct (text_eqb_spec x (T "(")); [|assumption]. subst x. rewrite <- Et in En. discriminate.
Qed.

(** Every AND is directly followed by a word, or by a complement (which the expansion of
    cell complements puts in the place of a word). *)
Fixpoint tight (l : list item) : bool :=
  match l with
  | [] => true
  | Op AND :: r => match r with
                   | Str s :: _ => is_word s && tight r
                   | Op NOT :: _ => tight r
                   | _ => false
                   end
  | _ :: r => tight r
  end.

Lemma gen_loop_tight l : forall prev o z, gen_loop prev l = Some (o, z) -> tight o = true.
Proof.
  induction l as [|s l IH]; intros prev o z H; [discriminate|]. cbn [gen_loop] in H.
  destruct (text_eqb s (T ":")) eqn:E1.
  { destruct (gen_loop (Op UNION) l) as [[o' z']|] eqn:G; [|discriminate]. injection H as <- <-. exact (IH _ _ _ G). }
  destruct (text_eqb s (T "#")) eqn:E2.
  { destruct (gen_loop (Op NOT) l) as [[o' z']|] eqn:G; [|discriminate]. injection H as <- <-. exact (IH _ _ _ G). }
  destruct (text_eqb s (T "(")) eqn:E3.
  { destruct (gen_loop (Str s) l) as [[o' z']|] eqn:G; [|discriminate]. injection H as <- <-. exact (IH _ _ _ G). }
  remember (item_is (T "(") prev) as b0 eqn:Eb. clear Eb.
  assert (P : forall o', tight o' = true ->
       tight (fst (if negb b0 && negb (text_eqb s (T ")"))
          then ([Op AND; Str s], surf_of s) else ([Str s], @nil Z)) ++ o') = true).
  { intros o' H'. destruct b0; cbn [negb andb fst app tight]; [exact H'|].
    destruct (text_eqb s (T ")")) eqn:E4; cbn [negb fst app tight]; [exact H'|].
    unfold is_word. rewrite E3, E4. exact H'. }
  destruct (if negb b0 && negb (text_eqb s (T ")")) then _ else _) as [fr z0].
  destruct l as [|s' l'].
  { injection H as <- <-. cbn [fst] in P. rewrite <- (app_nil_r fr). apply P. reflexivity. }
  destruct (gen_loop (Str s) (s' :: l')) as [[o' z']|] eqn:G; [|discriminate]. injection H as <- <-.
  apply P. eapply IH; eauto.
Qed.

Lemma generalise_tight l o z : generalise l = Some (o, z) -> tight o = true.
Proof. apply gen_loop_tight. Qed.

(** Every string of the result is a word of the description other than an operator. *)
Lemma gen_loop_strs l : forall prev o z s,
  gen_loop prev l = Some (o, z) -> In (Str s) o -> In s l /\ s <> T ":" /\ s <> T "#".
Proof.
  induction l as [|x l IH]; intros prev o z s H I; [discriminate|]. cbn [gen_loop] in H.
  destruct (text_eqb_spec x (T ":")) as [E1|E1].
  { destruct (gen_loop (Op UNION) l) as [[o' z']|] eqn:G; [|discriminate]. injection H as <- <-.
    destruct I as [I|I]; [discriminate|]. destruct (IH _ _ _ _ G I). split; [now right|assumption]. }
  destruct (text_eqb_spec x (T "#")) as [E2|E2].
  { destruct (gen_loop (Op NOT) l) as [[o' z']|] eqn:G; [|discriminate]. injection H as <- <-.
    destruct I as [I|I]; [discriminate|]. destruct (IH _ _ _ _ G I). split; [now right|assumption]. }
  destruct (text_eqb_spec x (T "(")) as [E3|E3].
  { destruct (gen_loop (Str x) l) as [[o' z']|] eqn:G; [|discriminate]. injection H as <- <-.
    destruct I as [I|I]; [injection I as <-; split; [now left|auto]|].
    destruct (IH _ _ _ _ G I). split; [now right|assumption]. }
  assert (P : forall o', In (Str s) (fst (if negb (item_is (T "(") prev) && negb (text_eqb x (T ")"))
          then ([Op AND; Str x], surf_of x) else ([Str x], @nil Z)) ++ o') -> s = x \/ In (Str s) o').
  { intros o' Ho. destruct (negb (item_is (T "(") prev) && negb (text_eqb x (T ")"))); cbn in Ho;
      intuition congruence. }
  destruct l as [|s' l'].
  { destruct (if negb (item_is (T "(") prev) && negb (text_eqb x (T ")")) then _ else _) as [fr z0].
    injection H as <- <-. destruct (P []) as [->|[]]; [now rewrite app_nil_r|]. split; [now left|auto]. }
  destruct (if negb (item_is (T "(") prev) && negb (text_eqb x (T ")")) then _ else _) as [fr z0].
  destruct (gen_loop (Str x) (s' :: l')) as [[o' z']|] eqn:G; [|discriminate]. injection H as <- <-.
  destruct (P o' I) as [->|I']; [split; [now left|auto]|].
  destruct (IH _ _ _ _ G I'). split; [now right|assumption].
Qed.

(** * replace_surface *)

(** Truth of an atom that is a signed surface number. *)
Definition zenv (sense : Z -> bool) (w : text) : bool :=
  match py_int w with
  | Some z => if (z <? 0)%Z then negb (sense (- z)%Z) else sense z
  | None => false
  end.

(** The surface number an atom mentions. *)
Definition mentions (l : list item) (n : Z) : Prop :=
  exists s z, In (Str s) l /\ py_int s = Some z /\ Z.abs z = n.

Definition all_ints (l : list item) : Prop :=
  forall s, In (Str s) l -> is_word s = true -> exists z, py_int s = Some z.

Definition rep_word (ref new : Z) (reverse : bool) (s : text) : text :=
  match py_int s with
  | None => s
  | Some z => if (z =? new)%Z then str_Z (if reverse then - ref else ref)
              else if (z =? - new)%Z then str_Z (if reverse then ref else - ref)
              else s
  end.

Lemma str_Z_word z : is_word (str_Z z) = true.
Proof.
  destruct (str_Z_shape z) as (d & N & D & E). unfold is_word.
  destruct (text_eqb_spec (str_Z z) (T "(")) as [F|_].
  - exfalso. destruct E as [E|E]; rewrite E in F; [|discriminate]. rewrite F in D. vm_compute in D. discriminate.
  - destruct (text_eqb_spec (str_Z z) (T ")")) as [F|_]; [|reflexivity].
    exfalso. destruct E as [E|E]; rewrite E in F; [|discriminate]. rewrite F in D. vm_compute in D. discriminate.
Qed.

Lemma str_tok_word s : is_word s = true -> str_tok s = TAtom s.
Proof.
  unfold is_word, str_tok. destruct (text_eqb s (T "(")); [discriminate|].
  destruct (text_eqb s (T ")")); [discriminate|reflexivity].
Qed.

Lemma rep_word_word ref new rev s : is_word s = true -> is_word (rep_word ref new rev s) = true.
Proof.
  intro H. unfold rep_word. destruct (py_int s); [|assumption].
  destruct (z =? new)%Z; [apply str_Z_word|]. destruct (z =? - new)%Z; [apply str_Z_word|assumption].
Qed.

Definition rep_item (ref new : Z) (reverse : bool) (i : item) : item :=
  match i with
  | Str s => if is_word s then Str (rep_word ref new reverse s) else i
  | _ => i
  end.

Lemma replace_item_eq ref new rev i : (0 < new)%Z ->
  (forall s, i = Str s -> is_word s = true -> exists z, py_int s = Some z) ->
  replace_item ref new rev i = Some (rep_item ref new rev i).
Proof.
  intros P H. destruct i as [o|s]; [reflexivity|]. cbn [replace_item rep_item].
  destruct (is_word s) eqn:W; unfold is_word in W.
  - apply negb_true_iff in W. rewrite W. destruct (H s eq_refl) as [z Hz]; [unfold is_word; now rewrite W|].
    unfold rep_word. rewrite Hz.
    destruct (Z.eqb_spec z new).
    + subst z. rewrite Z.abs_eq by lia. rewrite Z.eqb_refl. cbn [andb].
      replace (-1 * ref)%Z with (- ref)%Z by lia. destruct rev; reflexivity.
    + destruct (Z.eqb_spec z (- new)).
      * subst z. replace (Z.abs (- new)) with new by lia. rewrite Z.eqb_refl.
        cbn [andb negb]. replace (-1 * ref)%Z with (- ref)%Z by lia. destruct rev; reflexivity.
      * assert (E : (Z.abs z =? new)%Z = false) by lia. rewrite E. reflexivity.
  - apply negb_false_iff in W. rewrite W. reflexivity.
Qed.

Lemma replace_surface_eq ref new rev l : (0 < new)%Z -> all_ints l ->
  replace_surface ref new rev l = Some (map (rep_item ref new rev) l).
Proof.
  intros P H. induction l as [|i l IH]; [reflexivity|]. cbn [replace_surface map].
  rewrite replace_item_eq, IH; [reflexivity| |assumption|].
  - intros s I. apply H. now right.
  - intros s ->. apply H. now left.
Qed.

Lemma toks_rep ref new rev l :
  toks (map (rep_item ref new rev) l) = map (map_tok (rep_word ref new rev)) (toks l).
Proof.
  induction l as [|i l IH]; [reflexivity|]. cbn [map]. unfold toks in *. cbn [flat_map].
  rewrite map_app, <- IH. f_equal.
  destruct i as [[]|s]; try reflexivity. cbn [rep_item].
  destruct (is_word s) eqn:W.
  - cbn [item_toks map]. rewrite !str_tok_word by (try apply rep_word_word; assumption). reflexivity.
  - cbn [item_toks map]. unfold is_word in W. apply negb_false_iff in W.
    unfold str_tok. destruct (text_eqb s (T "(")); [reflexivity|]. cbn [orb] in W. rewrite W. reflexivity.
Qed.

Lemma zenv_rep sense ref new rev s :
  (0 < ref)%Z -> (0 < new)%Z -> sense new = xorb rev (sense ref) ->
  zenv sense (rep_word ref new rev s) = zenv sense s.
Proof.
  intros Pr Pn H. unfold rep_word. destruct (py_int s) as [z|] eqn:E; [|reflexivity].
  unfold zenv. rewrite E.
  destruct (Z.eqb_spec z new) as [->|N1].
  - rewrite py_int_str_Z. destruct (Z.ltb_spec new 0); [lia|].
    destruct rev.
    + destruct (Z.ltb_spec (- ref) 0); [|lia]. rewrite Z.opp_involutive, H. destruct (sense ref); reflexivity.
    + destruct (Z.ltb_spec ref 0); [lia|]. rewrite H. destruct (sense ref); reflexivity.
  - destruct (Z.eqb_spec z (- new)) as [->|N2].
    + rewrite py_int_str_Z. destruct (Z.ltb_spec (- new) 0); [|lia]. rewrite Z.opp_involutive.
      destruct rev.
      * destruct (Z.ltb_spec ref 0); [lia|]. rewrite H. destruct (sense ref); reflexivity.
      * destruct (Z.ltb_spec (- ref) 0); [|lia]. rewrite Z.opp_involutive, H. destruct (sense ref); reflexivity.
    + now rewrite E.
Qed.

Lemma replace_surface_region ref new rev l r :
  (0 < ref)%Z -> (0 < new)%Z -> all_ints l -> expr (toks l) r ->
  exists l' r', replace_surface ref new rev l = Some l' /\ expr (toks l') r' /\
    (forall sense, sense new = xorb rev (sense ref) ->
       holds (zenv sense) r' = holds (zenv sense) r).
Proof.
  intros Pr Pn A H. exists (map (rep_item ref new rev) l), (map_region (rep_word ref new rev) r).
  split; [now apply replace_surface_eq|]. split.
  - rewrite toks_rep. now apply map_tok_expr.
  - intros sense S. rewrite holds_map. apply holds_ext. intro w. now apply zenv_rep.
Qed.

Lemma rep_word_int ref new rev s z : py_int s = Some z ->
  exists z', py_int (rep_word ref new rev s) = Some z' /\
    (Z.abs z' = Z.abs ref \/ (Z.abs z' = Z.abs z /\ z <> new /\ z <> - new)%Z).
Proof.
  intro E. unfold rep_word. rewrite E.
  destruct (Z.eqb_spec z new); [rewrite py_int_str_Z; eexists; split; [reflexivity|left; destruct rev; lia]|].
  destruct (Z.eqb_spec z (- new)); [rewrite py_int_str_Z; eexists; split; [reflexivity|left; destruct rev; lia]|].
  exists z. split; [assumption|]. right. auto.
Qed.

Lemma all_ints_rep ref new rev l : all_ints l -> all_ints (map (rep_item ref new rev) l).
Proof.
  intros A s I W. apply in_map_iff in I as (i & E & I). destruct i as [o|s0]; [discriminate|].
  cbn [rep_item] in E. destruct (is_word s0) eqn:W0.
  - injection E as <-. destruct (A s0 I W0) as [z Hz]. destruct (rep_word_int ref new rev s0 z Hz) as (z' & E & _). now exists z'.
  - injection E as <-. congruence.
Qed.

(** What a replaced description mentions. *)
Lemma mentions_rep ref new rev l n : (0 < ref)%Z -> (0 < new)%Z -> all_ints l ->
  mentions (map (rep_item ref new rev) l) n ->
  (n = ref /\ mentions l new) \/ (mentions l n /\ n <> new).
Proof.
  intros Pr Pn A (s & z & I & Hz & Hn). apply in_map_iff in I as (i & E & I).
  destruct i as [o|s0]; [discriminate|]. cbn [rep_item] in E.
  destruct (is_word s0) eqn:W0.
  - injection E as <-. destruct (A s0 I W0) as [z0 Hz0].
    unfold rep_word in Hz. rewrite Hz0 in Hz.
    destruct (Z.eqb_spec z0 new).
    + rewrite py_int_str_Z in Hz. injection Hz as <-. left. split; [destruct rev; lia|].
      exists s0, z0. repeat split; auto; lia.
    + destruct (Z.eqb_spec z0 (- new)).
      * rewrite py_int_str_Z in Hz. injection Hz as <-. left. split; [destruct rev; lia|].
        exists s0, z0. repeat split; auto; lia.
      * right. rewrite Hz0 in Hz. injection Hz as <-. split; [|lia]. exists s0, z0. auto.
  - injection E as <-. exfalso. unfold is_word in W0. apply negb_false_iff, orb_prop in W0.
    destruct W0 as [W|W]; apply text_eqb_eq in W; subst; discriminate.
Qed.

Lemma spaced_rep ref new rev l : forall ok, spaced ok (map (rep_item ref new rev) l) = spaced ok l.
Proof.
  induction l as [|i l IH]; intro ok; [reflexivity|]. cbn [map spaced].
  destruct i as [[]|s]; cbn [rep_item]; try apply IH.
  destruct (is_word s) eqn:W.
  - rewrite rep_word_word by assumption. now rewrite IH.
  - rewrite W. apply IH.
Qed.

(** The atoms of the region are the words of the description. *)
Lemma in_toks_atom l w : In (TAtom w) (toks l) <-> In (Str w) l /\ is_word w = true.
Proof.
  unfold toks. rewrite in_flat_map. split.
  - intros (i & Ii & It). destruct i as [[]|s]; cbn [item_toks] in It; try (destruct It as [It|It]; [discriminate|destruct It]).
    { destruct It. }
    destruct It as [It|[]]. unfold str_tok in It. unfold is_word.
    destruct (text_eqb s (T "(")) eqn:E1; [discriminate|]. destruct (text_eqb s (T ")")) eqn:E2; [discriminate|].
    injection It as <-. rewrite E1, E2. auto.
  - intros [I W]. exists (Str w). split; [assumption|]. left. now apply str_tok_word.
Qed.

Lemma expr_words l r w : expr (toks l) r -> In w (atoms r) -> In (Str w) l /\ is_word w = true.
Proof.
  intros E I. rewrite <- (proj1 expr_atoms _ _ E) in I. unfold tok_atoms in I. apply in_flat_map in I as (t & It & Iw).
  destruct t; try destruct Iw as [].
  - apply in_toks_atom. now subst.
  - contradiction.
Qed.
