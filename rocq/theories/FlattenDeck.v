(** Flattening a whole deck. *)
From Coq Require Import Reals.
From Verif Require Import PyStr PyStrFacts FortranNumberProofs PyInt PyIntFacts RegionSpec RegionFacts
  SurfModel MacroModel CellModel CellProofs CellText MacroText FlattenModel FlattenProofs.
Open Scope nat_scope.
Open Scope list_scope.

(** Specification: which numbers the surfaces of each macrobody get.  [n] is the last
    number in use. *)
Fixpoint counters (l : list surface) (n : Z) : list (surface * Z) :=
  match l with
  | [] => []
  | s :: r => if is_macrobody s then (s, n) :: counters r (n + Z.of_nat (facets_of s)) else counters r n
  end.

Definition range (n : Z) (k : nat) : list Z := map (fun i => (n + Z.of_nat i)%Z) (seq 1 k).

(** [w] refers to macrobody [m]: m, -m, m.k or -m.k. *)
Definition names (m : Z) (w : text) : Prop :=
  w = sid m \/ w = minus (sid m) \/ exists sg k, 1 <= k <= 9 /\ w = facet_word sg m k.

(** [env] gives the truth of words before, [env'] after flattening: -m is the
    intersection of the negative sides of the surfaces of m, m its complement, m.k the
    k-th of these surfaces; any other word keeps its truth. *)
Definition means (l : list surface) (n : Z) (env' env : text -> bool) : Prop :=
  (forall s c, In (s, c) (counters l n) ->
     env (minus (sid (s_id s))) = forallb (fun j => env' (minus (sid j))) (range c (facets_of s)) /\
     env (sid (s_id s)) = negb (env (minus (sid (s_id s)))) /\
     forall sg k, 1 <= k <= facets_of s ->
       env (facet_word sg (s_id s) k) = env' (signed_word sg (c + Z.of_nat k))) /\
  (forall w, (forall s c, In (s, c) (counters l n) -> ~ names (s_id s) w) -> env w = env' w).

(** In [env'] the two sides of a surface are complementary. *)
Definition sides (env' : text -> bool) : Prop :=
  forall j, (0 < j)%Z -> env' (minus (sid j)) = negb (env' (sid j)).

(** A cell as it is after reading. *)
Definition cell_good (c : cell) : Prop :=
  Forall token (c_text c) /\ toks (c_items c) = map word_tok (c_text c) /\ exists r, expr (toks (c_items c)) r.

(** A dot occurs only in facets of the macrobodies. *)
Definition dots_ok (l : list surface) (c : cell) : Prop :=
  forall w, In w (c_text c) -> In "."%char w ->
  exists s sg k, In s l /\ is_macrobody s = true /\ 1 <= k <= facets_of s /\ w = facet_word sg (s_id s) k.

(** Macrobody numbers: positive, not above the last number, distinct, and none ends in
    the digits of another. *)
Definition macros_ok (l : list surface) (n : Z) : Prop :=
  (forall s, In s l -> is_macrobody s = true -> (0 < s_id s <= n)%Z /\ enough s) /\
  NoDup (map s_id (filter is_macrobody l)) /\
  (forall s t u, In s l -> In t l -> is_macrobody s = true -> is_macrobody t = true -> s_id s <> s_id t ->
     sid (s_id t) <> u ++ sid (s_id s)).

(** What is kept of a cell. *)
Definition crel (l : list surface) (n : Z) (c c' : cell) : Prop :=
  c_id c' = c_id c /\ c_mat c' = c_mat c /\ c_dens c' = c_dens c /\ cell_good c' /\
  (forall w, In w (c_text c') -> ~ In "."%char w) /\
  (forall s w, In s l -> is_macrobody s = true -> In w (c_text c') -> ~ names (s_id s) w) /\
  (forall m, (0 <= m <= n)%Z -> (forall w, In w (c_text c) -> ~ names m w) -> forall w, In w (c_text c') -> ~ names m w) /\
  (laid (c_items c) -> laid (c_items c')) /\
  (forall w, In w (c_text c') -> In w (c_text c) \/ word_tok w <> TAtom w \/
     exists s ct j sg, In (s, ct) (counters l n) /\ In j (range ct (facets_of s)) /\ w = signed_word sg j) /\
  (forall r r', expr (toks (c_items c)) r -> expr (toks (c_items c')) r' ->
     forall env env', means l n env' env -> sides env' -> holds env r = holds env' r') /\
  (forall w, In w (c_text c) -> (forall s, In s l -> is_macrobody s = true -> ~ names (s_id s) w) -> In w (c_text c')) /\
  ((forall w s, In w (c_text c) -> In s l -> is_macrobody s = true -> ~ names (s_id s) w) -> c_text c' = c_text c).

Lemma facets_le s : facets_of s <= 9.
Proof. unfold facets_of. destruct (s_type s); lia. Qed.

Lemma names_dec m w : {names m w} + {~ names m w}.
Proof.
  unfold names. destruct (text_eq_dec w (sid m)); [left; auto|]. destruct (text_eq_dec w (minus (sid m))); [left; auto|].
  destruct (List.find (fun c => text_eqb w (facet_word (fst c) m (snd c))) candidates) as [[sg k]|] eqn:F.
  - left. right. right. destruct (facet_of_some m w sg k F) as [E K]. now exists sg, k.
  - right. intros [H|[H|(sg & k & K & H)]]; [congruence|congruence|].
    assert (I : In (sg, k) candidates).
    { unfold candidates. apply in_prod_iff. split; [destruct sg; cbn; auto|apply in_seq; lia]. }
    pose proof (find_none _ _ F _ I) as Q. cbn [fst snd] in Q. rewrite H, text_eqb_refl in Q. discriminate.
Qed.

Lemma names_signed m sg j : (0 <= m)%Z -> (0 <= j)%Z -> m <> j -> ~ names m (signed_word sg j).
Proof.
  intros P Q N [H|[H|(sg' & k & K & H)]].
  - destruct (signed_inj sg j false m) as [_ E]; auto; congruence.
  - destruct (signed_inj sg j true m) as [_ E]; auto; congruence.
  - apply (signed_nodot sg j Q). rewrite H. apply facet_dot.
Qed.

Lemma names_names m n w : (0 <= m)%Z -> (0 <= n)%Z -> names m w -> names n w -> m = n.
Proof.
  intros P Q [->|[->|(sg & k & K & ->)]] H.
  - destruct (Z.eq_dec m n); [assumption|]. exfalso. now apply (names_signed n false m Q P (not_eq_sym n0)).
  - destruct (Z.eq_dec m n); [assumption|]. exfalso. now apply (names_signed n true m Q P (not_eq_sym n0)).
  - destruct H as [H|[H|(sg' & k' & K' & H)]].
    + exfalso. apply (signed_nodot false n Q). unfold signed_word. cbn [sgn app]. rewrite <- H. apply facet_dot.
    + exfalso. apply (signed_nodot true n Q). unfold signed_word. cbn [sgn]. unfold minus in H. rewrite <- H. apply facet_dot.
    + apply facet_word_inj in H as (_ & E & _); auto.
Qed.

Lemma names_delim m w : word_tok w <> TAtom w -> ~ names m w.
Proof.
  intros N [->|[->|(sg & k & K & ->)]].
  - now rewrite word_tok_sid in N.
  - now rewrite word_tok_minus in N.
  - apply N. destruct (word_tok_cases (facet_word sg m k)) as [[E _]|[[E _]|[[E _]|(_ & _ & _ & E)]]];
      try (pose proof (facet_dot sg m k) as D; rewrite E in D; vm_compute in D; intuition discriminate).
    rewrite E. destruct (text_eqb_spec (facet_word sg m k) (T ")")) as [F|]; [|reflexivity].
    pose proof (facet_dot sg m k) as D; rewrite F in D; vm_compute in D; intuition discriminate.
Qed.

Lemma sub_facet m sg p k : (0 <= m)%Z -> (0 <= p)%Z -> sub_in (sid m ++ T ".") (facet_word sg p k) = true ->
  exists u, sid p = u ++ sid m.
Proof.
  intros P Q S. apply sub_in_app in S as (l & r & E). unfold facet_word in E. rewrite <- app_assoc in E.
  cbn [T list_ascii_of_string app] in E. rewrite !app_assoc in E.
  assert (NR : ~ In "."%char r).
  { intros I. apply in_split in I as (r1 & r2 & ->).
    assert (E' : (sgn sg ++ sid p) ++ "."%char :: str_Z (Z.of_nat k) = ((l ++ sid m) ++ "."%char :: r1) ++ "."%char :: r2)
      by (rewrite E; rewrite <- !app_assoc; reflexivity).
    assert (H : ~ In "."%char r2 \/ In "."%char r2) by (destruct (in_dec Ascii.ascii_dec "."%char r2); auto).
    assert (C : count_occ Ascii.ascii_dec ((sgn sg ++ sid p) ++ "."%char :: str_Z (Z.of_nat k)) "."%char = 1).
    { rewrite !count_occ_app. cbn [count_occ].
      destruct (Ascii.ascii_dec "." ".") as [_|]; [|congruence].
      rewrite !(proj1 (count_occ_not_In Ascii.ascii_dec _ _)); [reflexivity|now apply str_nat_no|now apply sid_no|apply sgn_no; discriminate]. }
    rewrite E' in C. rewrite !count_occ_app in C. cbn [count_occ] in C.
    destruct (Ascii.ascii_dec "." ".") as [_|]; [|congruence]. lia. }
  apply split_at_char in E as [E _]; [|now apply str_nat_no|assumption].
  destruct sg; cbn [sgn T list_ascii_of_string app] in E; [|now exists l].
  destruct l as [|c l].
  - cbn [app] in E. exfalso. apply (sid_no "-" m P eq_refl). rewrite <- E. now left.
  - injection E as _ E. now exists l.
Qed.

Lemma words_nodot_gsub m ids w v : (forall j, In j ids -> (0 <= j)%Z) -> ids <> [] ->
  In v (gsub m ids w) -> v = w \/ ~ In "."%char v /\ (word_tok v <> TAtom v \/ exists sg j, In j ids /\ v = signed_word sg j) \/
    (exists sg k, facet_of m w = Some (sg, k) /\ v = signed_word sg (nth (k - 1) ids 0%Z)).
Proof.
  intros P NE. unfold gsub.
  destruct (text_eqb w (sid m)).
  { intros I. right. left. unfold out_words in I. destruct ids as [|i r]; [congruence|].
    cbn [app In] in I. destruct I as [<-|[<-|I]].
    - split; [vm_compute; intuition discriminate|left; discriminate].
    - split; [apply (signed_nodot false i); apply P; now left|right; exists false, i; split; [now left|reflexivity]].
    - apply in_app_iff in I as [I|[<-|[]]]; [|split; [vm_compute; intuition discriminate|left; discriminate]].
      apply in_flat_map in I as (j & J & [<-|[<-|[]]]); [split; [vm_compute; intuition discriminate|left; discriminate]|].
      split; [apply (signed_nodot false j); apply P; now right|right; exists false, j; split; [now right|reflexivity]]. }
  destruct (text_eqb w (minus (sid m))).
  { intros I. right. left. unfold in_words in I. destruct I as [<-|I]; [split; [vm_compute; intuition discriminate|left; discriminate]|].
    apply in_app_iff in I as [I|[<-|[]]]; [|split; [vm_compute; intuition discriminate|left; discriminate]].
    apply in_map_iff in I as (j & <- & J).
    split; [apply (signed_nodot true j); apply P; assumption|right; exists true, j; split; [assumption|reflexivity]]. }
  destruct (facet_of m w) as [[sg k]|]; intros [<-|[]]; [|now left].
  right. right. now exists sg, k.
Qed.

Lemma signed_token sg j : token (signed_word sg j).
Proof.
  left. destruct (signed_plain sg j) as [N P]. split; [assumption|]. rewrite forallb_forall in *. intros c I. specialize (P c I).
  unfold plain_char, is_delim in P. unfold tok_char. destruct (is_space c), (Ascii.eqb c "("), (Ascii.eqb c ")"), (Ascii.eqb c ":"),
    (Ascii.eqb c "#"), (Ascii.eqb c "+"), (Ascii.eqb c "$"); cbn in *; congruence.
Qed.

Lemma gsub_tokens m ids w : token w -> ids <> [] -> Forall token (gsub m ids w).
Proof.
  intros TW NE. unfold gsub.
  assert (TP : token (T "(")) by (right; left; reflexivity).
  assert (TQ : token (T ")")) by (right; right; left; reflexivity).
  assert (TR : token (T ":")) by (right; right; right; reflexivity).
  destruct (text_eqb w (sid m)).
  { unfold out_words. destruct ids as [|i r]; [congruence|]. constructor; [assumption|].
    cbn [app]. constructor; [apply (signed_token false)|]. apply Forall_app. split; [|now constructor].
    apply Forall_flat_map, Forall_forall. intros j _. constructor; [assumption|constructor; [apply (signed_token false)|constructor]]. }
  destruct (text_eqb w (minus (sid m))).
  { unfold in_words. constructor; [assumption|]. apply Forall_app. split; [|now constructor].
    apply Forall_forall. intros v I. apply in_map_iff in I as (j & <- & _). apply (signed_token true). }
  destruct (facet_of m w) as [[sg k]|]; (constructor; [|constructor]); [apply signed_token|assumption].
Qed.

Lemma gsub_names m ids w v : (0 <= m)%Z -> (forall j, In j ids -> (0 <= j)%Z /\ m <> j) -> ids <> [] ->
  (forall sg k, facet_of m w = Some (sg, k) -> k <= length ids) ->
  In v (gsub m ids w) -> ~ names m v.
Proof.
  intros P Q NE FK I.
  destruct (words_nodot_gsub m ids w v) as [->|[[_ [A|(sg & j & J & ->)]]|(sg & k & F & ->)]];
    [intros j J; now apply Q|assumption|assumption| | | | ].
  - intros N. unfold gsub in I.
    destruct N as [N|[N|(sg & k & K & N)]].
    + rewrite N, text_eqb_refl in I. unfold out_words in I. destruct ids as [|i r]; [congruence|].
      cbn [app In] in I. destruct (Q i) as [Q1 Q2]; [now left|]. destruct I as [I|[I|I]].
      * pose proof (word_tok_sid m) as W. rewrite <- I in W. discriminate.
      * apply str_Z_inj in I. congruence.
      * apply in_app_iff in I as [I|[I|[]]]; [|pose proof (word_tok_sid m) as W; rewrite <- I in W; discriminate].
        apply in_flat_map in I as (j & J & [I|[I|[]]]); [pose proof (word_tok_sid m) as W; rewrite <- I in W; discriminate|].
        apply str_Z_inj in I. destruct (Q j) as [_ Q3]; [now right|congruence].
    + destruct (text_eqb_spec w (sid m)) as [E|_].
      { rewrite N in E. exfalso. apply (sid_no "-" m P eq_refl). rewrite <- E. now left. }
      rewrite N, text_eqb_refl in I. unfold in_words in I. destruct I as [I|I]; [discriminate|].
      apply in_app_iff in I as [I|[I|[]]]; [|discriminate]. apply in_map_iff in I as (j & I & J).
      destruct (Q j J) as [Q1 Q2]. apply (signed_inj true j true m) in I as [_ I]; auto.
    + destruct (text_eqb_spec w (sid m)) as [E|_].
      { exfalso. apply (sid_no "." m P eq_refl). rewrite <- E, N. apply facet_dot. }
      destruct (text_eqb_spec w (minus (sid m))) as [E|_].
      { exfalso. apply (signed_nodot true m P). unfold signed_word. cbn [sgn]. unfold minus in E. rewrite <- E, N. apply facet_dot. }
      rewrite N, facet_of_word in I by assumption. destruct I as [I|[]].
      specialize (FK sg k). rewrite N, facet_of_word in FK by assumption. specialize (FK eq_refl).
      apply (signed_nodot sg (nth (k - 1) ids 0%Z)); [|rewrite I; apply facet_dot].
      apply Q. apply nth_In. lia.
  - now apply names_delim.
  - apply names_signed; [assumption| |]; now apply Q.
  - pose proof (facet_of_some _ _ _ _ F) as [_ K]. specialize (FK _ _ F).
    assert (J : In (nth (k - 1) ids 0%Z) ids) by (apply nth_In; lia).
    apply names_signed; [assumption| |]; now apply Q.
Qed.

Lemma counters_ids l n s c : In (s, c) (counters l n) -> In s l /\ is_macrobody s = true /\ (n <= c)%Z.
Proof.
  revert n. induction l as [|t l IH]; intros n I; [destruct I|]. cbn [counters] in I.
  destruct (is_macrobody t) eqn:M.
  - destruct I as [I|I]; [injection I as -> ->; split; [now left|split; [assumption|lia]]|].
    destruct (IH _ I) as (A & B & C). split; [now right|split; [assumption|lia]].
  - destruct (IH _ I) as (A & B & C). split; [now right|auto].
Qed.

Lemma gsub_other m ids w : ~ names m w -> gsub m ids w = [w].
Proof.
  intro N. unfold gsub. destruct (text_eqb_spec w (sid m)) as [E|_]; [elim N; now left|].
  destruct (text_eqb_spec w (minus (sid m))) as [E|_]; [elim N; right; now left|].
  destruct (facet_of m w) as [[sg k]|] eqn:F; [|reflexivity]. apply facet_of_some in F as [E K]. elim N. right. right. eauto.
Qed.

(** One macrobody, one cell. *)
Lemma step_cell s l n c x :
  is_macrobody s = true -> macros_ok (s :: l) n -> (0 <= n)%Z ->
  explode_macrobody n s = Some x -> good_x n (facets_of s) x ->
  cell_good c -> dots_ok (s :: l) c ->
  exists c1, flatten_cell (sid (s_id s)) x c = Some c1 /\ cell_good c1 /\ dots_ok l c1 /\
    forall c', crel l (n + Z.of_nat (facets_of s)) c1 c' -> crel (s :: l) n c c'.
Proof.
  intros M MO Pn EX GX CG DO. pose proof MO as (MI & ND & SF).
  destruct (MI s (or_introl eq_refl) M) as [Pm EN]. destruct CG as (TK & TI & r & ER).
  assert (NDl : ~ In (s_id s) (map s_id (filter is_macrobody l))).
  { cbn [filter] in ND. rewrite M in ND. cbn [map] in ND. now inversion ND. }
  assert (Other : forall t, In t l -> is_macrobody t = true -> s_id t <> s_id s).
  { intros t It Mt E. apply NDl. rewrite <- E. apply in_map, filter_In. auto. }
  assert (CL : Forall (clean (s_id s) (facets_of s)) (c_text c)).
  { apply Forall_forall. intros w Iw. split; [rewrite Forall_forall in TK; auto|]. intros S.
    assert (D : In "."%char w).
    { apply sub_in_app in S as (a & b & ->). rewrite !in_app_iff. right. left. right. now left. }
    destruct (DO w Iw D) as (t & sg & k & It & Mt & K & ->).
    destruct (Z.eq_dec (s_id t) (s_id s)) as [E|N].
    - destruct It as [->|It]; [now exists sg, k|]. exfalso. now apply (Other t).
    - exfalso. destruct (MI t It Mt) as [Pt _].
      apply sub_facet in S as (u & E); [|lia|lia].
      apply (SF s t u (or_introl eq_refl) It M Mt (not_eq_sym N) E). }
  assert (Pm0 : (0 <= s_id s)%Z) by lia.
  rewrite TI in ER.
  destruct (flatten_cell_ok n (s_id s) (facets_of s) x Pm0 ltac:(lia) (facets_le s) GX c r CL ER)
    as (c1 & its & FC & E1 & E2 & E3 & ET & EI & TO & SP1 & r1 & ER1 & HE).
  assert (NE : ids_of x <> []).
  { pose proof (len_ids n (facets_of s) x GX) as L. destruct GX as (_ & KP & _). intros Q. rewrite Q in L. cbn in L. lia. }
  assert (AB : forall j, In j (ids_of x) -> (n < j)%Z) by (intros j J; exact (ids_above n (facets_of s) x (facets_le s) GX j J)).
  assert (IDS : ids_of x = range n (facets_of s)) by apply GX.
  assert (FK : forall w, In w (c_text c) -> forall sg k, facet_of (s_id s) w = Some (sg, k) -> k <= facets_of s).
  { intros w Iw sg k F. apply facet_of_some in F as [F K9].
    rewrite Forall_forall in CL. destruct (CL w Iw) as [_ C].
    destruct C as (sg' & k' & K & E).
    { apply sub_in_app. exists (sgn sg), (str_Z (Z.of_nat k)). rewrite F. unfold facet_word. now rewrite <- !app_assoc. }
    rewrite F in E. apply facet_word_inj in E as (_ & _ & ->); lia. }
  assert (NOM : forall w, In w (c_text c1) -> ~ names (s_id s) w).
  { intros v Iv. rewrite ET in Iv. apply in_flat_map in Iv as (w & Iw & Iv).
    revert Iv. apply gsub_names; [assumption| |assumption|].
    - intros j J. specialize (AB j J). lia.
    - intros sg k F. rewrite (len_ids n (facets_of s) x GX). eauto. }
  assert (CG1 : cell_good c1).
  { split; [|split].
    - rewrite ET. apply Forall_flat_map. apply (Forall_impl _) with (2 := TK). intros w TW. now apply gsub_tokens.
    - rewrite EI. exact TO.
    - exists r1. rewrite EI, TO. exact ER1. }
  assert (POS : forall j, In j (ids_of x) -> (0 <= j)%Z) by (intros j J; specialize (AB j J); lia).
  assert (ET' : (forall w, In w (c_text c) -> ~ names (s_id s) w) -> c_text c1 = c_text c).
  { rewrite ET. clear. induction (c_text c) as [|w l IH]; intro H; [reflexivity|]. cbn [flat_map]. rewrite gsub_other by (apply H; now left).
    cbn [app]. f_equal. apply IH. intros v Iv. apply H. now right. }
  exists c1. split; [exact FC|]. split; [exact CG1|]. split.
  - (* dots *)
    intros v Iv D. pose proof (NOM v Iv) as NV. rewrite ET in Iv. apply in_flat_map in Iv as (w & Iw & Iv).
    destruct (words_nodot_gsub (s_id s) (ids_of x) w v POS NE Iv) as [->|[[A _]|(sg & k & F & ->)]].
    + destruct (DO w Iw D) as (t & sg & k & [<-|It] & Mt & K & E).
      * exfalso. apply NV. right. right. exists sg, k. split; [pose proof (facets_le s); lia|assumption].
      * now exists t, sg, k.
    + contradiction.
    + exfalso. pose proof (facet_of_some _ _ _ _ F) as [_ K9]. pose proof (FK w Iw sg k F) as K.
      revert D. apply signed_nodot, POS, nth_In. rewrite (len_ids n (facets_of s) x GX). lia.
  - (* composition *)
    intros c' (F1 & F2 & F3 & CG' & ND' & NM' & KN' & SP' & WO' & SEM & KW' & KT').
    split; [congruence|]. split; [congruence|]. split; [congruence|]. split; [assumption|]. split; [assumption|].
    split; [|split; [|split; [|split; [|split; [|split]]]]].
    + intros t v [<-|It] Mt Iv; [|now apply (NM' t v It Mt)].
      apply (KN' (s_id s)); [lia|exact NOM|assumption].
    + intros m Bm Nm v Iv. revert v Iv. apply KN'; [lia|]. intros v Iv. rewrite ET in Iv.
      apply in_flat_map in Iv as (w & Iw & Iv).
      destruct (words_nodot_gsub (s_id s) (ids_of x) w v POS NE Iv) as [->|[[_ [A|(sg & j & J & ->)]]|(sg & k & F & ->)]].
      * auto.
      * now apply names_delim.
      * specialize (AB j J). apply names_signed; lia.
      * pose proof (facet_of_some _ _ _ _ F) as [_ K9]. pose proof (FK w Iw sg k F) as K.
        assert (J : In (nth (k - 1) (ids_of x) 0%Z) (ids_of x)) by (apply nth_In; rewrite (len_ids n (facets_of s) x GX); lia).
        specialize (AB _ J). apply names_signed; lia.
    + intros _. apply SP'. rewrite EI. exact SP1.
    + intros v Iv. cbn [counters]. rewrite M. destruct (WO' v Iv) as [Iv1|[Dv|(t & ct & j & sg & It & Jt & Ev)]];
        [|right; left; assumption|right; right; exists t, ct, j, sg; split; [right; assumption|auto]].
      rewrite ET in Iv1. apply in_flat_map in Iv1 as (w & Iw & Iv1).
      destruct (words_nodot_gsub (s_id s) (ids_of x) w v POS NE Iv1) as [->|[[_ [A|(sg & j & J & ->)]]|(sg & k & F & ->)]].
      * left. assumption.
      * right. left. assumption.
      * right. right. exists s, n, j, sg. split; [left; reflexivity|]. split; [rewrite <- IDS; assumption|reflexivity].
      * pose proof (facet_of_some _ _ _ _ F) as [_ K9]. pose proof (FK w Iw sg k F) as K.
        right. right. exists s, n, (nth (k - 1) (ids_of x) 0%Z), sg. split; [left; reflexivity|]. split; [|reflexivity].
        rewrite <- IDS. apply nth_In. rewrite (len_ids n (facets_of s) x GX). lia.
    + intros q q' Eq Eq' env env' ME SD. rewrite TI in Eq. rewrite (expr_unique _ _ _ Eq ER).
      set (env1 := fun w => if names_dec (s_id s) w then env' w else env w).
      assert (ME1 : means l (n + Z.of_nat (facets_of s)) env' env1).
      { destruct ME as [MA MB]. cbn [counters] in MA, MB. rewrite M in MA, MB. split.
        - intros t ct It. destruct (MA t ct (or_intror It)) as (A1 & A2 & A3).
          destruct (counters_ids _ _ _ _ It) as (It' & Mt & _). pose proof (Other t It' Mt) as NEQ.
          destruct (MI t (or_intror It') Mt) as [Pt _].
          assert (K1 : forall w, names (s_id t) w -> env1 w = env w).
          { intros w Nw. unfold env1. destruct (names_dec (s_id s) w) as [Q|]; [|reflexivity].
            exfalso. apply NEQ. apply (names_names (s_id t) (s_id s) w); auto; lia. }
          rewrite !K1; [|left; reflexivity|right; left; reflexivity].
          split; [assumption|]. split; [assumption|]. intros sg k K. rewrite K1; [auto|].
          right. right. exists sg, k. split; [pose proof (facets_le t); lia|reflexivity].
        - intros w Nw. unfold env1. destruct (names_dec (s_id s) w); [reflexivity|]. apply MB.
          intros t ct [It|It]; [injection It as <- <-; assumption|]. eapply Nw; eauto. }
      rewrite TO, <- EI in ER1 || rewrite <- TO, <- EI in ER1.
      rewrite <- (SEM _ _ ER1 Eq' env1 env' ME1 SD).
      apply HE. intros w Iw TW. destruct ME as [MA MB]. cbn [counters] in MA, MB. rewrite M in MA, MB.
      destruct (MA s n (or_introl eq_refl)) as (A1 & A2 & A3).
      (* the new numbers keep their truth *)
      assert (NEW : forall sg j, In j (ids_of x) -> env1 (signed_word sg j) = env' (signed_word sg j)).
      { intros sg j J. specialize (AB j J). unfold env1. destruct (names_dec (s_id s) (signed_word sg j)); [reflexivity|].
        apply MB. intros t ct It. destruct It as [It|It]; [injection It as <- <-; apply names_signed; lia|].
        destruct (counters_ids _ _ _ _ It) as (It' & Mt & _). destruct (MI t (or_intror It') Mt) as [Pt _].
        apply names_signed; lia. }
      destruct (text_eqb_spec w (sid (s_id s))) as [E|N1].
      { rewrite E, A2, A1, <- IDS. clear -NEW AB SD Pn.
        induction (ids_of x) as [|j ids IH]; [reflexivity|]. cbn [forallb existsb].
        pose proof (NEW false j (or_introl eq_refl)) as Q. change (signed_word false j) with (sid j) in Q. rewrite Q.
        assert (Pj : (0 < j)%Z) by (specialize (AB j (or_introl eq_refl)); lia).
        rewrite (SD j Pj), negb_andb, negb_involutive, IH; [reflexivity| |]; intros; [apply AB|apply NEW]; now right. }
      destruct (text_eqb_spec w (minus (sid (s_id s)))) as [E|N2].
      { rewrite E, A1, <- IDS. clear -NEW. induction (ids_of x) as [|j ids IH]; [reflexivity|]. cbn [forallb].
        pose proof (NEW true j (or_introl eq_refl)) as Q. change (signed_word true j) with (minus (sid j)) in Q. rewrite Q.
        rewrite IH; [reflexivity|]. intros; apply NEW; now right. }
      destruct (facet_of (s_id s) w) as [[sg k]|] eqn:F.
      * pose proof (facet_of_some _ _ _ _ F) as [E K9]. pose proof (FK w Iw sg k F) as K.
        rewrite NEW by (apply nth_In; rewrite (len_ids n (facets_of s) x GX); lia).
        rewrite E, A3 by lia. f_equal. f_equal. rewrite IDS. unfold range.
        rewrite (nth_indep _ 0%Z (n + Z.of_nat 0)%Z) by (rewrite map_length, seq_length; lia).
        rewrite (map_nth (fun i => (n + Z.of_nat i)%Z)). rewrite seq_nth by lia. lia.
      * unfold env1. destruct (names_dec (s_id s) w) as [Q|]; [|reflexivity]. exfalso.
        destruct Q as [Q|[Q|(sg & k & K & Q)]]; [congruence|congruence|].
        rewrite Q, facet_of_word in F by (assumption || lia). discriminate.
    + intros w Iw Nw. apply KW'; [|intros t It; apply Nw; now right]. rewrite ET. apply in_flat_map. exists w. split; [exact Iw|].
      rewrite gsub_other by (apply Nw; [now left|exact M]). now left.
    + intro Nw. rewrite <- ET'; [|intros w Iw; apply (Nw w s Iw (or_introl eq_refl) M)]. apply KT'. intros w t Iw It. apply Nw; [|now right].
      rewrite ET' in Iw; [exact Iw|]. intros v Iv. apply (Nw v s Iv (or_introl eq_refl) M).
Qed.

Lemma macros_tail s l n k : macros_ok (s :: l) n -> (0 <= k)%Z -> macros_ok l (n + k).
Proof.
  intros (A & B & C) K. split; [|split].
  - intros t It Mt. destruct (A t (or_intror It) Mt). split; [lia|assumption].
  - cbn [filter] in B. destruct (is_macrobody s); [cbn [map] in B; now inversion B|assumption].
  - intros t u v It Iu. apply C; now right.
Qed.

Lemma cells_step (P : cell -> Prop) (R : cell -> cell -> Prop) f cells :
  Forall P cells -> (forall c, P c -> exists c1, f c = Some c1 /\ R c c1) ->
  exists cells1, mapM f cells = Some cells1 /\ Forall2 R cells cells1.
Proof.
  intros F H. induction F as [|c l Pc F IH]; [exists []; split; [reflexivity|constructor]|].
  destruct IH as (l1 & E & R1). destruct (H c Pc) as (c1 & E1 & R2). exists (c1 :: l1). cbn [mapM]. rewrite E1, E.
  split; [reflexivity|now constructor].
Qed.

(** All macrobodies, all cells. *)
Lemma loop_ok l : forall d, macros_ok l (d_last d) -> (0 <= d_last d)%Z ->
  Forall (fun c => cell_good c /\ dots_ok l c) (d_cells d) ->
  exists d' news, flatten_loop l d = Some d' /\ Forall2 (crel l (d_last d)) (d_cells d) (d_cells d') /\
    d_surfs d' = d_surfs d ++ news /\ map s_id news = range (d_last d) (length news) /\
    d_last d' = (d_last d + Z.of_nat (length news))%Z /\
    Forall (fun s => is_macrobody s = false) news /\
    news = flat_map (fun sc => match explode_macrobody (snd sc) (fst sc) with Some x => inherit (fst sc) (x_surfs x) | None => [] end)
             (counters l (d_last d)) /\
    (forall s c, In (s, c) (counters l (d_last d)) -> exists x, explode_macrobody c s = Some x /\ incl (inherit s (x_surfs x)) news).
Proof.
  induction l as [|s l IH]; intros d MO P F.
  - exists d, []. cbn [flatten_loop]. split; [reflexivity|]. split; [|split; [now rewrite app_nil_r|split; [reflexivity|split; [cbn; lia|split; [constructor|split; [reflexivity|intros ? ? []]]]]]].
    clear -F. induction F as [|c cs [CG DO] F IH]; constructor; [|assumption].
    unfold crel. split; [reflexivity|]. split; [reflexivity|]. split; [reflexivity|]. split; [assumption|].
    split; [intros w Iw D; destruct (DO w Iw D) as (? & ? & ? & [] & _)|].
    split; [intros ? ? []|]. split; [auto|]. split; [auto|]. split; [auto|].
    split; [intros r r' E E' env env' [_ ME] _; rewrite (expr_unique _ _ _ E E'); apply holds_ext; intros w; apply ME; intros ? ? []|].
    split; auto.
  - cbn [flatten_loop]. unfold flatten_one. destruct (is_macrobody s) eqn:M.
    + pose proof MO as (MI & _). destruct (MI s (or_introl eq_refl) M) as [Pm EN].
      destruct (explode_good (d_last d) s M EN) as (x & EX & GX). rewrite EX.
      set (k := Z.of_nat (facets_of s)).
      destruct (cells_step (fun c => cell_good c /\ dots_ok (s :: l) c)
        (fun c c1 => cell_good c1 /\ dots_ok l c1 /\ forall c', crel l (d_last d + k) c1 c' -> crel (s :: l) (d_last d) c c')
        (flatten_cell (sid (s_id s)) x) (d_cells d) F) as (cells1 & EC & R1).
      { intros c [CG DO]. destruct (step_cell s l (d_last d) c x M MO P EX GX CG DO) as (c1 & A & B & C & D). exists c1. auto. }
      rewrite EC.
      assert (LI : length (inherit s (x_surfs x)) = facets_of s).
      { unfold inherit. rewrite <- (len_surfs _ _ _ GX). destruct (s_tr s); [now rewrite map_length|reflexivity]. }
      set (d1 := mkDeck (d_surfs d ++ inherit s (x_surfs x)) cells1 (d_last d + Z.of_nat (length (inherit s (x_surfs x))))).
      assert (LD : d_last d1 = (d_last d + k)%Z) by (unfold d1; cbn [d_last]; rewrite LI; reflexivity).
      destruct (IH d1) as (d' & news & EL & FC & ES & EI & ELS & FM & EN' & CT).
      { rewrite LD. apply (macros_tail s); [assumption|lia]. }
      { rewrite LD. lia. }
      { unfold d1. cbn [d_cells]. clear -R1. induction R1 as [|c c1 ? ? (A & B & _) R1 IHR]; constructor; auto. }
      exists d', (inherit s (x_surfs x) ++ news). split; [exact EL|].
      split.
      { rewrite LD in FC. unfold d1 in FC. cbn [d_cells] in FC. clear -R1 FC. revert FC. generalize (d_cells d').
        induction R1 as [|c c1 ? ? (_ & _ & A) R1 IHR]; intros cs FC; inversion FC; subst; constructor; auto. }
      split; [rewrite ES; unfold d1; cbn [d_surfs]; now rewrite app_assoc|].
      split.
      { rewrite map_app, EI, app_length, LI. unfold range. rewrite seq_app, map_app. f_equal.
        - assert (Q : map s_id (inherit s (x_surfs x)) = ids_of x).
          { unfold inherit, ids_of. destruct (s_tr s); [rewrite map_map; reflexivity|reflexivity]. }
          rewrite Q. apply GX.
        - cbn [plus]. rewrite LD.
          assert (G : forall m a b, map (fun i => (d_last d + k + Z.of_nat i)%Z) (seq a m) = map (fun i => (d_last d + Z.of_nat i)%Z) (seq b m) \/ b <> facets_of s + a).
          { induction m as [|m IHm]; intros a b; [now left|]. destruct (Nat.eq_dec b (facets_of s + a)) as [->|]; [|now right].
            left. cbn [seq map]. f_equal; [unfold k; lia|]. destruct (IHm (S a) (S (facets_of s + a))) as [Q|Q]; [exact Q|lia]. }
          destruct (G (length news) 1 (S (facets_of s))) as [Q|Q]; [exact Q|lia]. }
      split; [rewrite ELS, LD, app_length, LI; unfold k; lia|].
      split.
      { apply Forall_app. split; [|assumption]. destruct GX as (_ & _ & _ & _ & _ & _ & GM).
        unfold inherit. destruct (s_tr s).
        - apply Forall_forall. intros y Iy. apply in_map_iff in Iy as (z & <- & Iz). rewrite Forall_forall in GM. apply (GM z Iz).
        - apply (Forall_impl _) with (2 := GM). tauto. }
      split.
      { cbn [counters]. rewrite M. cbn [flat_map fst snd]. rewrite EX. f_equal. rewrite EN', LD. reflexivity. }
      intros t ct It. cbn [counters] in It. rewrite M in It. destruct It as [It|It].
      * injection It as <- <-. exists x. split; [assumption|]. apply incl_appl, incl_refl.
      * rewrite LD in CT. destruct (CT t ct It) as (y & Ey & Iy). exists y. split; [assumption|]. now apply incl_appr.
    + destruct (IH d) as (d' & news & EL & FC & ES & EI & ELS & FM & EN' & CT); [|assumption| |].
      { replace (d_last d) with (d_last d + 0)%Z by lia. apply (macros_tail s); [assumption|lia]. }
      { apply (Forall_impl _) with (2 := F). intros c [CG DO]. split; [assumption|]. intros w Iw D.
        destruct (DO w Iw D) as (t & sg & k & [<-|It] & Mt & K & E); [congruence|]. now exists t, sg, k. }
      exists d', news. split; [exact EL|]. split.
      { clear -FC M; induction FC as [|c c' ? ? R FC IHF]; constructor; [|assumption].
        destruct R as (F1 & F2 & F3 & CG' & ND' & NM' & KN' & SP' & WO' & SEM & KW' & KT'). unfold crel.
        split; [assumption|]. split; [assumption|]. split; [assumption|]. split; [assumption|]. split; [assumption|].
        split; [intros t w [<-|It] Mt; [congruence|now apply NM']|]. split; [assumption|]. split; [assumption|].
        split; [cbn [counters]; rewrite M; assumption|].
        split; [intros r r' E E' env env' ME SD; apply SEM; auto; unfold means in *; cbn [counters] in ME; rewrite M in ME; exact ME|].
        split; [intros w Iw Nw; apply KW'; [exact Iw|]; intros t It; apply Nw; now right|].
        intro Nw. apply KT'. intros w t Iw It. apply Nw; [exact Iw|now right]. }
      split; [assumption|]. split; [assumption|]. split; [assumption|]. split; [assumption|].
      split; [cbn [counters]; rewrite M; assumption|].
      intros t ct It. apply CT. cbn [counters] in It. now rewrite M in It.
Qed.
