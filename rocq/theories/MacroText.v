(** The texts that stand for the inside and outside of a macrobody. *)
From Coq Require Import Reals.
From Verif Require Import PyStr PyStrFacts FortranNumberProofs PyInt PyIntFacts RegionSpec RegionFacts SurfModel MacroModel
  CellModel CellProofs CellText.
Open Scope nat_scope.
Open Scope list_scope.

Definition minus (w : text) : text := T "-" ++ w.

(** The words of the inside and outside expression over the numbers [ids]. *)
Definition in_words (ids : list Z) : list text := T "(" :: map (fun i => minus (sid i)) ids ++ [T ")"].
Definition out_words (ids : list Z) : list text :=
  T "(" :: match ids with [] => [] | i :: r => sid i :: flat_map (fun j => [T ":"; sid j]) r end ++ [T ")"].

Definition in_region (i : Z) (r : list Z) : region :=
  fold_left (fun a j => RAnd a (RAtom (minus (sid j)))) r (RAtom (minus (sid i))).
Definition out_region (i : Z) (r : list Z) : region :=
  fold_left (fun a j => ROr a (RAtom (sid j))) r (RAtom (sid i)).

Lemma holds_in_region env i r : holds env (in_region i r) = forallb (fun j => env (minus (sid j))) (i :: r).
Proof.
  unfold in_region. cbn [forallb].
  assert (G : forall l a, holds env (fold_left (fun a j => RAnd a (RAtom (minus (sid j)))) l a) =
     holds env a && forallb (fun j => env (minus (sid j))) l).
  { induction l as [|j l IH]; intros a; cbn [fold_left forallb]; [now rewrite andb_true_r|].
    rewrite IH. cbn [holds]. now rewrite andb_assoc. }
  apply G.
Qed.

Lemma holds_out_region env i r : holds env (out_region i r) = existsb (fun j => env (sid j)) (i :: r).
Proof.
  unfold out_region. cbn [existsb].
  assert (G : forall l a, holds env (fold_left (fun a j => ROr a (RAtom (sid j))) l a) =
     holds env a || existsb (fun j => env (sid j)) l).
  { induction l as [|j l IH]; intros a; cbn [fold_left existsb]; [now rewrite orb_false_r|].
    rewrite IH. cbn [holds]. now rewrite orb_assoc. }
  apply G.
Qed.

Lemma word_tok_minus w : word_tok (minus w) = TAtom (minus w).
Proof. unfold word_tok, str_tok. reflexivity. Qed.

Lemma digit_word d : d <> [] -> all_digits d -> word_tok d = TAtom d.
Proof.
  intros N D. destruct (word_tok_cases d) as [[E _]|[[E _]|[[E _]|(_ & _ & _ & E)]]];
    try (subst d; vm_compute in D; discriminate).
  rewrite E. destruct (text_eqb_spec d (T ")")) as [F|]; [subst d; vm_compute in D; discriminate|reflexivity].
Qed.

Lemma word_tok_sid z : word_tok (sid z) = TAtom (sid z).
Proof.
  unfold sid. destruct (str_Z_shape z) as (d & N & D & [E|E]); rewrite E; [now apply digit_word|].
  apply (word_tok_minus d).
Qed.

Lemma in_words_factor i r : factor (map word_tok (in_words (i :: r))) (in_region i r).
Proof.
  unfold in_words. cbn [map]. rewrite map_app. cbn [map].
  change (word_tok (T "(")) with TOpen. change (word_tok (T ")")) with TClose.
  apply factor_paren, expr_term. unfold in_region. cbn [map]. rewrite word_tok_minus.
  assert (G : forall l ts a, term ts a -> term (ts ++ map word_tok (map (fun j => minus (sid j)) l))
     (fold_left (fun a j => RAnd a (RAtom (minus (sid j)))) l a)).
  { induction l as [|j l IH]; intros ts a H; cbn [map fold_left]; [now rewrite app_nil_r|].
    rewrite word_tok_minus. change (TAtom (minus (sid j)) :: map word_tok (map (fun j => minus (sid j)) l))
      with ([TAtom (minus (sid j))] ++ map word_tok (map (fun j => minus (sid j)) l)).
    rewrite app_assoc. apply IH. apply term_and; [assumption|constructor]. }
  apply (G r [TAtom (minus (sid i))]). repeat constructor.
Qed.

Lemma out_words_factor i r : factor (map word_tok (out_words (i :: r))) (out_region i r).
Proof.
  unfold out_words. cbn [map app]. rewrite map_app. cbn [map].
  change (word_tok (T "(")) with TOpen. change (word_tok (T ")")) with TClose.
  rewrite word_tok_sid. change (TAtom (sid i) :: ?x ++ [TClose]) with ((TAtom (sid i) :: x) ++ [TClose]).
  apply factor_paren. unfold out_region.
  assert (G : forall l ts a, expr ts a -> expr (ts ++ map word_tok (flat_map (fun j => [T ":"; sid j]) l))
     (fold_left (fun a j => ROr a (RAtom (sid j))) l a)).
  { induction l as [|j l IH]; intros ts a H; cbn [map flat_map fold_left app]; [now rewrite app_nil_r|].
    rewrite word_tok_sid. change (word_tok (T ":")) with TUnion.
    change (TUnion :: TAtom (sid j) :: ?x) with ([TUnion; TAtom (sid j)] ++ x).
    rewrite app_assoc. apply IH. apply expr_or; [assumption|repeat constructor]. }
  apply (G r [TAtom (sid i)]). repeat constructor.
Qed.

(** ** The texts *)

Lemma digit_plain c : is_digit c = true -> plain_char c = true.
Proof.
  intros H. unfold plain_char, is_delim.
  assert (S : is_space c = false) by (destruct (is_space c) eqn:S; [apply space_not_digit in S; congruence|reflexivity]).
  rewrite S.
  destruct (Ascii.eqb_spec c "("); [subst; discriminate|]. destruct (Ascii.eqb_spec c ")"); [subst; discriminate|].
  destruct (Ascii.eqb_spec c ":"); [subst; discriminate|]. destruct (Ascii.eqb_spec c "#"); [subst; discriminate|].
  destruct (Ascii.eqb_spec c "+"); [subst; discriminate|]. destruct (Ascii.eqb_spec c "$"); [subst; discriminate|].
  reflexivity.
Qed.

Lemma sid_plain z : plain (sid z).
Proof.
  unfold sid, plain. destruct (str_Z_shape z) as (d & N & D & E).
  assert (P : forallb plain_char d = true).
  { unfold all_digits in D. rewrite forallb_forall in *. intros. apply digit_plain; auto. }
  destruct E as [-> | ->]; split; try assumption; try discriminate; cbn [forallb]; rewrite ?P; reflexivity.
Qed.

Lemma minus_plain w : plain w -> plain (minus w).
Proof. intros [N P]. split; [discriminate|]. unfold minus. cbn [T list_ascii_of_string app forallb]. now rewrite P. Qed.

Lemma sp_sid z : spacify (sid z) = sid z.
Proof. apply plain_spacify, sid_plain. Qed.

Lemma words_plain1 w c s : plain w -> is_space c = true -> words (w ++ c :: s) = w :: words s.
Proof. intros [N P] S. apply words_word_space; [assumption|now apply plain_nonspace|assumption]. Qed.

Lemma words_minus1 z c s : is_space c = true -> words ("-"%char :: sid z ++ c :: s) = minus (sid z) :: words s.
Proof. intros S. apply (words_plain1 (minus (sid z))); [apply minus_plain, sid_plain|assumption]. Qed.

Ltac split_words :=
  rewrite !spacify_app, !sp_sid;
  repeat match goal with |- context [spacify (T ?s)] =>
    let v := eval vm_compute in (spacify (T s)) in change (spacify (T s)) with v end;
  cbn [app];
  repeat first [ rewrite words_cons_space by reflexivity
               | rewrite words_minus1 by reflexivity
               | rewrite words_plain1 by (apply sid_plain || reflexivity)
               | rewrite words_single_char by reflexivity
               | match goal with |- context [words [?c; " "%char]] => change (words [c; " "%char]) with [[c]] end ].

Definition ids_of (x : exploded) : list Z := map s_id (x_surfs x).

(** What every exploded macrobody looks like. *)
Definition good_x (n : Z) (k : nat) (x : exploded) : Prop :=
  ids_of x = map (fun i => (n + Z.of_nat i)%Z) (seq 1 k) /\ 0 < k /\
  words (spacify (x_in x)) = in_words (ids_of x) /\ words (spacify (x_out x)) = out_words (ids_of x) /\
  ~ In "$"%char (x_in x) /\ ~ In "$"%char (x_out x) /\ Forall (fun s => is_macrobody s = false /\ s_tr s = None) (x_surfs x).

Lemma in_app_no (c : ascii) a b : ~ In c a -> ~ In c b -> ~ In c (a ++ b).
Proof. intros. rewrite in_app_iff. tauto. Qed.

Lemma sid_nodollar z : ~ In "$"%char (sid z).
Proof. apply plain_nodollar, sid_plain. Qed.

Ltac no_dollar := repeat apply in_app_no; try apply sid_nodollar; vm_compute; intuition discriminate.

Lemma good_rpp n c0 c1 c2 c3 c4 c5 : good_x n 6 (explode_rpp n c0 c1 c2 c3 c4 c5).
Proof.
  unfold good_x, explode_rpp, ids_of. cbn [x_in x_out x_surfs map s_id].
  split; [reflexivity|]. split; [lia|]. split; [split_words; reflexivity|]. split; [split_words; reflexivity|].
  split; [no_dollar|]. split; [no_dollar|]. repeat constructor.
Qed.

Lemma good_box n o0 o1 o2 u0 u1 u2 v0 v1 v2 w0 w1 w2 : good_x n 6 (explode_box n o0 o1 o2 u0 u1 u2 v0 v1 v2 w0 w1 w2).
Proof.
  unfold good_x, explode_box, ids_of. cbn [x_in x_out x_surfs map s_id app].
  split.
  { cbn [seq map]. repeat (apply f_equal2; [cbn; lia|]). reflexivity. }
  split; [lia|].
  assert (E : forall k, (n + k + 1 = n + (k + 1))%Z) by (intros; lia).
  split; [split_words; rewrite ?E; reflexivity|]. split; [split_words; rewrite ?E; reflexivity|].
  split; [no_dollar|]. split; [no_dollar|]. repeat constructor.
Qed.

Lemma good_rcc n c0 c1 c2 v0 v1 v2 c6 : good_x n 3 (explode_rcc n c0 c1 c2 v0 v1 v2 c6).
Proof.
  unfold good_x, explode_rcc, ids_of. cbn [x_in x_out x_surfs map s_id app].
  split; [reflexivity|]. split; [lia|].
  split; [split_words; reflexivity|]. split; [split_words; reflexivity|].
  split; [no_dollar|]. split; [no_dollar|]. repeat constructor.
Qed.

(** How many surfaces a macrobody has. *)
Definition facets_of (s : surface) : nat := match s_type s with MACRO_RCC => 3 | _ => 6 end.

(** The number of coefficients a macrobody needs. *)
Definition enough (s : surface) : Prop :=
  match s_type s with
  | MACRO_RPP => 6 <= length (s_coef s) | MACRO_RCC => 7 <= length (s_coef s) | MACRO_BOX => 12 <= length (s_coef s)
  | _ => True end.

Lemma explode_good n s : is_macrobody s = true -> enough s ->
  exists x, explode_macrobody n s = Some x /\ good_x n (facets_of s) x.
Proof.
  unfold is_macrobody, enough, explode_macrobody, facets_of.
  destruct (s_type s); intros M; try discriminate M; clear M; generalize (s_coef s); intros l L.
  - do 6 (destruct l as [|? l]; [cbn in L; lia|]). eexists. split; [reflexivity|]. apply good_rpp.
  - do 12 (destruct l as [|? l]; [cbn in L; lia|]). eexists. split; [reflexivity|]. apply good_box.
  - do 7 (destruct l as [|? l]; [cbn in L; lia|]). eexists. split; [reflexivity|]. apply good_rcc.
Qed.
