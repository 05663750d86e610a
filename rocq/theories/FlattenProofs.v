(** Lemmas about replacing macrobodies in cells. *)
From Coq Require Import Reals.
From Verif Require Import PyStr PyStrFacts FortranNumberProofs PyInt PyIntFacts RegionSpec RegionFacts
  SurfModel MacroModel CellModel CellProofs CellText MacroText FlattenModel.
Open Scope nat_scope.
Open Scope list_scope.

(** ** Words of a description *)

Definition tok_char (c : ascii) : bool :=
  negb (is_space c || Ascii.eqb c "(" || Ascii.eqb c ")" || Ascii.eqb c ":" || Ascii.eqb c "+" || Ascii.eqb c "$").

(** A word as it stands in a description: a delimiter or a run of other characters. *)
Definition token (w : text) : Prop :=
  (w <> [] /\ forallb tok_char w = true) \/ w = T "(" \/ w = T ")" \/ w = T ":".

Lemma tok_char_sp1 c : tok_char c = true -> sp1 c = [c] /\ is_space c = false.
Proof.
  unfold tok_char, sp1. destruct (is_space c); [discriminate|]. cbn [orb].
  destruct (Ascii.eqb c "("); [discriminate|]. destruct (Ascii.eqb c ")"); [discriminate|].
  destruct (Ascii.eqb c ":"); [discriminate|]. destruct (Ascii.eqb c "+"); [discriminate|]. auto.
Qed.

Lemma tok_spacify w : forallb tok_char w = true -> spacify w = w /\ nonspace w.
Proof.
  rewrite spacify_flat. unfold nonspace. induction w as [|c w IH]; [auto|]. cbn [forallb flat_map].
  intro H. apply andb_prop in H as [H1 H2]. destruct (IH H2) as [-> ->]. destruct (tok_char_sp1 c H1) as [-> ->]. auto.
Qed.

Lemma token_words w : token w -> words (spacify w) = [w].
Proof.
  intros [[N H]|[->|[->| ->]]]; try reflexivity.
  destruct (tok_spacify w H) as [-> S]. now apply words_single.
Qed.

Lemma token_nodollar w : token w -> ~ In "$"%char w.
Proof.
  intros [[N H]|[->|[->| ->]]]; try (vm_compute; intuition discriminate).
  rewrite forallb_forall in H. intros I. specialize (H _ I). discriminate.
Qed.

Definition starts_ok (s : text) : Prop :=
  match s with [] => True | c :: _ => is_space c = true \/
    match words s with w :: _ => w <> [] /\ forallb tok_char w = true | [] => False end end.

Lemma words_cons_nonspace c s : is_space c = false ->
  words (c :: s) = match s with
    | [] => [[c]]
    | d :: _ => if is_space d then [c] :: words s else match words s with w :: ws => (c :: w) :: ws | [] => [[c]] end
    end.
Proof. intros H. destruct s as [|d s]; cbn [words]; rewrite H; [reflexivity|]. destruct (is_space d); reflexivity. Qed.

Lemma words_tokens t : ~ In "$"%char t -> Forall token (words (spacify t)) /\ starts_ok (spacify t).
Proof.
  rewrite spacify_flat. induction t as [|c t IH]; intros ND; [split; constructor|].
  destruct IH as [F S]; [intro; apply ND; now right|]. cbn [flat_map].
  revert F S. generalize (flat_map sp1 t). intros X F S. unfold sp1.
  assert (B : forall d Y, is_space d = false -> words (" "%char :: d :: " "%char :: Y) = [d] :: words Y).
  { intros d Y Hd. rewrite words_cons_space by reflexivity. now apply words_single_char. }
  destruct (Ascii.eqb_spec c "("); [cbn [app T list_ascii_of_string]; rewrite B by reflexivity;
     split; [constructor; [right; left; reflexivity|assumption]|left; reflexivity]|].
  destruct (Ascii.eqb_spec c ")"); [cbn [app T list_ascii_of_string]; rewrite B by reflexivity;
     split; [constructor; [right; right; left; reflexivity|assumption]|left; reflexivity]|].
  destruct (Ascii.eqb_spec c ":"); [cbn [app T list_ascii_of_string]; rewrite B by reflexivity;
     split; [constructor; [right; right; right; reflexivity|assumption]|left; reflexivity]|].
  destruct (Ascii.eqb_spec c "+"); [cbn [app]; auto|].
  cbn [app]. destruct (is_space c) eqn:Sc.
  { rewrite words_cons_space by assumption. split; [assumption|now left]. }
  assert (TC : tok_char c = true).
  { unfold tok_char. rewrite Sc. destruct (Ascii.eqb_spec c "("); [congruence|]. destruct (Ascii.eqb_spec c ")"); [congruence|].
    destruct (Ascii.eqb_spec c ":"); [congruence|]. destruct (Ascii.eqb_spec c "+"); [congruence|].
    destruct (Ascii.eqb_spec c "$"); [subst; exfalso; apply ND; now left|reflexivity]. }
  assert (T1 : [c] <> [] /\ forallb tok_char [c] = true) by (split; [discriminate|cbn; now rewrite TC]).
  unfold starts_ok. rewrite words_cons_nonspace by assumption.
  destruct X as [|d X].
  { split; [constructor; [left; assumption|constructor]|right; exact T1]. }
  destruct (is_space d) eqn:Sd.
  { split; [constructor; [left; assumption|assumption]|right; exact T1]. }
  cbn [starts_ok] in S. destruct S as [S|S]; [congruence|].
  destruct (words (d :: X)) as [|w ws]; [contradiction|]. destruct S as [N P]. inversion F; subst.
  assert (T2 : c :: w <> [] /\ forallb tok_char (c :: w) = true) by (split; [discriminate|cbn; now rewrite TC]).
  split; [constructor; [left; assumption|assumption]|right; exact T2].
Qed.

Lemma words_join l : words (spacify (join_sp l)) = flat_map (fun w => words (spacify w)) l.
Proof.
  induction l as [|w [|v l] IH]; [reflexivity|cbn; now rewrite app_nil_r|].
  change (join_sp (w :: v :: l)) with (w ++ blank :: join_sp (v :: l)).
  change (w ++ blank :: join_sp (v :: l)) with (w ++ T " " ++ join_sp (v :: l)).
  rewrite !spacify_app. change (spacify (T " ")) with (T " "). cbn [T list_ascii_of_string app].
  rewrite words_app_space by reflexivity. rewrite IH. reflexivity.
Qed.

Lemma join_nodollar l : Forall (fun w => ~ In "$"%char w) l -> ~ In "$"%char (join_sp l).
Proof.
  induction l as [|w [|v l] IH]; intros F; inversion F; subst; [vm_compute; tauto|assumption|].
  change (join_sp (w :: v :: l)) with (w ++ blank :: join_sp (v :: l)). apply in_nodollar_join; auto.
Qed.

(** ** Substrings *)

Lemma starts_with_app a b : starts_with a b = true <-> exists r, b = a ++ r.
Proof.
  revert b. induction a as [|x a IH]; intros b; cbn [starts_with].
  - split; [exists b; reflexivity|reflexivity].
  - destruct b as [|y b]; [split; [discriminate|intros (r & E); discriminate]|].
    rewrite andb_true_iff, IH. split.
    + intros [E (r & ->)]. apply Ascii.eqb_eq in E. subst. now exists r.
    + intros (r & E). injection E as -> ->. split; [apply Ascii.eqb_refl|now exists r].
Qed.

Lemma sub_in_app a b : sub_in a b = true <-> exists l r, b = l ++ a ++ r.
Proof.
  induction b as [|y b IH]; cbn [sub_in].
  - rewrite orb_false_r, starts_with_app. split.
    + intros (r & E). exists [], r. exact E.
    + intros (l & r & E). destruct l; [now exists r|discriminate].
  - rewrite orb_true_iff, starts_with_app, IH. split.
    + intros [(r & E)|(l & r & E)]; [exists [], r; exact E|exists (y :: l), r; cbn [app]; now f_equal].
    + intros (l & r & E). destruct l as [|z l]; [left; now exists r|right]. injection E as -> E. now exists l, r.
Qed.

Lemma split_at_char (c : ascii) a b a' b' :
  ~ In c b -> ~ In c b' -> a ++ c :: b = a' ++ c :: b' -> a = a' /\ b = b'.
Proof.
  revert a'. induction a as [|x a IH]; intros [|y a'] N N' E; cbn [app] in E.
  - injection E as ->. auto.
  - injection E as <- ->. exfalso. apply N, in_app_iff. right. now left.
  - injection E as -> <-. exfalso. apply N', in_app_iff. right. now left.
  - injection E as -> E. destruct (IH a' N N' E) as [-> ->]. auto.
Qed.

(** ** Facet words *)

Definition sgn (sg : bool) : text := if sg then T "-" else [].
Definition facet_word (sg : bool) (m : Z) (k : nat) : text := sgn sg ++ sid m ++ T "." ++ str_Z (Z.of_nat k).
Definition signed_word (sg : bool) (j : Z) : text := sgn sg ++ sid j.

Lemma sid_digits m : (0 <= m)%Z -> sid m <> [] /\ all_digits (sid m).
Proof.
  intros P. unfold sid, str_Z. destruct (Z.ltb_spec m 0); [lia|]. destruct (str_N_ok (Z.to_N m)) as (A & B & _). auto.
Qed.

Lemma digits_no (c : ascii) d : is_digit c = false -> all_digits d -> ~ In c d.
Proof. unfold all_digits. rewrite forallb_forall. intros H D I. specialize (D _ I). congruence. Qed.

Lemma sid_no c m : (0 <= m)%Z -> is_digit c = false -> ~ In c (sid m).
Proof. intros P H. apply digits_no; [assumption|now apply sid_digits]. Qed.

Lemma str_nat_no c k : is_digit c = false -> ~ In c (str_Z (Z.of_nat k)).
Proof. intros H. apply (sid_no c (Z.of_nat k)); [lia|assumption]. Qed.

Lemma sgn_no c sg : c <> "-"%char -> ~ In c (sgn sg).
Proof. intros H. destruct sg; cbn; intuition. Qed.

Lemma facet_word_inj sg m k sg' m' k' : (0 <= m)%Z -> (0 <= m')%Z ->
  facet_word sg m k = facet_word sg' m' k' -> sg = sg' /\ m = m' /\ k = k'.
Proof.
  intros P P' E. unfold facet_word in E. cbn [T list_ascii_of_string app] in E. rewrite !app_assoc in E.
  apply split_at_char in E as [E1 E2]; try (apply str_nat_no; reflexivity).
  apply str_Z_inj in E2. apply Nat2Z.inj in E2.
  assert (D : forall z, (0 <= z)%Z -> forall r, sid z <> "-"%char :: r).
  { intros z Z r Q. apply (sid_no "-" z Z eq_refl). rewrite Q. now left. }
  destruct sg, sg'; cbn [sgn T list_ascii_of_string app] in E1.
  - injection E1 as E1. apply str_Z_inj in E1. auto.
  - exfalso. symmetry in E1. revert E1. now apply D.
  - exfalso. revert E1. now apply D.
  - apply str_Z_inj in E1. auto.
Qed.

Lemma facet_dot sg m k : In "."%char (facet_word sg m k).
Proof. unfold facet_word. rewrite !in_app_iff. right. right. left. now left. Qed.

Lemma signed_nodot sg m : (0 <= m)%Z -> ~ In "."%char (signed_word sg m).
Proof. intros P. unfold signed_word. apply in_app_no; [apply sgn_no; discriminate|now apply sid_no]. Qed.

Lemma signed_plain sg m : plain (signed_word sg m).
Proof. destruct sg; [apply minus_plain, sid_plain|apply sid_plain]. Qed.

Lemma signed_inj sg m sg' m' : (0 <= m)%Z -> (0 <= m')%Z -> signed_word sg m = signed_word sg' m' -> sg = sg' /\ m = m'.
Proof.
  intros P P' E. destruct (facet_word_inj sg m 0 sg' m' 0 P P') as (A & B & _); [|auto].
  unfold facet_word. unfold signed_word in E. rewrite !app_assoc. now rewrite E.
Qed.

(** The sign and number of a facet of [m]. *)
Definition candidates : list (bool * nat) := list_prod [false; true] (seq 1 9).
Definition facet_of (m : Z) (w : text) : option (bool * nat) :=
  List.find (fun c => text_eqb w (facet_word (fst c) m (snd c))) candidates.

Lemma facet_of_some m w sg k : facet_of m w = Some (sg, k) -> w = facet_word sg m k /\ 1 <= k <= 9.
Proof.
  intros H. apply find_some in H as [I E]. cbn [fst snd] in E. split; [now apply text_eqb_eq|].
  unfold candidates in I. apply in_prod_iff in I as [_ I]. apply in_seq in I. lia.
Qed.

Lemma facet_of_word m sg k : (0 <= m)%Z -> 1 <= k <= 9 -> facet_of m (facet_word sg m k) = Some (sg, k).
Proof.
  intros P K. destruct (facet_of m (facet_word sg m k)) as [[sg' k']|] eqn:E.
  - apply facet_of_some in E as [E _]. apply facet_word_inj in E as (-> & _ & ->); auto.
  - exfalso. assert (I : In (sg, k) candidates).
    { unfold candidates. apply in_prod_iff. split; [destruct sg; cbn; auto|apply in_seq; lia]. }
    pose proof (find_none _ _ E _ I) as F. cbn [fst snd] in F. rewrite text_eqb_refl in F. discriminate.
Qed.

(** ** What becomes of one word *)

Definition gsub (m : Z) (ids : list Z) (w : text) : list text :=
  if text_eqb w (sid m) then out_words ids
  else if text_eqb w (minus (sid m)) then in_words ids
  else match facet_of m w with
       | Some (sg, k) => [signed_word sg (nth (k - 1) ids 0%Z)]
       | None => [w]
       end.

(** A word that is safe when [m] with [kmax] facets is replaced. *)
Definition clean (m : Z) (kmax : nat) (w : text) : Prop :=
  token w /\
  (sub_in (sid m ++ T ".") w = true -> exists sg k, 1 <= k <= kmax /\ w = facet_word sg m k).

Lemma after_app p s r : after p s = Some r -> s = p ++ r.
Proof.
  revert s. induction p as [|a p IH]; intros s H; cbn [after] in H; [now injection H as ->|].
  destruct s as [|b s]; [discriminate|]. destruct (Ascii.eqb_spec a b); [|discriminate]. subst. cbn. f_equal. auto.
Qed.

Lemma app_after p r : after p (p ++ r) = Some r.
Proof. induction p as [|a p IH]; [reflexivity|]. cbn. now rewrite Ascii.eqb_refl. Qed.

Lemma dots_digit_dot r : dots_digit r = true -> exists r', r = "."%char :: r'.
Proof. destruct r as [|c r]; [discriminate|]. cbn [dots_digit]. destruct (Ascii.eqb_spec c "."); [subst; eauto|discriminate]. Qed.

Lemma sub_in_self a : sub_in a a = true.
Proof. apply sub_in_app. exists [], []. now rewrite app_nil_r. Qed.

Lemma match_shape m w : macro_match (sid m) w = true ->
  w = sid m \/ w = minus (sid m) \/ sub_in (sid m ++ T ".") w = true.
Proof.
  unfold macro_match. intros H.
  assert (G : forall w', tail_ok (after (sid m) w') = true ->
     w' = sid m \/ exists r, w' = sid m ++ T "." ++ r).
  { intros w' G. destruct (after (sid m) w') as [[|a l]|] eqn:A; [| |discriminate].
    - apply after_app in A. rewrite app_nil_r in A. auto.
    - unfold tail_ok in G. apply dots_digit_dot in G as (r & E). apply after_app in A. rewrite E in A. right. now exists r. }
  destruct w as [|c w].
  - apply G in H as [H|(r & H)]; [auto|]. right; right. apply sub_in_app. exists [], r. cbn [app]. rewrite <- app_assoc. exact H.
  - destruct (Ascii.eqb_spec c "-").
    + subst. apply G in H as [->|(r & ->)]; [right; left; reflexivity|].
      right; right. apply sub_in_app. exists (T "-"), r. now rewrite <- app_assoc.
    + apply G in H as [->|(r & ->)]; [auto|]. right; right. apply sub_in_app. exists [], r. now rewrite <- app_assoc.
Qed.

Lemma after_digits m j : (0 <= m)%Z -> (0 <= j)%Z -> m <> j -> macro_match (sid m) (signed_word false j) = false
  /\ macro_match (sid m) (signed_word true j) = false.
Proof.
  intros P Q N.
  assert (G : tail_ok (after (sid m) (sid j)) = false).
  { destruct (after (sid m) (sid j)) as [[|a l]|] eqn:A; [| |reflexivity].
    - apply after_app in A. rewrite app_nil_r in A. apply str_Z_inj in A. congruence.
    - destruct (tail_ok (Some (a :: l))) eqn:D; [|exact D]. unfold tail_ok in D. exfalso. apply dots_digit_dot in D as (r & E).
      apply after_app in A. apply (sid_no "." j Q eq_refl). rewrite A, E. apply in_app_iff. right. now left. }
  split; unfold macro_match, signed_word; cbn [sgn T list_ascii_of_string app].
  - destruct (sid j) as [|c r] eqn:E; [rewrite <- E in G |- *; exact G|].
    destruct (Ascii.eqb_spec c "-"); [|exact G].
    exfalso. subst. apply (sid_no "-" j Q eq_refl). rewrite E. now left.
  - exact G.
Qed.

Lemma sid_neq_sub m : (0 <= m)%Z -> sub_in (sid m ++ T ".") (sid m) = false /\ sub_in (sid m ++ T ".") (minus (sid m)) = false.
Proof.
  intros P. split.
  - destruct (sub_in _ _) eqn:E; [|reflexivity]. apply sub_in_app in E as (l & r & E). exfalso.
    apply (sid_no "." m P eq_refl). rewrite E, !in_app_iff. right. left. right. now left.
  - destruct (sub_in _ _) eqn:E; [|reflexivity]. apply sub_in_app in E as (l & r & E). exfalso.
    apply (signed_nodot true m P). unfold signed_word. cbn [sgn]. unfold minus in E. rewrite E, !in_app_iff. right. left. right. now left.
Qed.

Lemma nodot_sub m w : ~ In "."%char w -> sub_in (sid m ++ T ".") w = false.
Proof.
  intros N. destruct (sub_in _ _) eqn:E; [|reflexivity]. apply sub_in_app in E as (l & r & E). exfalso.
  apply N. rewrite E, !in_app_iff. right. left. right. now left.
Qed.

Lemma existsb_minus w : existsb (Ascii.eqb "-") w = true <-> In "-"%char w.
Proof.
  rewrite existsb_exists. split; [intros (x & I & E); apply Ascii.eqb_eq in E; now subst|].
  intros I. exists "-"%char. split; [assumption|reflexivity].
Qed.

Lemma subst_facet m x sg k : (0 <= m)%Z -> 1 <= k <= length (x_surfs x) ->
  subst_word (sid m) x (facet_word sg m k) = Some (signed_word sg (nth (k - 1) (ids_of x) 0%Z)).
Proof.
  intros P K. unfold subst_word.
  assert (S : sub_in (sid m ++ T ".") (facet_word sg m k) = true).
  { apply sub_in_app. exists (sgn sg), (str_Z (Z.of_nat k)). unfold facet_word. now rewrite <- !app_assoc. }
  rewrite S. unfold facet_word at 1. rewrite app_assoc.
  change (T "." ++ str_Z (Z.of_nat k)) with ("."%char :: str_Z (Z.of_nat k)).
  rewrite split_on_app by (apply in_app_no; [apply sgn_no; discriminate|now apply sid_no]).
  rewrite split_on_none by (now apply str_nat_no). rewrite py_int_str_Z.
  unfold py_nth. destruct (Z.ltb_spec (Z.of_nat k - 1) 0); [lia|].
  replace (Z.to_nat (Z.of_nat k - 1)) with (k - 1) by lia.
  destruct (nth_error (x_surfs x) (k - 1)) as [s|] eqn:E; [|apply nth_error_None in E; lia].
  assert (I : nth (k - 1) (ids_of x) 0%Z = s_id s).
  { unfold ids_of. apply nth_error_nth. now apply map_nth_error. }
  rewrite I. f_equal.
  destruct (existsb (Ascii.eqb "-") (facet_word sg m k)) eqn:B.
  - apply existsb_minus in B. destruct sg; [reflexivity|]. exfalso. unfold facet_word in B.
    cbn [sgn app] in B. rewrite in_app_iff in B. destruct B as [B|[B|B]]; [revert B; now apply sid_no|discriminate|revert B; now apply str_nat_no].
  - destruct sg; [|reflexivity]. exfalso. assert (MM : In "-"%char (facet_word true m k)) by now left.
    apply existsb_minus in MM. rewrite MM in B. discriminate.
Qed.

(** A description separated as the writers of cells need it. *)
Definition laid (l : list item) : Prop := spaced false l = true /\ tight l = true.

Section One.
  (* one macrobody m exploded into x *)
  Context (n m : Z) (k : nat) (x : exploded).
  Context (Pn : (0 <= m)%Z) (Pm : (m <= n)%Z) (K9 : k <= 9) (G : good_x n k x).

  Lemma ids_above j : In j (ids_of x) -> (n < j)%Z.
  Proof.
    destruct G as (I & _). rewrite I. intros J. apply in_map_iff in J as (q & <- & Q). apply in_seq in Q. lia.
  Qed.

  Lemma len_ids : length (ids_of x) = k.
  Proof. destruct G as (I & _). rewrite I, map_length, seq_length. reflexivity. Qed.

  Lemma len_surfs : length (x_surfs x) = k.
  Proof. rewrite <- len_ids. unfold ids_of. now rewrite map_length. Qed.

  Lemma nth_above i : i < k -> (n < nth i (ids_of x) 0)%Z.
  Proof. intros H. apply ids_above. apply nth_In. rewrite len_ids. assumption. Qed.

  Lemma subst_clean w : clean m k w ->
    exists t, subst_word (sid m) x w = Some t /\ words (spacify t) = gsub m (ids_of x) w /\ ~ In "$"%char t /\
      macro_match (sid m) t = false.
  Proof.
    intros [TK C]. destruct G as (I & KP & WI & WO & DI & DO & _).
    destruct (sub_in (sid m ++ T ".") w) eqn:S.
    - destruct (C eq_refl) as (sg & j & J & ->). eexists. split; [apply subst_facet; [assumption|rewrite len_surfs; lia]|].
      assert (A : (n < nth (j - 1) (ids_of x) 0)%Z) by (apply nth_above; lia).
      split; [|split].
      + unfold gsub. destruct (text_eqb_spec (facet_word sg m j) (sid m)) as [E|_].
        { exfalso. apply (sid_no "." m Pn eq_refl). rewrite <- E. apply facet_dot. }
        destruct (text_eqb_spec (facet_word sg m j) (minus (sid m))) as [E|_].
        { exfalso. apply (signed_nodot true m Pn). unfold signed_word. cbn [sgn]. unfold minus in E. rewrite <- E. apply facet_dot. }
        rewrite facet_of_word by (assumption || lia).
        pose proof (signed_plain sg (nth (j - 1) (ids_of x) 0%Z)) as [N P]. rewrite plain_spacify by assumption.
        apply words_single; [assumption|now apply plain_nonspace].
      + apply plain_nodollar, signed_plain.
      + destruct (after_digits m (nth (j - 1) (ids_of x) 0%Z)) as [A1 A2]; [lia|lia|lia|]. now destruct sg.
    - unfold subst_word. rewrite S. destruct (text_eqb_spec (sid m) w) as [E|N1].
      { subst w. eexists. split; [reflexivity|]. split; [|split].
        - unfold gsub. rewrite text_eqb_refl. exact WO.
        - exact DO.
        - destruct (macro_match (sid m) (x_out x)) eqn:M; [|reflexivity]. exfalso.
          apply match_shape in M.
          assert (W : words (spacify (x_out x)) = [x_out x]).
          { destruct M as [M|[M|M]].
            - rewrite M, sp_sid. apply words_single; [apply sid_plain|apply plain_nonspace, sid_plain].
            - rewrite M. pose proof (minus_plain _ (sid_plain m)) as [N P]. rewrite plain_spacify by assumption.
              apply words_single; [assumption|now apply plain_nonspace].
            - exfalso. assert (D : In "."%char (spacify (x_out x))).
              { rewrite spacify_flat. apply in_flat_map. exists "."%char. split; [|now left].
                apply sub_in_app in M as (l & r & M). rewrite M, !in_app_iff. right. left. right. now left. }
              assert (Q : forall t, In "."%char t -> exists w, In w (words t) /\ In "."%char w).
              { clear. induction t as [|c t IH]; [intros []|]. intros D.
                destruct (is_space c) eqn:Sc.
                - rewrite words_cons_space by assumption. destruct D as [->|D]; [discriminate|auto].
                - rewrite words_cons_nonspace by assumption. destruct t as [|d t].
                  + destruct D as [->|[]]. eexists. split; [now left|now left].
                  + destruct (is_space d) eqn:Sd.
                    * destruct D as [->|D]; [eexists; split; [now left|now left]|]. destruct (IH D) as (w & I & H).
                      exists w. split; [now right|assumption].
                    * destruct (words (d :: t)) as [|w ws] eqn:E.
                      { exfalso. apply words_nil_inv in E. cbn in E. rewrite Sd in E. discriminate. }
                      destruct D as [->|D]; [eexists; split; [now left|now left]|]. destruct (IH D) as (v & I & H).
                      destruct I as [->|I]; [exists (c :: v); split; [now left|now right]|exists v; split; [now right|assumption]]. }
              destruct (Q _ D) as (v & Iv & Dv). rewrite WO in Iv. unfold out_words in Iv.
              assert (NS : forall j, In j (ids_of x) -> ~ In "."%char (sid j)).
              { intros j J. apply sid_no; [|reflexivity]. pose proof (ids_above j J). lia. }
              destruct (ids_of x) as [|i r] eqn:EI; cbn [app In] in Iv.
              { destruct Iv as [<-|[<-|[]]]; vm_compute in Dv; intuition discriminate. }
              destruct Iv as [<-|[<-|Iv]]; [vm_compute in Dv; intuition discriminate|apply (NS i); [now left|assumption]|].
              apply in_app_iff in Iv as [Iv|[<-|[]]]; [|vm_compute in Dv; intuition discriminate].
              apply in_flat_map in Iv as (j & J & [<-|[<-|[]]]); [vm_compute in Dv; intuition discriminate|].
              apply (NS j); [now right|assumption]. }
          rewrite WO in W. unfold out_words in W. destruct (ids_of x); discriminate W. }
      change (T "-" ++ sid m) with (minus (sid m)).
      destruct (text_eqb_spec (minus (sid m)) w) as [E|N2].
      { subst w. eexists. split; [reflexivity|]. split; [|split].
        - unfold gsub. destruct (text_eqb_spec (minus (sid m)) (sid m)) as [E|_].
          { exfalso. apply (sid_no "-" m Pn eq_refl). rewrite <- E. now left. }
          rewrite text_eqb_refl. exact WI.
        - exact DI.
        - destruct (macro_match (sid m) (x_in x)) eqn:M; [|reflexivity]. exfalso.
          apply match_shape in M.
          assert (NP : ~ In "."%char (x_in x)).
          { intros D.
            assert (D' : In "."%char (spacify (x_in x))).
            { rewrite spacify_flat. apply in_flat_map. exists "."%char. split; [assumption|now left]. }
            assert (Q : forall t, In "."%char t -> exists w, In w (words t) /\ In "."%char w).
              { clear. induction t as [|c t IH]; [intros []|]. intros D.
                destruct (is_space c) eqn:Sc.
                - rewrite words_cons_space by assumption. destruct D as [->|D]; [discriminate|auto].
                - rewrite words_cons_nonspace by assumption. destruct t as [|d t].
                  + destruct D as [->|[]]. eexists. split; [now left|now left].
                  + destruct (is_space d) eqn:Sd.
                    * destruct D as [->|D]; [eexists; split; [now left|now left]|]. destruct (IH D) as (w & I & H).
                      exists w. split; [now right|assumption].
                    * destruct (words (d :: t)) as [|w ws] eqn:E.
                      { exfalso. apply words_nil_inv in E. cbn in E. rewrite Sd in E. discriminate. }
                      destruct D as [->|D]; [eexists; split; [now left|now left]|]. destruct (IH D) as (v & I & H).
                      destruct I as [->|I]; [exists (c :: v); split; [now left|now right]|exists v; split; [now right|assumption]]. }
            destruct (Q _ D') as (v & Iv & Dv). rewrite WI in Iv. unfold in_words in Iv.
            destruct Iv as [<-|Iv]; [vm_compute in Dv; intuition discriminate|].
            apply in_app_iff in Iv as [Iv|[<-|[]]]; [|vm_compute in Dv; intuition discriminate].
            apply in_map_iff in Iv as (j & <- & J). apply ids_above in J.
            apply (signed_nodot true j); [lia|exact Dv]. }
          assert (W : words (spacify (x_in x)) = [x_in x]).
          { destruct M as [M|[M|M]].
            - rewrite M, sp_sid. apply words_single; [apply sid_plain|apply plain_nonspace, sid_plain].
            - rewrite M. pose proof (minus_plain _ (sid_plain m)) as [N P]. rewrite plain_spacify by assumption.
              apply words_single; [assumption|now apply plain_nonspace].
            - rewrite nodot_sub in M by assumption. discriminate. }
          rewrite WI in W. unfold in_words in W. destruct (ids_of x); discriminate W. }
      exists w. split; [reflexivity|]. split; [|split].
      + rewrite token_words by assumption. unfold gsub.
        destruct (text_eqb_spec w (sid m)); [congruence|]. destruct (text_eqb_spec w (minus (sid m))); [congruence|].
        destruct (facet_of m w) as [[sg j]|] eqn:F; [|reflexivity]. exfalso. apply facet_of_some in F as [F _].
        assert (sub_in (sid m ++ T ".") w = true); [|congruence].
        apply sub_in_app. exists (sgn sg), (str_Z (Z.of_nat j)). rewrite F. unfold facet_word. now rewrite <- !app_assoc.
      + now apply token_nodollar.
      + destruct (macro_match (sid m) w) eqn:M; [|reflexivity]. apply match_shape in M as [M|[M|M]]; congruence.
  Qed.

  Lemma gsub_unmatched w : clean m k w -> macro_match (sid m) w = false -> gsub m (ids_of x) w = [w].
  Proof.
    intros [TK C] M. unfold gsub.
    assert (M1 : macro_match (sid m) (sid m) = true).
    { unfold macro_match. destruct (sid m) as [|c r] eqn:E; [destruct (sid_digits m Pn); congruence|].
      destruct (Ascii.eqb_spec c "-"); [exfalso; subst; apply (sid_no "-" m Pn eq_refl); rewrite E; now left|].
      rewrite <- (app_nil_r (c :: r)) at 2. now rewrite app_after. }
    assert (M2 : macro_match (sid m) (minus (sid m)) = true).
    { unfold macro_match, minus. cbn [T list_ascii_of_string app]. rewrite Ascii.eqb_refl.
      rewrite <- (app_nil_r (sid m)) at 2. now rewrite app_after. }
    destruct (text_eqb_spec w (sid m)); [congruence|]. destruct (text_eqb_spec w (minus (sid m))); [congruence|].
    destruct (facet_of m w) as [[sg j]|] eqn:F; [|reflexivity]. exfalso. apply facet_of_some in F as [F J].
    assert (D : dots_digit (T "." ++ str_Z (Z.of_nat j)) = true).
    { do 10 (destruct j as [|j]; [try lia; reflexivity|]). lia. }
    assert (Q : macro_match (sid m) (facet_word sg m j) = true); [|congruence].
    unfold macro_match, facet_word. destruct sg.
    - cbn [sgn T list_ascii_of_string app]. rewrite Ascii.eqb_refl. rewrite app_after. exact D.
    - cbn [sgn app]. destruct (sid m) as [|c r] eqn:E; [destruct (sid_digits m Pn); congruence|].
      cbn [app]. destruct (Ascii.eqb_spec c "-"); [exfalso; subst; apply (sid_no "-" m Pn eq_refl); rewrite E; now left|].
      change (c :: r ++ T "." ++ str_Z (Z.of_nat j)) with ((c :: r) ++ T "." ++ str_Z (Z.of_nat j)).
      rewrite app_after. exact D.
  Qed.

  Lemma flatten_words_ok desc : Forall (clean m k) desc ->
    exists desc', flatten_words 2 (sid m) x desc = Some desc' /\
      flat_map (fun w => words (spacify w)) desc' = flat_map (gsub m (ids_of x)) desc /\
      Forall (fun w => ~ In "$"%char w) desc'.
  Proof.
    intros F. cbn [flatten_words]. destruct (existsb (macro_match (sid m)) desc) eqn:E.
    - assert (M : exists desc', mapM (subst_word (sid m) x) desc = Some desc' /\
        flat_map (fun w => words (spacify w)) desc' = flat_map (gsub m (ids_of x)) desc /\
        Forall (fun w => ~ In "$"%char w) desc' /\ existsb (macro_match (sid m)) desc' = false).
      { clear E. induction F as [|w desc C F IH]; [exists []; repeat split; constructor|].
        destruct IH as (d & M & W & D & X). destruct (subst_clean w C) as (t & S & Wt & Dt & Xt).
        exists (t :: d). cbn [mapM flat_map existsb]. rewrite S, M, W, Wt, Xt, X. repeat split. now constructor. }
      destruct M as (d & -> & W & D & X). exists d. rewrite X. auto.
    - exists desc. split; [reflexivity|]. split.
      + induction F as [|w desc C F IH]; [reflexivity|]. cbn [existsb] in E. apply orb_false_iff in E as [E1 E2].
        cbn [flat_map]. rewrite (gsub_unmatched w C E1), IH by assumption. rewrite token_words by apply C. reflexivity.
      + apply (Forall_impl _) with (2 := F). intros w C. apply token_nodollar, C.
  Qed.

  Lemma flatten_cell_ok c r : Forall (clean m k) (c_text c) ->
    expr (map word_tok (c_text c)) r ->
    exists c' its, flatten_cell (sid m) x c = Some c' /\
      c_id c' = c_id c /\ c_mat c' = c_mat c /\ c_dens c' = c_dens c /\
      c_text c' = flat_map (gsub m (ids_of x)) (c_text c) /\ c_items c' = its /\
      toks its = map word_tok (c_text c') /\ laid its /\
      exists r', expr (map word_tok (c_text c')) r' /\
      (forall env env',
         (forall w, In w (c_text c) -> word_tok w = TAtom w ->
            env w = if text_eqb w (sid m) then existsb (fun j => env' (sid j)) (ids_of x)
                    else if text_eqb w (minus (sid m)) then forallb (fun j => env' (minus (sid j))) (ids_of x)
                    else match facet_of m w with Some (sg, i) => env' (signed_word sg (nth (i - 1) (ids_of x) 0%Z)) | None => env' w end) ->
         holds env r = holds env' r').
  Proof.
    intros F E. destruct (flatten_words_ok _ F) as (d & FW & W & D).
    assert (KP : 0 < k) by apply G. pose proof len_ids as L.
    destruct (ids_of x) as [|i0 ir] eqn:EI; [cbn in L; lia|]. rewrite <- EI in *.
    set (g := fun w => if text_eqb w (sid m) then out_region i0 ir else if text_eqb w (minus (sid m)) then in_region i0 ir
                       else match facet_of m w with Some (sg, i) => RAtom (signed_word sg (nth (i - 1) (ids_of x) 0%Z)) | None => RAtom w end).
    set (f := fun w => map word_tok (gsub m (ids_of x) w)).
    assert (SW : forall sg j, word_tok (signed_word sg j) = TAtom (signed_word sg j)).
    { intros [|] j; [apply word_tok_minus|apply word_tok_sid]. }
    assert (WT : forall w, word_tok w = TAtom w \/ gsub m (ids_of x) w = [w] /\ match word_tok w with TAtom _ => False | _ => True end).
    { intros w. destruct (word_tok_cases w) as [[-> Q]|[[-> Q]|[[-> Q]|(_ & _ & _ & Q)]]].
      - right. rewrite Q. split; [|exact I]. unfold gsub.
        destruct (text_eqb_spec (T ":") (sid m)) as [B|_]; [exfalso; pose proof (word_tok_sid m) as Q'; rewrite <- B in Q'; discriminate|].
        destruct (text_eqb_spec (T ":") (minus (sid m))) as [B|_]; [discriminate|].
        destruct (facet_of m (T ":")) as [[sg j]|] eqn:B; [|reflexivity]. apply facet_of_some in B as [B _].
        pose proof (facet_dot sg m j) as DD. rewrite <- B in DD. vm_compute in DD. intuition discriminate.
      - right. rewrite Q. split; [|exact I]. unfold gsub.
        destruct (text_eqb_spec (T "#") (sid m)) as [B|_]; [exfalso; pose proof (word_tok_sid m) as Q'; rewrite <- B in Q'; discriminate|].
        destruct (text_eqb_spec (T "#") (minus (sid m))) as [B|_]; [discriminate|].
        destruct (facet_of m (T "#")) as [[sg j]|] eqn:B; [|reflexivity]. apply facet_of_some in B as [B _].
        pose proof (facet_dot sg m j) as DD. rewrite <- B in DD. vm_compute in DD. intuition discriminate.
      - right. rewrite Q. split; [|exact I]. unfold gsub.
        destruct (text_eqb_spec (T "(") (sid m)) as [B|_]; [exfalso; pose proof (word_tok_sid m) as Q'; rewrite <- B in Q'; discriminate|].
        destruct (text_eqb_spec (T "(") (minus (sid m))) as [B|_]; [discriminate|].
        destruct (facet_of m (T "(")) as [[sg j]|] eqn:B; [|reflexivity]. apply facet_of_some in B as [B _].
        pose proof (facet_dot sg m j) as DD. rewrite <- B in DD. vm_compute in DD. intuition discriminate.
      - destruct (text_eqb_spec w (T ")")) as [Ew|N]; [|left; assumption].
        right. subst w. rewrite Q. split; [|exact I]. unfold gsub.
        destruct (text_eqb_spec (T ")") (sid m)) as [B|_]; [exfalso; pose proof (word_tok_sid m) as Q'; rewrite <- B in Q'; discriminate|].
        destruct (text_eqb_spec (T ")") (minus (sid m))) as [B|_]; [discriminate|].
        destruct (facet_of m (T ")")) as [[sg j]|] eqn:B; [|reflexivity]. apply facet_of_some in B as [B _].
        pose proof (facet_dot sg m j) as DD. rewrite <- B in DD. vm_compute in DD. intuition discriminate. }
    assert (TOK : map word_tok (flat_map (gsub m (ids_of x)) (c_text c)) = flat_map (subst_tok f) (map word_tok (c_text c))).
    { clear -WT. induction (c_text c) as [|w l IH]; [reflexivity|]. cbn [flat_map map]. rewrite map_app, IH. f_equal.
      destruct (WT w) as [Q|[Q1 Q2]].
      - rewrite Q. reflexivity.
      - rewrite Q1. cbn [map]. unfold subst_tok. destruct (word_tok w); try reflexivity. destruct Q2. }
    assert (E' : expr (map word_tok (flat_map (gsub m (ids_of x)) (c_text c))) (subst_region g r)).
    { rewrite TOK. apply (proj1 (subst_tok_expr f g)); [assumption|].
      intros w Iw. unfold f, g, gsub.
      destruct (text_eqb w (sid m)); [rewrite EI; apply out_words_factor|].
      destruct (text_eqb w (minus (sid m))); [rewrite EI; apply in_words_factor|].
      destruct (facet_of m w) as [[sg j]|]; cbn [map].
      - rewrite SW. constructor.
      - replace (word_tok w) with (TAtom w); [constructor|].
        assert (A : In (TAtom w) (map word_tok (c_text c))).
        { pose proof (proj1 expr_atoms _ _ E) as EA. rewrite <- EA in Iw. unfold tok_atoms in Iw.
          apply in_flat_map in Iw as (tk & It & Iw). destruct tk; try (now destruct Iw). destruct Iw as [->|[]]. assumption. }
        apply in_map_iff in A as (v & Ev & _). symmetry. destruct (WT v) as [Q|[_ Q]].
        + rewrite Q in Ev. injection Ev as ->. assumption.
        + rewrite Ev in Q. destruct Q. }
    destruct (generalise_toks _ _ E') as (o & z & GE & TO).
    unfold flatten_cell. rewrite FW. unfold update.
    assert (ND : ~ In "$"%char (spacify (join_sp d))).
    { intros I. apply in_spacify in I as [I|[I|I]]; try discriminate. revert I. now apply join_nodollar. }
    rewrite drop_dollars_none by assumption. rewrite words_join, W, GE.
    eexists. exists o. split; [reflexivity|]. cbn [c_id c_mat c_dens c_text c_items].
    repeat (split; [now auto|]). split; [split; [exact (generalise_spaced _ _ _ _ E' GE)|exact (generalise_tight _ _ _ GE)]|].
    exists (subst_region g r). split; [exact E'|].
    intros env env' HE. rewrite holds_subst. apply holds_ext_atoms. intros w Iw.
    pose proof (proj1 expr_atoms _ _ E) as EA. rewrite <- EA in Iw. unfold tok_atoms in Iw.
    apply in_flat_map in Iw as (tk & It & Iw). destruct tk; try (now destruct Iw). destruct Iw as [->|[]].
    apply in_map_iff in It as (v & Ev & Iv).
    assert (v = w) by (destruct (WT v) as [Q|[_ Q]]; [rewrite Q in Ev; now injection Ev|rewrite Ev in Q; destruct Q]).
    subst v. rewrite (HE w Iv Ev). unfold g.
    destruct (text_eqb w (sid m)); [rewrite holds_out_region, EI; reflexivity|].
    destruct (text_eqb w (minus (sid m))); [rewrite holds_in_region, EI; reflexivity|].
    destruct (facet_of m w) as [[sg j]|]; reflexivity.
  Qed.
End One.
