(** The whole output of the cell writers. *)
From Coq Require Import ZifyBool.
From Verif Require Import PyStr PyStrFacts Formatter FormatterProofs FortranNumber FortranNumberProofs PyInt PyIntFacts
  RegionSpec RegionFacts LexSpec CellModel CellProofs CellText CellWriters CellWritersProofs.

(** A non-empty word without white space, at most [n] characters. *)
Definition word_upto (n : nat) (w : text) : Prop := w <> [] /\ nonspace w /\ length w <= n.

Lemma maxrun_runs n s : runs_at_most n s -> maxrun s <= n.
Proof.
  intro H. assert (G : forall t, exists w b, t = w ++ b /\ noblank w /\ length w = lead t).
  { induction t as [|c t (w & b & E & N & L)].
    - exists [], []. repeat split. intros [].
    - cbn [lead]. destruct (Ascii.eqb_spec c blank) as [->|Nc].
      + exists [], (blank :: t). repeat split. intros [].
      + exists (c :: w), b. rewrite E at 1. repeat split.
        * intros [F|F]; [congruence|contradiction].
        * cbn. now rewrite L. }
  revert H. induction s as [|c s IH]; intro H; [cbn; lia|]. cbn [maxrun].
  apply Nat.max_lub.
  - destruct (G (c :: s)) as (w & b & E & N & L). rewrite <- L. apply (H [] w b); assumption.
  - apply IH. eapply (runs_skip n [c] s). exact H.
Qed.

Lemma nonspace_maxrun w : maxrun w <= length w.
Proof. apply maxrun_noblank. Qed.

Lemma words_head w s : w <> [] -> nonspace w -> words (w ++ T " " ++ s) = w :: words s.
Proof. intros N H. apply (words_word_space w " "); [assumption..|reflexivity]. Qed.

Lemma words_lit w s ws : words (w ++ T " ") = ws -> words (w ++ T " " ++ s) = ws ++ words s.
Proof.
  intros <-. change (w ++ T " " ++ s) with (w ++ " "%char :: s). rewrite words_app_space by reflexivity.
  f_equal. symmetry. apply words_app_space_r. reflexivity.
Qed.

Lemma str_Z_word_upto z : str_Z z <> [] /\ nonspace (str_Z z).
Proof.
  assert (D : forall d, all_digits d -> nonspace d).
  { intros d. unfold all_digits, nonspace. rewrite !forallb_forall. intros H x I. specialize (H x I).
    destruct (is_space x) eqn:S; [|reflexivity]. apply space_not_digit in S. congruence. }
  destruct (str_Z_shape z) as (d & N & H & [->| ->]); split; try assumption; try discriminate; auto.
  apply D in H. unfold nonspace in *. cbn [forallb]. exact H.
Qed.

(** * MCNP *)

Definition keywords_start (s : text) : Prop := s = [] \/ exists t, s = blank :: t.

Lemma mcnp_keywords_start b c : keywords_start (mcnp_keywords b c).
Proof.
  unfold keywords_start, mcnp_keywords. destruct (w_univ c); [right; eexists; reflexivity|].
  destruct (w_fill c); [right; eexists; reflexivity|]. destruct b; [right; eexists; reflexivity|now left].
Qed.

Definition mcnp_head (c : wcell) : list text :=
  w_id c :: str_Z (w_mat c) :: (if (w_mat c =? 0)%Z then [] else [w_dens c]).

Lemma mcnp_text_facts b c ok :
  word_upto 60 (w_id c) -> length (str_Z (w_mat c)) <= 60 ->
  (w_mat c <> 0%Z -> word_upto 60 (w_dens c)) ->
  spaced ok (w_items c) = true ->
  Forall (fun w => length w <= 60) (words_of (w_items c)) ->
  runs_at_most 60 (mcnp_keywords b c) ->
  words (mcnp_body c) = mcnp_head c ++ words (flat_map mcnp_op (w_items c) ++ [newline]) /\
  words (mcnp_text b c) = mcnp_head c ++ words (flat_map mcnp_op (w_items c) ++ [newline]) ++ words (mcnp_keywords b c) /\
  maxrun (mcnp_text b c) <= 65.
Proof.
  intros (Hi1 & Hi2 & Hi3) Hm Hd Sp A2 K.
  destruct (str_Z_word_upto (w_mat c)) as [M1 M2].
  set (G := flat_map mcnp_op (w_items c) ++ [newline]).
  assert (WB : words (mcnp_body c) = mcnp_head c ++ words G).
  { unfold mcnp_body. rewrite strip_words, (proj1 (collapse_words _)).
    rewrite words_head, words_head by assumption. unfold mcnp_head.
    destruct (Z.eqb_spec (w_mat c) 0) as [E|N]; [reflexivity|]. destruct (Hd N) as (D1 & D2 & _).
    cbn [app]. rewrite <- app_assoc. rewrite words_head by assumption. reflexivity. }
  assert (W : words (mcnp_text b c) = mcnp_head c ++ words G ++ words (mcnp_keywords b c)).
  { unfold mcnp_text. destruct (mcnp_keywords_start b c) as [E|[t E]]; rewrite E.
    - cbn [app words]. rewrite words_app_space_r by reflexivity. rewrite WB, app_nil_r. reflexivity.
    - cbn [app]. rewrite words_app_space by reflexivity. rewrite WB, <- app_assoc. f_equal. f_equal.
      rewrite words_app_space_r by reflexivity. now rewrite words_cons_space. }
  assert (RB : maxrun (mcnp_body c) <= 62).
  { unfold mcnp_body, strip. etransitivity; [apply maxrun_rstrip|]. etransitivity; [apply maxrun_lstrip|].
    rewrite maxrun_collapse. rewrite !maxrun_blank_mid.
    pose proof (nonspace_maxrun (w_id c)). pose proof (nonspace_maxrun (str_Z (w_mat c))).
    assert (R : maxrun G <= 62).
    { unfold G. pose proof (mcnp_runs 60 _ ok ltac:(lia) Sp A2).
      pose proof (maxrun_app (flat_map mcnp_op (w_items c)) [newline]).
      change (lead [newline]) with 1 in *. change (maxrun [newline]) with 1 in *. lia. }
    destruct (Z.eqb_spec (w_mat c) 0) as [E|N]; [cbn [app]; fold G; lia|].
    destruct (Hd N) as (D1 & D2 & D3). rewrite <- app_assoc, maxrun_blank_mid.
    pose proof (nonspace_maxrun (w_dens c)). fold G. lia. }
  assert (R : maxrun (mcnp_text b c) <= 65).
  { unfold mcnp_text. apply maxrun_runs in K.
    destruct (mcnp_keywords_start b c) as [E|[t E]]; rewrite E in *.
    - cbn [app]. pose proof (maxrun_app (mcnp_body c) [newline]).
      change (lead [newline]) with 1 in *. change (maxrun [newline]) with 1 in *. lia.
    - cbn [app]. rewrite maxrun_app_blank. cbn [maxrun] in K. pose proof (maxrun_app t [newline]).
      change (lead [newline]) with 1 in *. change (maxrun [newline]) with 1 in *. lia. }
  now repeat split.
Qed.

Lemma mcnp_out b c ok :
  word_upto 60 (w_id c) -> length (str_Z (w_mat c)) <= 60 ->
  (w_mat c <> 0%Z -> word_upto 60 (w_dens c)) ->
  spaced ok (w_items c) = true ->
  Forall (one_atom mcnp_lex) (words_of (w_items c)) ->
  Forall (fun w => length w <= 60) (words_of (w_items c)) ->
  runs_at_most 60 (mcnp_keywords b c) ->
  exists out ws, (exists fuel, write_mcnp_cell fuel b c = Some out) /\
    words out = mcnp_head c ++ ws ++ words (mcnp_keywords b c) /\
    flat_map mcnp_lex ws = toks (w_items c).
Proof.
  intros H1 H2 H3 Sp A1 A2 K. destruct (mcnp_text_facts b c ok H1 H2 H3 Sp A2 K) as (_ & W & M).
  assert (R : runs_at_most 70 (mcnp_text b c)) by (apply runs_maxrun; lia).
  set (G := flat_map mcnp_op (w_items c) ++ [newline]) in *.
  destruct (formatter_words _ R) as (out & F & Wo).
  exists out, (words G). split; [exact F|]. split; [now rewrite Wo|].
  rewrite <- lex_words_eqn. unfold G. rewrite (mcnp_render _ ok) by (eauto). 
  change (mcnp_lex [newline]) with (@nil rtok). apply app_nil_r.
Qed.

(** * Serpent *)

Definition serpent_head_words (c : wcell) : list text :=
  T "cell" :: w_id c :: univ_text c ::
  match w_fill c with
  | Some f => [T "fill"; f]
  | None => if (w_mat c =? 0)%Z then [T "void"] else [str_Z (w_mat c)]
  end.

Definition head_ok (c : wcell) : Prop :=
  word_upto 50 (w_id c) /\ length (str_Z (w_mat c)) <= 50 /\
  (forall u, w_univ c = Some u -> word_upto 50 u) /\ (forall f, w_fill c = Some f -> word_upto 50 f).

Lemma serpent_head_ok c : head_ok c ->
  words (serpent_head c) = serpent_head_words c /\ maxrun (serpent_head c) <= 60 /\ ends_blank (serpent_head c).
Proof.
  intros ((I1 & I2 & I3) & M & U & F). destruct (str_Z_word_upto (w_mat c)) as [M1 M2].
  unfold serpent_head, serpent_head_words.
  remember (univ_text c) as u eqn:Eu.
  assert (Hu : word_upto 50 u).
  { subst u. unfold univ_text. destruct (w_univ c); [auto|]. split; [discriminate|split; [reflexivity|cbn; lia]]. }
  destruct Hu as (U1 & U2 & U3). clear Eu.
  change (T "cell " ++ ?x) with (T "cell" ++ T " " ++ x).
  assert (Mi := nonspace_maxrun (w_id c)). assert (Mu := nonspace_maxrun u).
  assert (Mz := nonspace_maxrun (str_Z (w_mat c))).
  destruct (w_fill c) as [f|].
  - destruct (F f eq_refl) as (F1 & F2 & F3). assert (Mf := nonspace_maxrun f). split; [|split].
    + rewrite (words_head (T "cell")), (words_head (w_id c)), (words_head u) by (assumption || discriminate || reflexivity).
      change (T " fill " ++ ?x) with (" "%char :: T "fill" ++ T " " ++ x).
      rewrite words_cons_space by reflexivity. rewrite words_head by (discriminate || reflexivity).
      change (f ++ T " ") with (f ++ T " " ++ []). rewrite words_head by assumption. reflexivity.
    + rewrite !maxrun_blank_mid. change (T " fill " ++ ?x) with (T " fill" ++ T " " ++ x).
      rewrite !maxrun_blank_mid. change (f ++ T " ") with (f ++ T " " ++ []). rewrite maxrun_blank_mid.
      change (maxrun (T "cell")) with 4. change (maxrun (T " fill")) with 4. change (maxrun (@nil ascii)) with 0. lia.
    + exists (T "cell" ++ T " " ++ w_id c ++ T " " ++ u ++ T " " ++ T " fill " ++ f).
      rewrite <- !app_assoc. reflexivity.
  - assert (V : forall v, v <> [] -> nonspace v -> length v <= 50 ->
       words (T "cell" ++ T " " ++ w_id c ++ T " " ++ u ++ T " " ++ v ++ T " ") = [T "cell"; w_id c; u; v] /\
       maxrun (T "cell" ++ T " " ++ w_id c ++ T " " ++ u ++ T " " ++ v ++ T " ") <= 60 /\
       ends_blank (T "cell" ++ T " " ++ w_id c ++ T " " ++ u ++ T " " ++ v ++ T " ")).
    { intros v V1 V2 V3. assert (Mv := nonspace_maxrun v). split; [|split].
      + rewrite (words_head (T "cell")), (words_head (w_id c)), (words_head u) by (assumption || discriminate || reflexivity).
        change (v ++ T " ") with (v ++ T " " ++ []). rewrite words_head by assumption. reflexivity.
      + rewrite !maxrun_blank_mid. change (v ++ T " ") with (v ++ T " " ++ []). rewrite maxrun_blank_mid.
        change (maxrun (T "cell")) with 4. change (maxrun (@nil ascii)) with 0. lia.
      + exists (T "cell" ++ T " " ++ w_id c ++ T " " ++ u ++ T " " ++ v). rewrite <- !app_assoc. reflexivity. }
    destruct (w_mat c =? 0)%Z.
    + apply (V (T "void")); [discriminate|reflexivity|cbn; lia].
    + apply (V (str_Z (w_mat c))); assumption.
Qed.

Lemma words_ends a b : ends_blank a -> words (a ++ b) = words a ++ words b.
Proof.
  intros [s ->]. rewrite <- app_assoc. cbn [app]. rewrite words_app_space by reflexivity.
  f_equal. rewrite (words_app_space s blank []) by reflexivity. now rewrite app_nil_r.
Qed.

Lemma serpent_out c r :
  head_ok c -> spaced false (w_items c) = true -> expr (toks (w_items c)) r ->
  Forall (one_atom (fun w => glex serpent_delim w [])) (words_of (w_items c)) ->
  Forall (fun w => length w <= 60) (words_of (w_items c)) ->
  exists out ws, (exists fuel, write_serpent_cell fuel c = Some out) /\
    words out = serpent_head_words c ++ ws /\
    flat_map (fun w => glex serpent_delim w []) ws = TOpen :: toks (w_items c) ++ [TClose].
Proof.
  intros Hh Sp E A1 A2. destruct (serpent_head_ok c Hh) as (W & M & B).
  set (G := T "( " ++ flat_map serpent_op (w_items c) ++ T " ) " ++ [newline]).
  assert (R : runs_at_most 70 (serpent_text c)).
  { apply runs_maxrun. unfold serpent_text. rewrite maxrun_collapse, maxrun_app_ends by assumption.
    rewrite (maxrun_app_ends (T "( ")) by (now exists (T "(")).
    pose proof (serpent_runs 60 _ r false ltac:(lia) E Sp A2).
    change (flat_map serpent_op (w_items c) ++ T " ) " ++ [newline]) with
      (flat_map serpent_op (w_items c) ++ T " " ++ T ") " ++ [newline]).
    rewrite maxrun_blank_mid. change (maxrun (T "( ")) with 1. change (maxrun (T ") " ++ [newline])) with 1. lia. }
  destruct (formatter_words _ R) as (out & F & Wo). exists out, (words G). split; [exact F|]. split.
  - rewrite Wo. unfold serpent_text. rewrite (proj1 (collapse_words _)), words_ends by assumption. now rewrite W.
  - rewrite <- glex_words. unfold G.
    change (glex serpent_delim (T "( " ++ ?x) []) with (TOpen :: glex serpent_delim x []).
    rewrite (serpent_glex _ false); [reflexivity|assumption..|]. right. do 2 eexists. split; [reflexivity|left; reflexivity].
Qed.

(** * SCONE *)

Definition scone_head_words (c : wcell) : list text :=
  w_id c :: T "{" :: T "type" :: T "unionCell;" :: T "id" :: (w_id c ++ T ";") :: T "filltype" ::
  match w_fill c with
  | Some f => [T "uni;"; T "universe"; f ++ T ";"]
  | None => [T "mat;"; T "material"; if (w_mat c =? 0)%Z then T "void;" else T "m" ++ str_Z (w_mat c) ++ T ";"]
  end.

Lemma nonspace_app a b : nonspace a -> nonspace b -> nonspace (a ++ b).
Proof. unfold nonspace. intros. rewrite forallb_app. now apply andb_true_intro. Qed.

Lemma scone_head_ok c : head_ok c ->
  words (scone_head c) = scone_head_words c /\ maxrun (scone_head c) <= 60 /\ ends_blank (scone_head c).
Proof.
  intros ((I1 & I2 & I3) & M & _ & F). destruct (str_Z_word_upto (w_mat c)) as [M1 M2].
  assert (Mi := nonspace_maxrun (w_id c)). assert (Mi' := nonspace_maxrun (w_id c ++ T ";")). rewrite app_length in Mi'.
  assert (Mz := nonspace_maxrun (str_Z (w_mat c))).
  assert (V : exists kw lit v, match w_fill c with
      | Some f => T " filltype uni; universe " ++ f ++ T "; "
      | None => T " filltype mat; material " ++ (if (w_mat c =? 0)%Z then T " void; " else T "m" ++ str_Z (w_mat c) ++ T "; ")
      end = T " filltype" ++ T " " ++ kw ++ T " " ++ lit ++ v ++ T " " /\
      match w_fill c with
      | Some f => [T "uni;"; T "universe"; f ++ T ";"]
      | None => [T "mat;"; T "material"; if (w_mat c =? 0)%Z then T "void;" else T "m" ++ str_Z (w_mat c) ++ T ";"]
      end = kw :: words lit ++ [v] /\ word_upto 60 kw /\ (ends_blank lit) /\ maxrun lit <= 60 /\ word_upto 60 v).
  { destruct (w_fill c) as [f|].
    - destruct (F f eq_refl) as (F1 & F2 & F3). exists (T "uni;"), (T "universe "), (f ++ T ";").
      rewrite <- !app_assoc. split; [reflexivity|]. split; [reflexivity|].
      split; [split; [discriminate|split; [reflexivity|cbn; lia]]|].
      split; [now exists (T "universe")|]. split; [cbn; lia|].
      split; [destruct f; discriminate|]. split; [now apply nonspace_app|]. rewrite app_length. cbn [T list_ascii_of_string length]. lia.
    - destruct (w_mat c =? 0)%Z.
      + exists (T "mat;"), (T "material  "), (T "void;").
        split; [reflexivity|]. split; [reflexivity|].
        split; [split; [discriminate|split; [reflexivity|cbn; lia]]|].
        split; [now exists (T "material ")|]. split; [cbn; lia|].
        split; [discriminate|]. split; [reflexivity|cbn; lia].
      + exists (T "mat;"), (T "material "), (T "m" ++ str_Z (w_mat c) ++ T ";").
        rewrite <- !app_assoc. split; [reflexivity|]. split; [reflexivity|].
        split; [split; [discriminate|split; [reflexivity|cbn; lia]]|].
        split; [now exists (T "material")|]. split; [cbn; lia|].
        split; [discriminate|]. split; [apply nonspace_app; [reflexivity|now apply nonspace_app]|].
        rewrite !app_length. cbn [T list_ascii_of_string length]. lia. }
  unfold scone_head, scone_head_words. destruct V as (kw & lit & v & -> & -> & (K1 & K2 & K3) & L1 & L2 & V1 & V2 & V3).
  assert (Mk := nonspace_maxrun kw). assert (Mv := nonspace_maxrun v).
  change (T " { type unionCell; id " ++ ?x) with (T " " ++ T "{ type unionCell; id" ++ T " " ++ x).
  change (T "; " ++ ?x) with (T ";" ++ T " " ++ x). rewrite (app_assoc (w_id c) (T ";")).
  split; [|split].
  - rewrite (words_head (w_id c)) by assumption.
    rewrite (words_lit _ _ [T "{"; T "type"; T "unionCell;"; T "id"]) by reflexivity.
    rewrite (words_head (w_id c ++ T ";")).
    2:{ destruct (w_id c); discriminate. }
    2:{ now apply nonspace_app. }
    rewrite (words_lit (T " filltype") _ [T "filltype"]) by reflexivity.
    rewrite words_head by assumption. rewrite words_ends by assumption.
    change (v ++ T " ") with (v ++ T " " ++ []). rewrite words_head by assumption. reflexivity.
  - rewrite !maxrun_blank_mid. rewrite (maxrun_app_ends lit) by assumption.
    change (v ++ T " ") with (v ++ T " " ++ []). rewrite maxrun_blank_mid.
    change (maxrun (T "{ type unionCell; id")) with 10. change (maxrun (T " filltype")) with 8. change (maxrun (@nil ascii)) with 0.
    change (length (T ";")) with 1 in *. lia.
  - eexists. change [blank] with (T " "). rewrite !app_assoc. reflexivity.
Qed.

Lemma scone_out c :
  head_ok c -> spaced false (w_items c) = true ->
  Forall (one_atom (fun w => glex scone_delim w [])) (words_of (w_items c)) ->
  Forall (fun w => length w <= 60) (words_of (w_items c)) ->
  exists out ws, (exists fuel, write_scone_cell fuel c = Some out) /\
    words out = scone_head_words c ++ [T "surfaces"; T "["] ++ ws ++ [T "];"; T "}"] /\
    flat_map (fun w => glex scone_delim w []) ws = toks (w_items c).
Proof.
  intros Hh Sp A1 A2. destruct (scone_head_ok c Hh) as (W & M & B).
  set (G := flat_map scone_op (w_items c)).
  assert (R : runs_at_most 70 (scone_text c)).
  { apply runs_maxrun. unfold scone_text. rewrite maxrun_collapse, maxrun_app_ends by assumption.
    rewrite (maxrun_app_ends (T "surfaces [ ")) by (now exists (T "surfaces [")).
    pose proof (scone_runs 60 _ false ltac:(lia) Sp A2).
    change (flat_map scone_op (w_items c) ++ T " ]; }" ++ [newline]) with
      (flat_map scone_op (w_items c) ++ T " " ++ T "]; }" ++ [newline]).
    rewrite maxrun_blank_mid. change (maxrun (T "surfaces [ ")) with 8. change (maxrun (T "]; }" ++ [newline])) with 2. lia. }
  destruct (formatter_words _ R) as (out & F & Wo). exists out, (words G). split; [exact F|]. split.
  - rewrite Wo. unfold scone_text. rewrite (proj1 (collapse_words _)), words_ends by assumption. rewrite W. f_equal.
    rewrite words_ends by (now exists (T "surfaces [")). f_equal.
    change (flat_map scone_op (w_items c) ++ T " ]; }" ++ [newline]) with
      (flat_map scone_op (w_items c) ++ " "%char :: T "]; }" ++ [newline]).
    rewrite words_app_space by reflexivity. reflexivity.
  - rewrite <- glex_words. unfold G. rewrite <- (app_nil_r (flat_map scone_op _)).
    rewrite (scone_glex _ false); [apply app_nil_r|assumption..|now left].
Qed.

(** * Words that are one atom *)

Definition int_word (w : text) : Prop := exists d, d <> [] /\ all_digits d /\ (w = d \/ w = "-"%char :: d).

Lemma int_word_str z : int_word (str_Z z).
Proof. apply str_Z_shape. Qed.

Lemma py_int_int_word w z : py_int w = Some z -> ~ In "+"%char w -> int_word w.
Proof.
  unfold py_int, take_sign. destruct w as [|c r]; [discriminate|]. intros H N.
  destruct (Ascii.eqb_spec c "-") as [->|].
  - destruct r; [discriminate|]. destruct (forallb is_digit (a :: r)) eqn:D; [|discriminate].
    exists (a :: r). split; [discriminate|]. auto.
  - destruct (Ascii.eqb_spec c "+") as [->|]; [exfalso; apply N; now left|].
    destruct (forallb is_digit (c :: r)) eqn:D; [|discriminate].
    exists (c :: r). split; [discriminate|]. auto.
Qed.

Lemma glex_atom d w : forall cur, forallb (fun c => negb (is_space c) && match d c with None => true | Some _ => false end) w = true ->
  glex d w cur = flush (rev w ++ cur).
Proof.
  induction w as [|c w IH]; intros cur H; [reflexivity|]. cbn [forallb] in H. apply andb_prop in H as [H1 H2].
  apply andb_prop in H1 as [H0 H1]. apply negb_true_iff in H0. cbn [glex]. rewrite H0.
  destruct (d c); [discriminate|]. rewrite IH by assumption. cbn [rev]. now rewrite <- app_assoc.
Qed.

Lemma int_word_chars w : int_word w -> forall c, In c w -> is_digit c = true \/ c = "-"%char.
Proof.
  intros (d & N & D & [->| ->]) c I; unfold all_digits in D; rewrite forallb_forall in D.
  - left. auto.
  - destruct I as [<-|I]; auto.
Qed.

Lemma int_word_nonspace w : int_word w -> nonspace w.
Proof.
  intro H. unfold nonspace. apply forallb_forall. intros c I.
  destruct (int_word_chars w H c I) as [D| ->]; [|reflexivity].
  destruct (is_space c) eqn:S; [|reflexivity]. apply space_not_digit in S. congruence.
Qed.

Lemma int_word_nonempty w : int_word w -> w <> [].
Proof. intros (d & N & _ & [->| ->]); [assumption|discriminate]. Qed.

Lemma int_word_glex d w : (forall c, is_digit c = true -> d c = None) -> d "-"%char = None ->
  int_word w -> one_atom (fun w => glex d w []) w.
Proof.
  intros Hd Hm H. split; [now apply int_word_nonspace|]. rewrite glex_atom.
  - rewrite app_nil_r. apply flush_rev. now apply int_word_nonempty.
  - apply forallb_forall. intros c I. pose proof (int_word_nonspace w H) as Ns. unfold nonspace in Ns.
    rewrite forallb_forall in Ns. rewrite (Ns c I).
    destruct (int_word_chars w H c I) as [D| ->]; [now rewrite Hd|now rewrite Hm].
Qed.

Lemma int_word_serpent w : int_word w -> one_atom (fun w => glex serpent_delim w []) w.
Proof. apply int_word_glex; [|reflexivity]. intros c D. unfold serpent_delim. now rewrite !(digit_not c). Qed.
Lemma int_word_scone w : int_word w -> one_atom (fun w => glex scone_delim w []) w.
Proof. apply int_word_glex; [|reflexivity]. intros c D. unfold scone_delim. now rewrite !(digit_not c). Qed.
Lemma int_word_openmc w : int_word w -> one_atom (fun w => glex openmc_delim w []) w.
Proof. apply int_word_glex; [|reflexivity]. intros c D. unfold openmc_delim. now rewrite !(digit_not c). Qed.

Lemma lex_plain w : forall cur, forallb plain_char w = true -> lex w cur = flush (rev w ++ cur).
Proof.
  induction w as [|c w IH]; intros cur H; [reflexivity|]. cbn [forallb] in H. apply andb_prop in H as [H1 H2].
  unfold plain_char in H1. cbn [lex]. destruct (is_space c); [discriminate|].
  destruct (is_delim c) eqn:D; [discriminate|]. destruct (Ascii.eqb c "+"); [discriminate|].
  assert (Ascii.eqb c "#" = false) as ->.
  { unfold is_delim in D. apply orb_false_iff in D. apply D. }
  rewrite IH by assumption. cbn [rev]. now rewrite <- app_assoc.
Qed.

Lemma plain_one_atom w : plain w -> one_atom mcnp_lex w.
Proof.
  intros [N P]. split; [now apply plain_nonspace|]. unfold mcnp_lex. rewrite lex_plain by assumption.
  rewrite app_nil_r. now apply flush_rev.
Qed.

Lemma int_word_plain w : int_word w -> plain w.
Proof.
  intro H. split; [now apply int_word_nonempty|]. apply forallb_forall. intros c I.
  pose proof (int_word_nonspace w H) as Ns. unfold nonspace in Ns. rewrite forallb_forall in Ns. specialize (Ns c I).
  apply negb_true_iff in Ns. unfold plain_char, is_delim. rewrite Ns.
  destruct (int_word_chars w H c I) as [D| ->]; [|reflexivity]. now rewrite !(digit_not c).
Qed.

Lemma in_words_of l s : In s (words_of l) <-> In (Str s) l /\ is_word s = true.
Proof.
  unfold words_of. rewrite in_flat_map. split.
  - intros ([o|t] & I & H); [destruct H|]. destruct (is_word t) eqn:W; [|destruct H].
    destruct H as [<-|[]]. auto.
  - intros [I W]. exists (Str s). split; [assumption|]. rewrite W. now left.
Qed.

Lemma lex_no_plus_gen s : forall cur w, ~ In "+"%char cur -> In (TAtom w) (lex s cur) -> ~ In "+"%char w.
Proof.
  assert (Fl : forall cur w, ~ In "+"%char cur -> In (TAtom w) (flush cur) -> ~ In "+"%char w).
  { intros cur w N I. unfold flush in I. destruct cur; [destruct I|]. destruct I as [I|[]]. injection I as <-.
    intro F. apply N. now apply in_rev. }
  induction s as [|c s IH]; intros cur w N I; cbn [lex] in I; [eauto|].
  destruct (is_space c); [apply in_app_iff in I as [I|I]; [eauto|eapply IH; [|exact I]; intros []]|].
  destruct (Ascii.eqb_spec c "+") as [->|Nc]; [eauto|].
  destruct (Ascii.eqb_spec c "#") as [->|Nh].
  - destruct s as [|e s].
    + apply in_app_iff in I as [I|[I|[]]]; [eauto|discriminate].
    + destruct (is_digit e); apply in_app_iff in I as [I|I]; eauto.
      * eapply IH; [|exact I]. intros [F|[]]. discriminate.
      * destruct I as [I|I]; [discriminate|]. eapply IH; [|exact I]. intros [].
  - destruct (is_delim c).
    + apply in_app_iff in I as [I|[I|I]]; [eauto| |eapply IH; [|exact I]; intros []].
      unfold delim_tok in I. destruct (Ascii.eqb c "("); [discriminate|]. destruct (Ascii.eqb c ")"); [discriminate|].
      destruct (Ascii.eqb c ":"); discriminate.
    + eapply IH; [|exact I]. intros [F|F]; [congruence|contradiction].
Qed.

Lemma lex_no_plus s w : In (TAtom w) (mcnp_lex s) -> ~ In "+"%char w.
Proof. apply lex_no_plus_gen. intros []. Qed.
