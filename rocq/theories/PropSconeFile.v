(** The file written for SCONE as a whole (csg2csg/SCONEInput.py 21-102, SCONESurfaceCard.py, SCONECellCard.py 34-79,
    SCONEUniverseCard.py 10-60, SCONEMaterialCard.py 7-38): C79. *)
From Coq Require Import QArith Reals.
From Verif Require Import PyStr PyStrFacts PyInt PyIntFacts PyDict PyFmtE PyFmtEFacts FortranNumber FortranNumberProofs CellModel CellText RegionSpec RegionFacts LexSpec Formatter FormatterProofs WrapProofs
  CellWriters CellProofs CellWritersProofs CellWritersOut SurfModel SurfWriters SurfWritersProofs SurfSpec GeomSpec TargetSpec SurfTargets SurfScone FlattenModel MaterialModel
  MaterialWriters UniverseModel ConvertModel PropSurfOut PropSurfTargets PropWriters PropMaterialOut PropKeyword PropDeck PropUniverse FileProofs LayoutProofs.
From Verif Require Import PropFile.
From Verif Require PropFlukaMat PropSerpentFile.
Open Scope nat_scope.
Open Scope list_scope.

(** ** How SCONE reads a dictionary (SCONE documentation, input files) *)

(** Comments go from ! to the end of the line.  Braces, parentheses and the semicolon are tokens; the rest is split at white
    space.  A file is a sequence of entries: a keyword, values and a semicolon, or a keyword and entries in braces. *)
Inductive node := Leaf (k : text) (v : list text) | Dict (k : text) (es : list node).
Definition spaced_out (t : text) : text := flat_map (fun c => if scone_sep c then [blank; c; blank] else [c]) t.
Definition lex (t : text) : list text := words (spaced_out t).

(** The dictionaries that are open with what is in them so far, the entries of the current one, and the words since the last entry. *)
Definition state := (list (text * list node) * list node * list text)%type.
Definition step (w : text) (s : state) : option state :=
  let '(open, es, p) := s in
  if text_eqb w (T ";") then match p with k :: v :: vs => Some (open, es ++ [Leaf k (v :: vs)], []) | _ => None end
  else if text_eqb w (T "{") then match p with [k] => Some ((k, es) :: open, [], []) | _ => None end
  else if text_eqb w (T "}") then match p, open with [], (k, es0) :: o => Some (o, es0 ++ [Dict k es], []) | _, _ => None end
  else Some (open, es, p ++ [w]).
Fixpoint steps (ws : list text) (s : state) : option state :=
  match ws with [] => Some s | w :: r => match step w s with Some s' => steps r s' | None => None end end.
Definition scone_reads (t : text) : option (list node) :=
  match steps (lex (uncomment "!" false t)) ([], [], []) with Some ([], es, []) => Some es | _ => None end.

(** ** What the entries say *)

Definition num (w : text) (z : Z) : Prop := py_int w = Some z.
Definition listed (l : list text) : list text := T "(" :: l ++ [T ")"].

(** A parameter of a surface: one value, or a list of values in parentheses. *)
Definition param := (bool * text * list text)%type.
Definition param_node (p : param) : node := let '(b, k, l) := p in Leaf k (if b then listed l else l).
Definition surf_dict (str : R -> text) (s : surface) (sn : sense) (e : node) : Prop :=
  exists k i ty (ps : list param) ents sn', e = Dict k (Leaf (T "id") [i] :: Leaf (T "type") [T ty] :: map param_node ps) /\ num k (s_id s) /\ num i (s_id s) /\
    Forall (fun p : param => fst (fst p) = true \/ length (snd p) = 1) ps /\
    Forall2 (entry_shown str) (flat_map (fun p : param => snd (fst p) :: snd p) ps) ents /\ scone_means ty ents sn' /\
    forall p, (Rabs (cone_height s p) < 10000000000)%R -> (neg sn' p <-> neg sn p) /\ (pos sn' p <-> pos sn p).

(** A cell: what is in it, and the region. *)
Definition cell_dict (c : gcell) (r : region) (e : node) : Prop :=
  exists k i what ws r', e = Dict k ([Leaf (T "type") [T "unionCell"]; Leaf (T "id") [i]] ++ what ++ [Leaf (T "surfaces") (T "[" :: ws ++ [T "]"])]) /\
    num k (g_id c) /\ num i (g_id c) /\
    match g_fill c with
    | Some f => exists u n, what = [Leaf (T "filltype") [T "uni"]; Leaf (T "universe") [u]] /\ num f n /\ num u (n + 1)
    | None => exists m, what = [Leaf (T "filltype") [T "mat"]; Leaf (T "material") [m]] /\
                if (g_mat c =? 0)%Z then m = T "void" else exists w, m = T "m" ++ w /\ num w (g_mat c)
    end /\
    expr (flat_map (fun w => glex scone_delim w []) ws) r' /\ forall env, holds env r' = holds env r.

(** A universe: the root with its border and what it is filled with, or a list of cells; all numbers of universes are one
    more than in the deck. *)
Definition univ_dict (u : ucard) (e : node) : Prop :=
  exists k i body, e = Dict k (body ++ [Leaf (T "id") [i]] ++ match u_offset u with Some o => [Leaf (T "translation") (listed o)] | None => [] end) /\ num i (u_id u + 1) /\
    if u_root u then
      k = T "root" /\ exists b fill, body = [Leaf (T "type") [T "rootUniverse"]; Leaf (T "border") [b]] ++ fill /\ num b (u_border u) /\
        match u_fill u with Some f => exists w, fill = [Leaf (T "fill") [T "u<" ++ w ++ T ">"]] /\ num w (f + 1) | None => fill = [] end
    else num k (u_id u + 1) /\ exists ws, body = [Leaf (T "type") [T "cellUniverse"]; Leaf (T "cells") (listed ws)] /\ Forall2 num ws (u_cells u).

(** A material with the atom densities [c] (C56). *)
Definition mat_dict (m : material) (c : list (text * Q)) (e : node) : Prop :=
  exists ns, e = Dict (T "m" ++ m_num m) (Dict (T "composition") (map (fun n => Leaf (fst n) [snd n]) ns) ::
      match m_colour m with Some l => [Leaf (T "rgb") (listed (words (T l)))] | None => [] end) /\
    Forall2 (fun n x => fst n = fst x ++ T ".03" /\ exists q, py_float (snd n) = Some q /\ seven_digits q (snd x)) ns c.

Definition whole (ss cs us ms : list node) : list node :=
  [Dict (T "geometry")
     [Leaf (T "type") [T "geometryStd"]; Leaf (T "boundary") (listed (map T ["0"; "0"; "0"; "0"; "0"; "0"]%string)); Dict (T "graph") [Leaf (T "type") [T "shrunk"]];
      Dict (T "surfaces") ss; Dict (T "cells") cs; Dict (T "universes") us];
   Dict (T "nuclearData")
     [Dict (T "handles") [Dict (T "ce") [Leaf (T "type") [T "aceNeutronDatabase"]; Leaf (T "aceLibrary") [T "$SCONE_ACE"]; Leaf (T "ures") [T "0"]]];
      Dict (T "materials") ms]].

(** ** Tokens *)

Lemma spaced_app a b : spaced_out (a ++ b) = spaced_out a ++ spaced_out b.
Proof. apply flat_map_app. Qed.
Lemma spaced_id t : nosep t -> spaced_out t = t.
Proof.
  unfold nosep, spaced_out. induction t as [|c t IH]; intro H; [reflexivity|]. cbn [forallb flat_map] in *. apply andb_prop in H as [A B].
  destruct (scone_sep c); [discriminate|]. now rewrite IH.
Qed.
Lemma space_nosep c : is_space c = true -> scone_sep c = false.
Proof.
  intro S. unfold scone_sep. repeat match goal with |- context [Ascii.eqb c ?d] => destruct (Ascii.eqb_spec c d); [subst; discriminate S|] end. reflexivity.
Qed.
Lemma sep_nospace c : scone_sep c = true -> is_space c = false.
Proof. intro H. destruct (is_space c) eqn:S; [|reflexivity]. now rewrite (space_nosep c S) in H. Qed.
Lemma spaced_closed u : closed u -> closed (spaced_out u).
Proof.
  intros [->|(a & c & -> & S)]; [now left|]. rewrite spaced_app. right. exists (spaced_out a), c. split; [|exact S]. f_equal. unfold spaced_out. cbn [flat_map]. now rewrite (space_nosep c S).
Qed.
Lemma lex_closed_app a b : closed a -> lex (a ++ b) = lex a ++ lex b.
Proof. intro C. unfold lex. rewrite spaced_app. now apply words_closed_app, spaced_closed. Qed.

Definition is_sep (w : text) : bool := match w with [c] => scone_sep c | _ => false end.
Lemma nosep_words a w : nosep a -> In w (words a) -> is_sep w = false.
Proof.
  intros N I. destruct w as [|c [|d w]]; try reflexivity. cbn [is_sep]. unfold nosep in N. rewrite forallb_forall in N.
  assert (J : In c a) by (eapply in_words_in; [exact I|now left]). specialize (N c J). now destruct (scone_sep c).
Qed.
Lemma words_one c : is_space c = false -> words [c] = [[c]].
Proof. intro S. cbn [words]. now rewrite S. Qed.
Lemma lex_sep a c b : scone_sep c = true -> lex (a ++ c :: b) = lex a ++ [c] :: lex b.
Proof.
  intro H. unfold lex. rewrite spaced_app. change (spaced_out (c :: b)) with ((if scone_sep c then [blank; c; blank] else [c]) ++ spaced_out b). rewrite H. cbn [app].
  rewrite words_app_space by reflexivity. f_equal. change (c :: blank :: spaced_out b) with ([c] ++ blank :: spaced_out b). rewrite words_app_space by reflexivity.
  rewrite words_one by now apply sep_nospace. reflexivity.
Qed.
Lemma lex_nosep t : nosep t -> lex t = words t.
Proof. intro H. unfold lex. now rewrite spaced_id. Qed.
Lemma nosep_snoc a c : nosep a -> scone_sep c = false -> nosep (a ++ [c]).
Proof. intros A C. apply nosep_app; [exact A|]. unfold nosep. cbn [forallb]. now rewrite C. Qed.

Lemma keep_all {A} (p : A -> bool) l : (forall x, In x l -> p x = true) -> filter p l = l.
Proof. induction l as [|x l IH]; intro H; [reflexivity|]. cbn [filter]. rewrite (H x (or_introl eq_refl)), IH; [reflexivity|]. intros y I. apply H. now right. Qed.
(** The tokens without the separators are the words of C58. *)
Lemma lex_words_only t : filter (fun w => negb (is_sep w)) (lex t) = scone_words t.
Proof.
  unfold scone_words. fold (unsep t).
  assert (G : forall t a, nosep a -> filter (fun w => negb (is_sep w)) (lex (a ++ t)) = words (unsep (a ++ t))).
  { clear t. induction t as [|c t IH]; intros a N.
    - rewrite app_nil_r. rewrite lex_nosep, unsep_id by exact N. apply keep_all. intros w I. now rewrite (nosep_words a w N I).
    - destruct (scone_sep c) eqn:S.
      + rewrite lex_sep by exact S. rewrite filter_app. cbn [filter is_sep]. rewrite S. cbn [negb]. rewrite unsep_app.
        assert (U : unsep (c :: t) = blank :: unsep t) by (unfold unsep; cbn [map]; now rewrite S). rewrite U, words_app_space by reflexivity.
        assert (E := IH [] eq_refl). cbn [app] in E. rewrite E. f_equal. rewrite unsep_id, lex_nosep by exact N. apply keep_all. intros w I. now rewrite (nosep_words a w N I).
      + change (c :: t) with ([c] ++ t). rewrite app_assoc. apply IH. now apply nosep_snoc. }
  now apply (G t []).
Qed.
(** Tokens do not depend on the white space between words. *)
Lemma lex_of_words t : lex t = flat_map lex (words t).
Proof.
  assert (S1 : forall a c b, is_space c = true -> lex (a ++ c :: b) = lex a ++ lex b).
  { intros a c b S. unfold lex. rewrite spaced_app. change (spaced_out (c :: b)) with ((if scone_sep c then [blank; c; blank] else [c]) ++ spaced_out b).
    rewrite (space_nosep c S). cbn [app]. now apply words_app_space. }
  assert (G : forall t a, nonspace a -> lex (a ++ t) = flat_map lex (words (a ++ t))).
  { clear t. induction t as [|c t IH]; intros a N.
    - rewrite app_nil_r. destruct a as [|x a]; [reflexivity|]. rewrite words_single by (discriminate || exact N). cbn [flat_map]. now rewrite app_nil_r.
    - destruct (is_space c) eqn:S.
      + rewrite S1 by exact S. rewrite words_app_space by exact S. rewrite flat_map_app. assert (E := IH [] eq_refl). cbn [app] in E. rewrite <- E. f_equal.
        destruct a as [|x a]; [reflexivity|]. rewrite words_single by (discriminate || exact N). cbn [flat_map]. now rewrite app_nil_r.
      + change (c :: t) with ([c] ++ t). rewrite app_assoc. apply IH. apply nonspace_app; [exact N|]. unfold nonspace. cbn [forallb]. now rewrite S. }
  now apply (G t []).
Qed.

(** ** What a run of tokens does *)

Definition acts (ws : list text) (es : list node) : Prop := forall open top rest, steps (ws ++ rest) (open, top, []) = steps rest (open, top ++ es, []).
Lemma acts_nil : acts [] [].
Proof. intros o t r. now rewrite app_nil_r. Qed.
Lemma acts_app w1 e1 w2 e2 : acts w1 e1 -> acts w2 e2 -> acts (w1 ++ w2) (e1 ++ e2).
Proof. intros A B o t r. rewrite <- app_assoc, A, B. now rewrite app_assoc. Qed.
Lemma acts_concat {A} (w : A -> list text) (e : A -> node) l : Forall (fun a => acts (w a) [e a]) l -> acts (flat_map w l) (map e l).
Proof. induction 1 as [|a l H F IH]; [apply acts_nil|]. cbn [flat_map map]. now apply (acts_app _ [e a]). Qed.

Definition value (w : text) : Prop := w <> T ";" /\ w <> T "{" /\ w <> T "}".
Lemma step_value w o es p : value w -> step w (o, es, p) = Some (o, es, p ++ [w]).
Proof. intros (A & B & C). unfold step. destruct (text_eqb_spec w (T ";")); [tauto|]. destruct (text_eqb_spec w (T "{")); [tauto|]. destruct (text_eqb_spec w (T "}")); [tauto|]. reflexivity. Qed.
Lemma steps_values ws o es : forall p rest, Forall value ws -> steps (ws ++ rest) (o, es, p) = steps rest (o, es, p ++ ws).
Proof.
  induction ws as [|w ws IH]; intros p rest F; [now rewrite app_nil_r|]. inversion F; subst. cbn [app steps]. rewrite step_value by assumption. rewrite IH by assumption. now rewrite <- app_assoc.
Qed.
Lemma acts_leaf k v : value k -> Forall value v -> v <> [] -> acts (k :: v ++ [T ";"]) [Leaf k v].
Proof.
  intros K F N o t r. change ((k :: v ++ [T ";"]) ++ r) with ((k :: (v ++ [T ";"]) ++ r)). rewrite <- app_assoc. change (k :: v ++ [T ";"] ++ r) with ((k :: v) ++ [T ";"] ++ r).
  rewrite steps_values by now constructor. cbn [app]. destruct v as [|x v]; [tauto|]. reflexivity.
Qed.
Lemma acts_dict k ws es : value k -> acts ws es -> acts (k :: T "{" :: ws ++ [T "}"]) [Dict k es].
Proof.
  intros K A o t r. change ((k :: T "{" :: ws ++ [T "}"]) ++ r) with ([k] ++ T "{" :: (ws ++ [T "}"]) ++ r). rewrite <- app_assoc.
  rewrite steps_values by (constructor; [exact K|constructor]). cbn [app]. change (steps (T "{" :: ?x) (o, t, [k])) with (steps x ((k, t) :: o, [], [])). rewrite A. reflexivity.
Qed.

(** ** Texts and their tokens *)

Definition shown (t : text) (ws : list text) : Prop :=
  forall b, exists u, uncomment "!" false (t ++ b) = u ++ uncomment "!" false b /\ closed u /\ lex u = ws.
Lemma shown_nil : shown [] [].
Proof. intro b. exists []. split; [reflexivity|]. split; [apply closed_nil|reflexivity]. Qed.
Lemma shown_app t1 w1 t2 w2 : shown t1 w1 -> shown t2 w2 -> shown (t1 ++ t2) (w1 ++ w2).
Proof.
  intros B1 B2 b. destruct (B2 b) as (u2 & E2 & C2 & W2). destruct (B1 (t2 ++ b)) as (u1 & E1 & C1 & W1).
  exists (u1 ++ u2). rewrite <- !app_assoc, E1, E2. split; [reflexivity|]. split; [now apply closed_app|]. now rewrite lex_closed_app, W1, W2.
Qed.
Lemma shown_text t : closed t -> ~ In "!"%char t -> shown t (lex t).
Proof. intros C N b. exists t. split; [|now split]. now apply uncomment_app. Qed.
Lemma shown_comment c : ~ In newline c -> shown ("!"%char :: c ++ [newline]) [].
Proof.
  intros N b. exists [newline]. split; [|split; [now apply (closed_end [])|reflexivity]].
  change (("!"%char :: c ++ [newline]) ++ b) with ("!"%char :: (c ++ [newline]) ++ b). rewrite <- app_assoc. cbn [app]. now apply uncomment_line.
Qed.
Lemma shown_line s ws : ~ In "!"%char (T s) -> lex (T s ++ [newline]) = ws -> shown (T s ++ [newline]) ws.
Proof. intros N <-. apply shown_text; [now apply closed_end|]. rewrite in_app_iff. intros [I|[I|[]]]; [tauto|discriminate]. Qed.
Lemma shown_reads t ws es : shown t ws -> acts ws es -> scone_reads t = Some es.
Proof.
  intros S A. unfold scone_reads. destruct (S []) as (u & E & _ & L). rewrite app_nil_r in E. cbn [uncomment] in E. rewrite app_nil_r in E. rewrite E, L.
  rewrite <- (app_nil_r ws), A. reflexivity.
Qed.

(** ** Surfaces *)

Definition no_sep (w : text) : Prop := is_sep w = false /\ ~ In "!"%char w.
Lemma no_sep_value w : no_sep w -> value w.
Proof. intros [H _]. repeat split; intros ->; discriminate H. Qed.
Lemma nosep_no_sep w : nosep w -> ~ In "!"%char w -> no_sep w.
Proof. intros N M. split; [|exact M]. revert N. unfold nosep. destruct w as [|c [|d w]]; try reflexivity. cbn. rewrite andb_true_r. now destruct (scone_sep c). Qed.
Lemma arg_no_mark w : forallb PropSerpentFile.arg_char w = true -> ~ In "!"%char w.
Proof. intros F I. rewrite forallb_forall in F. specialize (F _ I). discriminate. Qed.
Lemma numeral_nosep w : numeral w -> nosep w.
Proof.
  intros (_ & _ & F). unfold nosep. rewrite forallb_forall in *. intros c I. specialize (F c I). apply orb_true_iff in F as [F|F]; [now rewrite (digit_nosep c F)|].
  apply existsb_exists in F as (d & J & E). apply Ascii.eqb_eq in E. subst d. revert J. vm_compute. intuition (subst; reflexivity).
Qed.

Definition param_toks (p : param) : list text := let '(b, k, l) := p in k :: (if b then listed l else l) ++ [T ";"].
Definition good_param (p : param) : Prop := no_sep (snd (fst p)) /\ Forall no_sep (snd p) /\ (fst (fst p) = true \/ length (snd p) = 1).
Lemma param_acts p : good_param p -> acts (param_toks p) [param_node p].
Proof.
  destruct p as [[b k] l]. intros (K & F & L). cbn [fst snd] in *. unfold param_toks, param_node.
  assert (V : Forall value l) by (apply (Forall_impl _) with (2 := F); exact no_sep_value).
  apply acts_leaf; [now apply no_sep_value| |].
  - destruct b; [|exact V]. unfold listed. constructor; [repeat split; discriminate|]. apply Forall_app. split; [exact V|]. constructor; [repeat split; discriminate|constructor].
  - destruct b; [discriminate|]. destruct L as [L|L]; [discriminate|]. intros ->. discriminate L.
Qed.
Lemma keep_no_sep l : Forall no_sep l -> filter (fun w => negb (is_sep w)) l = l.
Proof. intro F. apply keep_all. rewrite Forall_forall in F. intros w I. now rewrite (proj1 (F w I)). Qed.
Lemma param_keep p : good_param p -> filter (fun w => negb (is_sep w)) (param_toks p) = snd (fst p) :: snd p.
Proof.
  destruct p as [[b k] l]. intros (K & F & _). cbn [fst snd] in *. unfold param_toks. cbn [filter]. rewrite (proj1 K). cbn [negb]. f_equal. rewrite filter_app.
  change (filter (fun w => negb (is_sep w)) [T ";"]) with (@nil text). rewrite app_nil_r. destruct b; [|now apply keep_no_sep]. unfold listed. cbn [filter].
  change (is_sep (T "(")) with true. cbn [negb]. rewrite filter_app. change (filter (fun w => negb (is_sep w)) [T ")"]) with (@nil text). rewrite app_nil_r. now apply keep_no_sep.
Qed.

Section Surf.
Context (str : R -> text) (NU : forall x, numeral (str x)).

Lemma str_nosep x : nosep (str x). Proof. apply numeral_nosep, NU. Qed.
Lemma str_word x : word (str x). Proof. destruct (numeral_facts _ (NU x)) as (A & _ & B & _). now split. Qed.
Lemma spaced_numbers l : spaced_out (numbers str l) = numbers str l.
Proof. apply spaced_id. unfold numbers. apply nosep_spread. apply Forall_map_all. exact str_nosep. Qed.
Lemma spaced_padded l : spaced_out (flat_map (fun c : R => T " " ++ str c ++ T " ") l) = flat_map (fun c : R => T " " ++ str c ++ T " ") l.
Proof. apply spaced_id. apply nosep_padded. exact str_nosep. Qed.
Lemma spaced_fmts l : spaced_out (spread (map fmt_f l)) = spread (map fmt_f l).
Proof. apply spaced_id. apply nosep_spread. apply Forall_map_all. apply nosep_fmt. Qed.
Lemma spaced_str x : spaced_out (str x) = str x.
Proof. apply spaced_id. apply str_nosep. Qed.

Lemma header_lex id t : starts_space (spaced_out t) = true ->
  lex (str_Z id ++ T " { id " ++ str_Z id ++ T "; type " ++ t) = str_Z id :: T "{" :: T "id" :: str_Z id :: T ";" :: T "type" :: lex t.
Proof.
  intro H. unfold lex. rewrite !spaced_app, !(spaced_id (str_Z id)) by apply nosep_str_Z.
  change (spaced_out (T " { id ")) with (T "  {  id "). change (spaced_out (T "; type ")) with (T " ;  type ").
  rewrite words_sep by (rewrite orb_true_iff; right; reflexivity). rewrite words_sep by reflexivity.
  rewrite words_sep by (rewrite orb_true_iff; right; reflexivity). rewrite words_sep by reflexivity.
  rewrite !(words_word _ (word_str_Z id)). reflexivity.
Qed.

Ltac body_lex :=
  rewrite header_lex by reflexivity; do 6 f_equal; unfold lex;
  rewrite ?spaced_app, ?spaced_numbers, ?spaced_padded, ?spaced_fmts, ?spaced_str;
  repeat match goal with |- context [spaced_out ?t] => let u := eval cbv in (spaced_out t) in change (spaced_out t) with u end;
  repeat match goal with
    | |- context [words ((?c :: ?a) ++ ?b)] => rewrite (words_sep (c :: a) b) by reflexivity
    | |- context [words (?a ++ (?c :: ?d) ++ ?b)] => rewrite (words_sep a ((c :: d) ++ b)) by (rewrite orb_true_iff; right; reflexivity)
    | |- context [words (?a ++ (?c :: ?d))] => rewrite (words_sep a (c :: d)) by (rewrite orb_true_iff; right; reflexivity)
    end;
  rewrite ?words_numbers, ?words_padded, ?words_fmts by exact str_word;
  repeat match goal with |- context [words (str ?x)] => rewrite (words_word (str x)) by apply str_word end;
  repeat match goal with |- context [words ?t] => let u := eval cbv in (words t) in change (words t) with u end; cbn [app map]; try reflexivity.

Definition scone_surface (s : surface) (sn : sense) : Prop :=
  surf_sense s = Some sn /\ is_torus (s_type s) = false /\
  (is_cone (s_type s) = true -> match s_coef s with x :: y :: z :: t2 :: _ => (0 <= t2)%R /\ fine6 x /\ fine6 y /\ fine6 z | _ => False end).

Lemma str_no_sep x : no_sep (str x). Proof. apply nosep_no_sep; [apply str_nosep|]. apply arg_no_mark, PropSerpentFile.numeral_arg, NU. Qed.
Lemma fmt_no_sep x : no_sep (fmt_f x). Proof. apply nosep_no_sep; [apply nosep_fmt|]. apply arg_no_mark, PropSerpentFile.fmt_f_arg. Qed.
Ltac literal := split; [reflexivity|vm_compute; intuition discriminate].
Ltac clean := first [apply str_no_sep | apply fmt_no_sep | literal].
Ltac param_ok := split; [literal|]; split; [repeat (apply Forall_cons; [clean|]); apply Forall_nil|first [left; reflexivity|right; reflexivity]].
Ltac params_ok := repeat (apply Forall_cons; [param_ok|]); apply Forall_nil.
Ltac form name ps := eexists _, name, ps; split; [reflexivity|]; split; [body_lex|split; [params_ok|literal]].
Ltac cone_form name :=
  match goal with C : true = true -> _ |- _ => destruct (C eq_refl) as (P & _) | C : is_cone ?k = true -> _ |- _ => destruct (C eq_refl) as (P & _) end;
  unfold scone_cone; match goal with |- context [Rlt_dec ?t 0] => destruct (Rlt_dec t 0) as [L|_]; [exfalso; apply (Rlt_not_le _ _ L); assumption|] end;
  match goal with |- context [Rlt_dec ?sh 0] => destruct (Rlt_dec sh 0); [|destruct (Rlt_dec 0 sh)] end;
  match goal with |- context [spread (map fmt_f ?xyz)] => match goal with |- context [T "angle " ++ str ?a ++ T "; hMin " ++ ?lo ++ T "; hMax " ++ ?hi ++ T "; } " ++ nl] =>
    form name [(true, T "vertex", map fmt_f xyz); (false, T "angle", [str a]); (false, T "hMin", [lo]); (false, T "hMax", [hi])] end end.
Lemma surface_lex s sn : scone_surface s sn ->
  exists t ty ps, write_scone_surface str s = Some t /\
    lex t = str_Z (s_id s) :: T "{" :: T "id" :: str_Z (s_id s) :: T ";" :: T "type" :: T ty :: T ";" :: flat_map param_toks ps ++ [T "}"] /\ Forall good_param ps /\ no_sep (T ty).
Proof.
  intros (E & NT & C). unfold write_scone_surface, scone_body.
  coefs s E; try discriminate NT; cbn [option_map].
  - form "plane"%string [(true, T "coeffs", map str [r; r0; r1; r2])].
  - form "xPlane"%string [(false, T "x0", [str r2])].
  - form "yPlane"%string [(false, T "y0", [str r2])].
  - form "zPlane"%string [(false, T "z0", [str r2])].
  - form "xCylinder"%string [(false, T "radius", [str r1]); (true, T "origin", [T "0.0"; str r; str r0])].
  - form "yCylinder"%string [(false, T "radius", [str r1]); (true, T "origin", [str r; T "0"; str r0])].
  - form "zCylinder"%string [(false, T "radius", [str r1]); (true, T "origin", [str r; str r0; T "0"])].
  - form "sphere"%string [(true, T "origin", map str [r; r0; r1]); (false, T "radius", [str r2])].
  - cone_form "xCone"%string.
  - cone_form "yCone"%string.
  - cone_form "zCone"%string.
  - form "quadric"%string [(true, T "coeffs", map str [r; r0; r1; r2; r3; r4; r5; r6; r7; r8])].
Qed.

Lemma in_lex c t : In c t -> is_space c = false -> exists w, In w (lex t) /\ In c w.
Proof.
  intros I S. apply LayoutProofs.in_some_word; [|exact S]. unfold spaced_out. apply in_flat_map. exists c. split; [exact I|].
  destruct (scone_sep c); cbn [In]; tauto.
Qed.
Lemma no_mark t : (forall w, In w (lex t) -> ~ In "!"%char w) -> ~ In "!"%char t.
Proof. intros H I. destruct (in_lex _ _ I eq_refl) as (w & J & K). now apply (H w). Qed.
Lemma surface_ends s t : write_scone_surface str s = Some t -> PropSerpentFile.ends t.
Proof.
  assert (B : forall t, scone_body str s = Some t -> PropSerpentFile.ends t).
  { clear t. intro t. unfold scone_body, scone_cone. destruct (s_type s); try discriminate.
    all: destruct (s_coef s) as [|a [|b [|c [|d l]]]]; try discriminate.
    all: repeat match goal with |- context [Rlt_dec ?a ?b] => destruct (Rlt_dec a b) end; try discriminate; intros [= <-]; PropSerpentFile.at_end. }
  unfold write_scone_surface. destruct (s_type s); try (intros [= <-]; PropSerpentFile.at_end);
    (destruct (scone_body str s) as [u|]; [|discriminate]; intros [= <-]; assert (BU := B u eq_refl); PropSerpentFile.at_end).
Qed.
Lemma str_Z_no_sep z : no_sep (str_Z z).
Proof. apply nosep_no_sep; [apply nosep_str_Z|]. apply arg_no_mark, PropSerpentFile.int_arg, int_word_str. Qed.

Lemma surface_dict s sn : scone_surface s sn ->
  exists t ws e, write_scone_surface str s = Some t /\ shown t ws /\ acts ws [e] /\ surf_dict str s sn e.
Proof.
  intro H. destruct (surface_lex s sn H) as (t & ty & ps & W & L & G & TY). destruct H as (E & NT & C).
  destruct (C58_scone_partial str s sn (fun x => conj (str_word x) (str_nosep x)) E NT C) as (t2 & ty2 & toks & ents & sn' & W2 & SW & F & M & N). rewrite W in W2. injection W2 as <-.
  exists t, (lex t), (Dict (str_Z (s_id s)) (Leaf (T "id") [str_Z (s_id s)] :: Leaf (T "type") [T ty] :: map param_node ps)). split; [exact W|].
  assert (K : T ty = T ty2 /\ flat_map (fun p : param => snd (fst p) :: snd p) ps = toks).
  { rewrite <- lex_words_only, L in SW. assert (Z := proj1 (str_Z_no_sep (s_id s))). cbn [filter] in SW. rewrite Z in SW. change (is_sep (T "{")) with true in SW.
    change (is_sep (T "id")) with false in SW. change (is_sep (T ";")) with true in SW. change (is_sep (T "type")) with false in SW. cbn [negb] in SW.
    assert (FK : filter (fun w => negb (is_sep w)) (flat_map param_toks ps) = flat_map (fun p : param => snd (fst p) :: snd p) ps).
    { clear - G. induction G as [|p ps G F IH]; [reflexivity|]. cbn [flat_map]. rewrite filter_app, (param_keep p G). now rewrite IH. }
    rewrite filter_app, FK in SW. change (filter (fun w => negb (is_sep w)) [T "}"]) with (@nil text) in SW. rewrite app_nil_r in SW.
    rewrite (proj1 TY) in SW. cbn [negb] in SW. injection SW as S1 S2. now split. }
  destruct K as [KT KK]. assert (Z := str_Z_no_sep (s_id s)). split; [|split].
  - apply shown_text; [eapply PropSerpentFile.ends_closed, surface_ends; exact W|]. apply no_mark. rewrite L.
    assert (FA : Forall (fun w : text => ~ In "!"%char w) (str_Z (s_id s) :: T "{" :: T "id" :: str_Z (s_id s) :: T ";" :: T "type" :: T ty :: T ";" :: flat_map param_toks ps ++ [T "}"])).
    { destruct Z as [_ Z]. destruct TY as [_ TY]. assert (LT : forall w : text, forallb (fun c => negb (Ascii.eqb c "!")) w = true -> ~ In "!"%char w).
      { intros w Fw I. rewrite forallb_forall in Fw. specialize (Fw _ I). discriminate. }
      repeat (apply Forall_cons; [first [exact Z | exact TY | apply LT; reflexivity]|]). apply Forall_app. split; [|constructor; [now apply LT|constructor]].
      clear - G LT. induction G as [|[[b k] l] ps ([_ K] & F & _) G IH]; [constructor|]. cbn [flat_map fst snd] in *. apply Forall_app. split; [|exact IH]. unfold param_toks.
      assert (FL : Forall (fun w : text => ~ In "!"%char w) l) by (apply (Forall_impl _) with (2 := F); now intros a [_ A]).
      constructor; [exact K|]. apply Forall_app. split; [|constructor; [now apply LT|constructor]]. destruct b; [|exact FL]. unfold listed. constructor; [now apply LT|]. apply Forall_app. split; [exact FL|].
      constructor; [now apply LT|constructor]. }
    rewrite Forall_forall in FA. exact FA.
  - rewrite L. apply no_sep_value in Z. apply no_sep_value in TY. assert (VI : value (T "id")) by (repeat split; discriminate). assert (VT : value (T "type")) by (repeat split; discriminate).
    change (str_Z (s_id s) :: T "{" :: T "id" :: ?x :: T ";" :: T "type" :: T ty :: T ";" :: ?y) with (str_Z (s_id s) :: T "{" :: (T "id" :: [x] ++ [T ";"]) ++ (T "type" :: [T ty] ++ [T ";"]) ++ y).
    rewrite !app_assoc. apply acts_dict; [exact Z|]. rewrite <- !app_assoc. change (Leaf (T "id") ?a :: Leaf (T "type") ?b :: ?c) with ([Leaf (T "id") a] ++ [Leaf (T "type") b] ++ c).
    apply acts_app; [apply acts_leaf; [exact VI|constructor; [exact Z|constructor]|discriminate]|]. apply acts_app; [apply acts_leaf; [exact VT|constructor; [exact TY|constructor]|discriminate]|].
    apply acts_concat. apply (Forall_impl _) with (2 := G). exact param_acts.
  - exists (str_Z (s_id s)), (str_Z (s_id s)), ty2, ps, ents, sn'. rewrite KT, KK. split; [reflexivity|]. split; [apply py_int_str_Z|]. split; [apply py_int_str_Z|].
    split; [|now split]. apply (Forall_impl _) with (2 := G). now intros p (_ & _ & A).
Qed.
End Surf.

(** ** Cells *)

Lemma scone_out_words c :
  head_ok c -> spaced false (w_items c) = true -> Forall (one_atom (fun w => glex scone_delim w [])) (words_of (w_items c)) -> Forall (fun w => length w <= 60) (words_of (w_items c)) ->
  exists out, lasting (fun f => write_scone_cell f c) out /\ closed out /\
    words out = scone_head_words c ++ [T "surfaces"; T "["] ++ words (flat_map scone_op (w_items c)) ++ [T "];"; T "}"] /\
    flat_map (fun w => glex scone_delim w []) (words (flat_map scone_op (w_items c))) = toks (w_items c).
Proof.
  intros Hh Sp A1 A2. destruct (scone_head_ok c Hh) as (W & M & B).
  set (G := flat_map scone_op (w_items c)).
  assert (R : runs_at_most 70 (scone_text c)).
  { apply runs_maxrun. unfold scone_text. rewrite maxrun_collapse, maxrun_app_ends by assumption.
    rewrite (maxrun_app_ends (T "surfaces [ ")) by (now exists (T "surfaces [")).
    pose proof (scone_runs 60 _ false ltac:(lia) Sp A2).
    change (flat_map scone_op (w_items c) ++ T " ]; }" ++ [newline]) with
      (flat_map scone_op (w_items c) ++ T " " ++ T "]; }" ++ [newline]).
    rewrite maxrun_blank_mid. change (maxrun (T "surfaces [ ")) with 8. change (maxrun (T "]; }" ++ [newline])) with 2. lia. }
  destruct (formatter_words _ R) as (out & F & Wo). exists out. split; [now apply lasting_format|]. split; [|split].
  - destruct F as (fuel & F). apply (formatter_closed fuel (scone_text c)); [|exact F].
    assert (X : scone_text c = collapse (scone_head c ++ T "surfaces [ " ++ flat_map scone_op (w_items c) ++ T " ]; }") ++ [newline]).
    { unfold scone_text. rewrite <- collapse_end. now rewrite <- !app_assoc. }
    rewrite X. now apply closed_end.
  - rewrite Wo. unfold scone_text. rewrite (proj1 (collapse_words _)), words_ends by assumption. rewrite W. f_equal.
    rewrite words_ends by (now exists (T "surfaces [")). f_equal.
    change (flat_map scone_op (w_items c) ++ T " ]; }" ++ [newline]) with
      (flat_map scone_op (w_items c) ++ " "%char :: T "]; }" ++ [newline]).
    rewrite words_app_space by reflexivity. reflexivity.
  - rewrite <- glex_words. unfold G. rewrite <- (app_nil_r (flat_map scone_op _)).
    rewrite (scone_glex _ false); [apply app_nil_r|assumption..|now left].
Qed.
Definition region_char (c : ascii) : bool := is_digit c || existsb (Ascii.eqb c) (T "-+<>:#").
Ltac few I := repeat (destruct I as [<-|I]; [first [left; reflexivity|right; reflexivity]|]); destruct I.
Lemma region_chars l c : Forall int_word (words_of l) -> In c (flat_map scone_op l) -> is_space c = true \/ region_char c = true.
Proof.
  intros F I. induction l as [|i l IH]; [destruct I|]. cbn [words_of flat_map] in *. apply Forall_app in F as [F1 F2]. apply in_app_iff in I as [I|I]; [|auto].
  destruct i as [[| |]|s]; [few I..|]. cbn [scone_op] in I. unfold is_word in F1.
  destruct (text_eqb s (T "(")); [few I|]. destruct (text_eqb s (T ")")); [few I|].
  cbn [orb negb] in F1. inversion F1 as [|x y H1 H2]; subst. right. unfold region_char. destruct (int_word_chars s H1 c I) as [-> | ->]; reflexivity.
Qed.
Lemma region_words l : Forall int_word (words_of l) -> Forall (fun w => no_sep w /\ lex w = [w]) (words (flat_map scone_op l)).
Proof.
  intro F. apply Forall_forall. intros w I. destruct (words_nonempty_nospace _ w I) as [N S].
  assert (R : forallb region_char w = true).
  { apply forallb_forall. intros c J. destruct (region_chars l c F) as [A|A]; [eapply in_words_in; eassumption| |exact A].
    rewrite forallb_forall in S. specialize (S c J). now rewrite A in S. }
  assert (P : forall c, region_char c = true -> scone_sep c = false /\ c <> "!"%char).
  { intros c H. split; [|intros ->; discriminate]. unfold region_char in H. apply orb_true_iff in H as [H|H]; [now apply digit_nosep|].
    apply existsb_exists in H as (d & J & E). apply Ascii.eqb_eq in E. subst d. revert J. vm_compute. intuition (subst; reflexivity). }
  assert (NS : nosep w) by (unfold nosep; apply forallb_forall; intros c J; rewrite forallb_forall in R; now rewrite (proj1 (P c (R c J)))).
  split; [apply nosep_no_sep; [exact NS|]|].
  - intro J. rewrite forallb_forall in R. now destruct (P _ (R _ J)).
  - rewrite lex_nosep by exact NS. now apply words_single.
Qed.
Lemma lex_stop w : nosep w -> nonspace w -> w <> [] -> lex (w ++ T ";") = [w; T ";"].
Proof.
  intros A B C. change (T ";") with [";"%char]. rewrite lex_sep by reflexivity. rewrite lex_nosep by exact A. rewrite words_single by assumption. reflexivity.
Qed.
Lemma lex_alone w : nosep w -> nonspace w -> w <> [] -> lex w = [w].
Proof. intros A B C. rewrite lex_nosep by exact A. now apply words_single. Qed.
Lemma str_Z_alone z : str_Z z <> [] /\ nonspace (str_Z z) /\ nosep (str_Z z).
Proof. destruct (str_Z_word_upto z) as [A B]. split; [exact A|]. split; [exact B|apply nosep_str_Z]. Qed.

Lemma flat_lex_values l : Forall (fun w => no_sep w /\ lex w = [w]) l -> flat_map lex l = l.
Proof. induction 1 as [|w l [_ E] F IH]; [reflexivity|]. cbn [flat_map]. now rewrite E, IH. Qed.

Lemma cell_node show c r : length (str_Z (g_id c)) <= 50 -> length (str_Z (g_mat c)) <= 50 ->
  (forall f, g_fill c = Some f -> exists n, num f n /\ length (str_Z (n + 1)) <= 50) -> good_gcell show c r ->
  exists t ws e, lasting (fun f => scone_cell show f c) t /\ shown t ws /\ acts ws [e] /\ forall r, expr (toks (g_items c)) r -> cell_dict c r e.
Proof.
  intros LI LM LF (_ & _ & _ & _ & SP & E & GW & GU & GF & _).
  assert (NU : forall u, g_univ c = Some u -> numeral u) by (intros u H; destruct (GU u H); now apply number_numeral).
  assert (IW : Forall int_word (words_of (g_items c))) by (apply (Forall_impl _) with (2 := GW); now intros a [A _]).
  assert (WU : forall w, numeral w -> word_upto 50 w).
  { intros w N. destruct (numeral_facts w N) as (A & B & D & _). split; [exact A|]. split; [exact D|lia]. }
  assert (HO : forall fl, (forall f, fl = Some f -> word_upto 50 f) -> exists out,
     lasting (fun f => write_scone_cell f (WCell (str_Z (g_id c)) (g_mat c) (g_dens c) (g_items c) (g_univ c) fl (g_offset c) (g_rot c) (show (g_imp c)))) out /\ closed out /\
     words out = scone_head_words (WCell (str_Z (g_id c)) (g_mat c) (g_dens c) (g_items c) (g_univ c) fl (g_offset c) (g_rot c) (show (g_imp c))) ++
       [T "surfaces"; T "["] ++ words (flat_map scone_op (g_items c)) ++ [T "];"; T "}"] /\
     flat_map (fun w => glex scone_delim w []) (words (flat_map scone_op (g_items c))) = toks (g_items c)).
  { intros fl HF. apply scone_out_words.
    - unfold head_ok. cbn [w_id w_mat w_univ w_fill]. split; [|split; [exact LM|split; auto]]. destruct (str_Z_word_upto (g_id c)) as [A B]. split; [exact A|]. now split.
    - exact SP.
    - cbn [w_items]. apply (Forall_impl _) with (2 := IW). exact int_word_scone.
    - cbn [w_items]. apply (Forall_impl _) with (2 := GW). now intros a [_ A]. }
  set (ws := words (flat_map scone_op (g_items c))) in *. assert (RW := region_words (g_items c) IW). fold ws in RW.
  assert (VW : Forall value ws) by (apply (Forall_impl _) with (2 := RW); intros w [A _]; now apply no_sep_value).
  destruct (str_Z_alone (g_id c)) as (I1 & I2 & I3). assert (IV := no_sep_value _ (str_Z_no_sep (g_id c))). assert (IM := proj2 (str_Z_no_sep (g_id c))).
  assert (VL : forall s, text_eqb (T s) (T ";") || text_eqb (T s) (T "{") || text_eqb (T s) (T "}") = false -> value (T s)).
  { intros s0 H. apply orb_false_iff in H as [H H3]. apply orb_false_iff in H as [H1 H2]. repeat split; intro K; rewrite K in *; discriminate. }
  assert (GO : forall fl W what, (forall f, fl = Some f -> word_upto 50 f) ->
    flat_map lex (T "filltype" :: match fl with
                  | Some f => [T "uni;"; T "universe"; f ++ T ";"]
                  | None => [T "mat;"; T "material"; if (g_mat c =? 0)%Z then T "void;" else T "m" ++ str_Z (g_mat c) ++ T ";"]
                  end) = W ->
    Forall (fun w => ~ In "!"%char w) W -> acts W what ->
    exists t tk, lasting (fun f => write_scone_cell f (WCell (str_Z (g_id c)) (g_mat c) (g_dens c) (g_items c) (g_univ c) fl (g_offset c) (g_rot c) (show (g_imp c)))) t /\ shown t tk /\
      acts tk [Dict (str_Z (g_id c)) ([Leaf (T "type") [T "unionCell"]; Leaf (T "id") [str_Z (g_id c)]] ++ what ++ [Leaf (T "surfaces") (T "[" :: ws ++ [T "]"])])]).
  { intros fl W what HF EW MW AW. destruct (HO fl HF) as (t & L & C & Wt & _). exists t, (lex t). split; [exact L|].
    assert (LT : lex t = str_Z (g_id c) :: T "{" :: ((T "type" :: [T "unionCell"] ++ [T ";"]) ++ (T "id" :: [str_Z (g_id c)] ++ [T ";"]) ++ W ++ (T "surfaces" :: (T "[" :: ws ++ [T "]"]) ++ [T ";"])) ++ [T "}"]).
    { rewrite lex_of_words, Wt. unfold scone_head_words. cbn [w_id w_fill w_mat]. rewrite <- EW.
      set (tail := match fl with Some f => _ | None => _ end). cbn [app flat_map]. rewrite (lex_alone (str_Z (g_id c))) by assumption. rewrite lex_stop by assumption.
      change (lex (T "{")) with [T "{"]. change (lex (T "type")) with [T "type"]. change (lex (T "unionCell;")) with [T "unionCell"; T ";"]. change (lex (T "id")) with [T "id"].
      change (lex (T "filltype")) with [T "filltype"]. cbn [app]. do 9 f_equal. rewrite <- !app_assoc. rewrite flat_map_app. f_equal. cbn [app flat_map].
      change (lex (T "surfaces")) with [T "surfaces"]. change (lex (T "[")) with [T "["]. cbn [app]. do 2 f_equal. rewrite <- !app_assoc. rewrite flat_map_app, (flat_lex_values ws RW). reflexivity. }
    split.
    - apply shown_text; [exact C|]. apply no_mark. rewrite LT.
      assert (LM2 : forall w : text, forallb (fun c => negb (Ascii.eqb c "!")) w = true -> ~ In "!"%char w).
      { intros w Fw I. rewrite forallb_forall in Fw. specialize (Fw _ I). discriminate. }
      assert (FA : Forall (fun w => ~ In "!"%char w) (str_Z (g_id c) :: T "{" :: ((T "type" :: [T "unionCell"] ++ [T ";"]) ++ (T "id" :: [str_Z (g_id c)] ++ [T ";"]) ++ W ++ (T "surfaces" :: (T "[" :: ws ++ [T "]"]) ++ [T ";"])) ++ [T "}"])).
      { cbn [app]. repeat (apply Forall_cons; [first [exact IM | apply LM2; reflexivity]|]). rewrite <- !app_assoc. apply Forall_app. split; [exact MW|]. cbn [app].
        repeat (apply Forall_cons; [apply LM2; reflexivity|]). rewrite <- !app_assoc. apply Forall_app. split; [|cbn [app]; repeat (apply Forall_cons; [apply LM2; reflexivity|]); constructor].
        apply (Forall_impl _) with (2 := RW). now intros w [[_ A] _]. }
      rewrite Forall_forall in FA. exact FA.
    - rewrite LT. apply acts_dict; [exact IV|]. change ([Leaf (T "type") ?a; Leaf (T "id") ?b] ++ ?x) with ([Leaf (T "type") a] ++ [Leaf (T "id") b] ++ x).
      apply acts_app; [apply acts_leaf; [now apply VL|constructor; [now apply VL|constructor]|discriminate]|].
      apply acts_app; [apply acts_leaf; [now apply VL|constructor; [exact IV|constructor]|discriminate]|]. apply acts_app; [exact AW|].
      apply acts_leaf; [now apply VL| |discriminate]. constructor; [now apply VL|]. apply Forall_app. split; [exact VW|]. constructor; [now apply VL|constructor]. }
  assert (X : flat_map (fun w => glex scone_delim w []) ws = toks (g_items c)) by (destruct (HO None) as (_ & _ & _ & _ & X); [discriminate|exact X]).
  assert (FIN : forall what, match g_fill c with
    | Some f => exists u n, what = [Leaf (T "filltype") [T "uni"]; Leaf (T "universe") [u]] /\ num f n /\ num u (n + 1)
    | None => exists m, what = [Leaf (T "filltype") [T "mat"]; Leaf (T "material") [m]] /\
                if (g_mat c =? 0)%Z then m = T "void" else exists w, m = T "m" ++ w /\ num w (g_mat c)
    end -> forall r, expr (toks (g_items c)) r ->
    cell_dict c r (Dict (str_Z (g_id c)) ([Leaf (T "type") [T "unionCell"]; Leaf (T "id") [str_Z (g_id c)]] ++ what ++ [Leaf (T "surfaces") (T "[" :: ws ++ [T "]"])]))).
  { intros what H r2 E2. exists (str_Z (g_id c)), (str_Z (g_id c)), what, ws, r2. split; [reflexivity|]. split; [apply py_int_str_Z|]. split; [apply py_int_str_Z|]. split; [exact H|].
    rewrite X. now split. }
  unfold scone_cell, to_w. cbn [g_id g_mat g_dens g_text g_items g_univ g_fill g_offset g_rot g_imp]. destruct (g_fill c) as [f|].
  - destruct (LF f eq_refl) as (n & N & LN). unfold num in N. rewrite N. destruct (str_Z_alone (n + 1)) as (N1 & N2 & N3).
    destruct (GO (Some (str_Z (n + 1))) ((T "filltype" :: [T "uni"] ++ [T ";"]) ++ (T "universe" :: [str_Z (n + 1)] ++ [T ";"])) ([Leaf (T "filltype") [T "uni"]] ++ [Leaf (T "universe") [str_Z (n + 1)]])) as (t & tk & L & S & A).
    + intros g [= <-]. split; [exact N1|]. now split.
    + cbn [flat_map]. rewrite lex_stop by assumption. reflexivity.
    + cbn [app]. repeat (apply Forall_cons; [first [exact (proj2 (str_Z_no_sep (n + 1))) | vm_compute; intuition discriminate]|]). constructor.
    + apply acts_app; (apply acts_leaf; [now apply VL|constructor; [|constructor]|discriminate]); [now apply VL|apply no_sep_value, str_Z_no_sep].
    + exists t, tk. eexists. split; [exact L|]. split; [exact S|]. split; [exact A|]. apply FIN. exists (str_Z (n + 1)), n. split; [reflexivity|]. split; [exact N|apply py_int_str_Z].
  - destruct (str_Z_alone (g_mat c)) as (M1 & M2 & M3).
    assert (MM : exists m, lex (if (g_mat c =? 0)%Z then T "void;" else T "m" ++ str_Z (g_mat c) ++ T ";") = [m; T ";"] /\ no_sep m /\
      if (g_mat c =? 0)%Z then m = T "void" else exists w, m = T "m" ++ w /\ num w (g_mat c)).
    { destruct (g_mat c =? 0)%Z.
      - exists (T "void"). split; [reflexivity|]. split; [split; [reflexivity|vm_compute; intuition discriminate]|reflexivity].
      - exists (T "m" ++ str_Z (g_mat c)). split; [|split; [|exists (str_Z (g_mat c)); split; [reflexivity|apply py_int_str_Z]]].
        + rewrite app_assoc. apply lex_stop; [now apply nosep_app|now apply nonspace_app|discriminate].
        + apply nosep_no_sep; [now apply nosep_app|]. rewrite in_app_iff. intros [I|I]; [revert I; vm_compute; intuition discriminate|]. exact (proj2 (str_Z_no_sep (g_mat c)) I). }
    destruct MM as (m & LX & NM & HM).
    destruct (GO None ((T "filltype" :: [T "mat"] ++ [T ";"]) ++ (T "material" :: [m] ++ [T ";"])) ([Leaf (T "filltype") [T "mat"]] ++ [Leaf (T "material") [m]])) as (t & tk & L & S & A).
    + discriminate.
    + cbn [flat_map]. rewrite LX. reflexivity.
    + cbn [app]. repeat (apply Forall_cons; [first [exact (proj2 NM) | vm_compute; intuition discriminate]|]). constructor.
    + apply acts_app; (apply acts_leaf; [now apply VL|constructor; [|constructor]|discriminate]); [now apply VL|now apply no_sep_value].
    + exists t, tk. eexists. split; [exact L|]. split; [exact S|]. split; [exact A|]. apply FIN. exists m. now split.
Qed.

(** ** Universes *)

Lemma lead_blank w b : lead (w ++ blank :: b) <= length w.
Proof. induction w as [|c w IH]; [cbn; lia|]. cbn [app lead length]. destruct (Ascii.eqb c blank); lia. Qed.
Lemma maxrun_concat_sp n l x : Forall (fun w => length w <= 50) l -> 50 <= n -> maxrun x <= n -> maxrun (concat_sp l ++ x) <= n.
Proof.
  intros F N X. induction F as [|w l L F IH]; [exact X|]. assert (E : concat_sp (w :: l) ++ x = w ++ T " " ++ (concat_sp l ++ x)).
  { change (concat_sp (w :: l)) with ((w ++ T " ") ++ concat_sp l). now rewrite <- !app_assoc. }
  rewrite E, maxrun_blank_mid. pose proof (maxrun_noblank w). lia.
Qed.
Lemma lead_concat_sp l x : Forall (fun w => length w <= 50) l -> lead (concat_sp l ++ T "); " ++ x) <= 50.
Proof.
  intro F. destruct F as [|w l L F]; [cbn; lia|]. assert (E : concat_sp (w :: l) ++ T "); " ++ x = w ++ blank :: (concat_sp l ++ T "); " ++ x)).
  { change (concat_sp (w :: l)) with ((w ++ T " ") ++ concat_sp l). now rewrite <- !app_assoc. }
  rewrite E. pose proof (lead_blank w (concat_sp l ++ T "); " ++ x)). lia.
Qed.
Definition plain_word (w : text) : Prop := w <> [] /\ nonspace w /\ nosep w /\ ~ In "!"%char w /\ length w <= 50.
Lemma plain_no_sep w : plain_word w -> no_sep w.
Proof. intros (_ & _ & A & B & _). now apply nosep_no_sep. Qed.
Lemma plain_value w : plain_word w -> value w.
Proof. intro P. now apply no_sep_value, plain_no_sep. Qed.
Lemma plain_str z : length (str_Z z) <= 50 -> plain_word (str_Z z).
Proof. intro L. destruct (str_Z_alone z) as (A & B & C). repeat split; try assumption. exact (proj2 (str_Z_no_sep z)). Qed.
Lemma numeral_plain w : numeral w -> plain_word w.
Proof.
  intro N. destruct (numeral_facts w N) as (A & B & D & _). repeat split; [exact A|exact D|now apply numeral_nosep| |lia]. now apply arg_no_mark, PropSerpentFile.numeral_arg.
Qed.
Lemma lex_concat_sp l x : Forall plain_word l -> lex (concat_sp l ++ x) = l ++ lex x.
Proof.
  induction 1 as [|w l (A & B & C & _) F IH]; [reflexivity|]. assert (E : concat_sp (w :: l) ++ x = (w ++ [blank]) ++ (concat_sp l ++ x)).
  { change (concat_sp (w :: l)) with ((w ++ [blank]) ++ concat_sp l). now rewrite <- !app_assoc. }
  rewrite E, lex_closed_app by now apply closed_end. rewrite IH. unfold lex at 1. rewrite spaced_app, (spaced_id w) by exact C. change (spaced_out [blank]) with [blank].
  rewrite words_app_space by reflexivity. now rewrite words_single.
Qed.


(** A piece of text that may be followed by anything: its tokens and its entries. *)
Definition piece (t : text) (ws : list text) (es : list node) : Prop :=
  (forall x, lex (t ++ x) = ws ++ lex x) /\ (forall x, maxrun x <= 65 -> maxrun (t ++ x) <= 65) /\ Forall (fun w => ~ In "!"%char w) ws /\ acts ws es.
Lemma piece_nil : piece [] [] [].
Proof. split; [reflexivity|]. split; [trivial|]. split; [constructor|apply acts_nil]. Qed.
Lemma piece_app t1 w1 e1 t2 w2 e2 : piece t1 w1 e1 -> piece t2 w2 e2 -> piece (t1 ++ t2) (w1 ++ w2) (e1 ++ e2).
Proof.
  intros (A1 & B1 & C1 & D1) (A2 & B2 & C2 & D2). split; [intro x; now rewrite <- app_assoc, A1, A2, app_assoc|]. split; [intros x H; rewrite <- app_assoc; auto|].
  split; [apply Forall_app; now split|now apply acts_app].
Qed.
Lemma piece_leaf k v : plain_word k -> plain_word v -> piece (k ++ T " " ++ v ++ T "; ") (k :: [v] ++ [T ";"]) [Leaf k [v]].
Proof.
  intros K V. assert (KV := plain_value _ K). assert (VV := plain_value _ V). destruct K as (K1 & K2 & K3 & K4 & K5). destruct V as (V1 & V2 & V3 & V4 & V5). split; [|split; [|split]].
  - intro x. assert (E : (k ++ T " " ++ v ++ T "; ") ++ x = (k ++ T " ") ++ ((v ++ T ";") ++ [blank]) ++ x) by now rewrite <- !app_assoc.
    rewrite E, (lex_closed_app (k ++ T " ")) by now apply (closed_end k blank). rewrite (lex_closed_app ((v ++ T ";") ++ [blank])) by now apply closed_end.
    assert (L1 : lex (k ++ T " ") = [k]) by (rewrite lex_of_words; change (T " ") with [blank]; rewrite words_app_space by reflexivity; rewrite words_single by assumption; cbn [flat_map app words]; now rewrite lex_alone).
    assert (L2 : lex ((v ++ T ";") ++ [blank]) = [v; T ";"]).
    { rewrite lex_of_words. rewrite words_app_space by reflexivity. rewrite words_single; [|destruct v; discriminate|now apply nonspace_app]. cbn [flat_map app words]. now rewrite lex_stop. }
    rewrite L1, L2. reflexivity.
  - intros x X. rewrite <- !app_assoc, maxrun_blank_mid. change (T "; " ++ x) with (T ";" ++ T " " ++ x). rewrite (app_assoc v), maxrun_blank_mid.
    pose proof (maxrun_noblank k). pose proof (maxrun_noblank (v ++ T ";")). rewrite app_length in *. cbn [length T list_ascii_of_string] in *. lia.
  - repeat (apply Forall_cons; [first [assumption | vm_compute; intuition discriminate]|]). constructor.
  - apply acts_leaf; [exact KV|constructor; [exact VV|constructor]|discriminate].
Qed.
Lemma piece_list k l : plain_word k -> Forall plain_word l -> piece (k ++ T " (" ++ concat_sp l ++ T "); ") (k :: listed l ++ [T ";"]) [Leaf k (listed l)].
Proof.
  intros K V. assert (KV := plain_value _ K). destruct K as (K1 & K2 & K3 & K4 & K5). split; [|split; [|split]].
  - intro x. rewrite <- !app_assoc. change (T " (" ++ ?y) with (T " " ++ "("%char :: y). rewrite (app_assoc k (T " ")). rewrite (lex_sep (k ++ T " ")) by reflexivity.
    assert (L1 : lex (k ++ T " ") = [k]) by (rewrite lex_of_words; change (T " ") with [blank]; rewrite words_app_space by reflexivity; rewrite words_single by assumption; cbn [flat_map app words]; now rewrite lex_alone).
    rewrite L1, lex_concat_sp by exact V. rewrite (lex_closed_app (T "); ")) by now apply (closed_end (T ");")). unfold listed. cbn [app]. do 2 f_equal. rewrite <- !app_assoc. reflexivity.
  - intros x X. rewrite <- !app_assoc. change (T " (" ++ ?y) with (T " " ++ T "(" ++ y). rewrite maxrun_blank_mid.
    assert (FL : Forall (fun w => length w <= 50) l) by (apply (Forall_impl _) with (2 := V); now intros w (_ & _ & _ & _ & A)).
    pose proof (maxrun_app (T "(") (concat_sp l ++ T "); " ++ x)) as M. pose proof (lead_concat_sp l x FL). pose proof (maxrun_noblank k).
    assert (M2 : maxrun (concat_sp l ++ T "); " ++ x) <= 65).
    { apply maxrun_concat_sp; [exact FL|lia|]. change (T "); " ++ x) with (T ");" ++ T " " ++ x). rewrite maxrun_blank_mid. change (maxrun (T ");")) with 2. lia. }
    change (maxrun (T "(")) with 1 in M. lia.
  - assert (FL : Forall (fun w : text => ~ In "!"%char w) l) by (apply (Forall_impl _) with (2 := V); now intros w (_ & _ & _ & A & _)).
    unfold listed. cbn [app]. constructor; [exact K4|]. constructor; [vm_compute; intuition discriminate|]. rewrite <- app_assoc. apply Forall_app. split; [exact FL|].
    repeat (apply Forall_cons; [vm_compute; intuition discriminate|]). constructor.
  - apply acts_leaf; [exact KV| |discriminate]. unfold listed. constructor; [repeat split; discriminate|]. apply Forall_app. split; [apply (Forall_impl _) with (2 := V); exact plain_value|].
    constructor; [repeat split; discriminate|constructor].
Qed.
Lemma dict_out k body ws es : plain_word k -> piece body ws es ->
  exists out tk, lasting (fun f => mcnp_line_formatter f (collapse (k ++ T " { " ++ body ++ T " } " ++ [newline]))) out /\ shown out tk /\ acts tk [Dict k es].
Proof.
  intros K (L & M & N & A). assert (KV := plain_value _ K). destruct K as (K1 & K2 & K3 & K4 & K5). set (raw := k ++ T " { " ++ body ++ T " } " ++ [newline]).
  assert (R : runs_at_most 70 (collapse raw)).
  { apply runs_maxrun. rewrite maxrun_collapse. unfold raw. change (T " { " ++ ?x) with (T " " ++ T "{" ++ T " " ++ x). rewrite !maxrun_blank_mid.
    pose proof (maxrun_noblank k). change (maxrun (T "{")) with 1. assert (B := M (T " } " ++ [newline])). change (maxrun (T " } " ++ [newline])) with 1 in B. lia. }
  destruct (formatter_words _ R) as (out & F & Wo). exists out, (lex out). split; [now apply lasting_format|].
  assert (LO : lex out = k :: T "{" :: ws ++ [T "}"]).
  { rewrite lex_of_words, Wo, (proj1 (collapse_words _)), <- lex_of_words. unfold raw. change (T " { " ++ ?x) with (T " " ++ "{"%char :: T " " ++ x). rewrite (app_assoc k (T " ")).
    rewrite (lex_sep (k ++ T " ")) by reflexivity. rewrite (lex_closed_app (T " ")) by now apply (closed_end [] blank). rewrite L.
    assert (L1 : lex (k ++ T " ") = [k]) by (rewrite lex_of_words; change (T " ") with [blank]; rewrite words_app_space by reflexivity; rewrite words_single by assumption; cbn [flat_map app words]; now rewrite lex_alone).
    rewrite L1. reflexivity. }
  split.
  - apply shown_text.
    + destruct F as (fuel & F). apply (formatter_closed fuel (collapse raw)); [|exact F].
      assert (X : collapse raw = collapse (k ++ T " { " ++ body ++ T " } ") ++ [newline]).
      { unfold raw. rewrite <- collapse_end. now rewrite <- !app_assoc. }
      rewrite X. now apply closed_end.
    + apply no_mark. rewrite LO. intros w [<-|[<-|I]]; [exact K4|vm_compute; intuition discriminate|]. apply in_app_iff in I as [I|[<-|[]]]; [|vm_compute; intuition discriminate].
      rewrite Forall_forall in N. now apply N.
  - rewrite LO. now apply acts_dict.
Qed.

Definition small (u : ucard) : Prop :=
  length (str_Z (u_id u + 1)) <= 50 /\ length (str_Z (u_border u)) <= 50 /\ Forall (fun i => length (str_Z i) <= 50) (u_cells u) /\
  (forall f, u_fill u = Some f -> length (str_Z (f + 1)) <= 40) /\ (forall o, u_offset u = Some o -> length o = 3 /\ Forall numeral o).
Ltac plain_lit := split; [discriminate|]; split; [reflexivity|]; split; [reflexivity|]; split; [vm_compute; intuition discriminate|vm_compute; lia].
(** Every universe card that carries no rotation. *)
Lemma universe_node u : u_rot u = None -> small u ->
  exists t ws e, lasting (fun f => write_scone_universe f u) t /\ shown t ws /\ acts ws [e] /\ univ_dict u e.
Proof.
  intros NR (LI & LB & LC & LF & LO). assert (PI := plain_str _ LI). assert (PB := plain_str _ LB).
  assert (PO : exists place wp, piece place wp match u_offset u with Some o => [Leaf (T "translation") (listed o)] | None => [] end /\
    place = match u_offset u with Some o => T "translation (" ++ concat_sp (firstn 3 o) ++ T "); " | None => [] end).
  { destruct (u_offset u) as [o|]; [|exists [], []; split; [apply piece_nil|reflexivity]]. destruct (LO o eq_refl) as [L3 FN].
    exists (T "translation" ++ T " (" ++ concat_sp o ++ T "); "). eexists. split; [apply piece_list; [plain_lit|]|].
    - apply (Forall_impl _) with (2 := FN). exact numeral_plain.
    - rewrite firstn_all2 by lia. reflexivity. }
  destruct PO as (place & wp & PP & EP). assert (PID := piece_leaf (T "id") _ ltac:(plain_lit) PI).
  assert (GO : forall k body wb eb, plain_word k -> piece body wb eb ->
    scone_universe_text u = Some (collapse (k ++ T " { " ++ (body ++ (T "id" ++ T " " ++ str_Z (u_id u + 1) ++ T "; ") ++ place) ++ T " } " ++ [newline])) ->
    (forall e, e = Dict k (eb ++ [Leaf (T "id") [str_Z (u_id u + 1)]] ++ match u_offset u with Some o => [Leaf (T "translation") (listed o)] | None => [] end) -> univ_dict u e) ->
    exists t ws e, lasting (fun f => write_scone_universe f u) t /\ shown t ws /\ acts ws [e] /\ univ_dict u e).
  { intros k body wb eb PK PBD ET HU. destruct (dict_out k _ _ _ PK (piece_app _ _ _ _ _ _ PBD (piece_app _ _ _ _ _ _ PID PP))) as (out & tk & L & S & A).
    exists out, tk. eexists. split; [|split; [exact S|split; [exact A|now apply HU]]]. destruct L as (n & L). exists n. intros f LE. unfold write_scone_universe. rewrite ET. now apply L. }
  destruct (u_root u) eqn:RT.
  - assert (PF : exists fill wf ef, piece fill wf ef /\ fill = match u_fill u with Some f => T "fill u<" ++ str_Z (f + 1) ++ T ">; " | None => [] end /\
      match u_fill u with Some f => exists w, ef = [Leaf (T "fill") [T "u<" ++ w ++ T ">"]] /\ num w (f + 1) | None => ef = [] end).
    { destruct (u_fill u) as [f|]; [|exists [], [], []; split; [apply piece_nil|now split]]. specialize (LF f eq_refl).
      assert (PW : plain_word (T "u<" ++ str_Z (f + 1) ++ T ">")).
      { destruct (str_Z_alone (f + 1)) as (A & B & C). split; [discriminate|]. split; [apply nonspace_app; [reflexivity|now apply nonspace_app]|].
        split; [apply nosep_app; [reflexivity|now apply nosep_app]|]. split; [|rewrite !app_length; cbn [length T list_ascii_of_string]; lia].
        rewrite !in_app_iff. intros [I|[I|I]]; [revert I; vm_compute; intuition discriminate| |revert I; vm_compute; intuition discriminate]. exact (proj2 (str_Z_no_sep (f + 1)) I). }
      exists (T "fill" ++ T " " ++ (T "u<" ++ str_Z (f + 1) ++ T ">") ++ T "; "). do 2 eexists. split; [apply piece_leaf; [plain_lit|exact PW]|]. split; [now rewrite <- !app_assoc|].
      exists (str_Z (f + 1)). split; [reflexivity|apply py_int_str_Z]. }
    destruct PF as (fill & wf & ef & PF & EF & HF).
    eapply (GO (T "root") ((T "type" ++ T " " ++ T "rootUniverse" ++ T "; ") ++ (T "border" ++ T " " ++ str_Z (u_border u) ++ T "; ") ++ fill)); [plain_lit| | |].
    + apply piece_app; [apply piece_leaf; plain_lit|]. apply piece_app; [apply piece_leaf; [plain_lit|exact PB]|exact PF].
    + unfold scone_universe_text. rewrite NR, RT, EP, EF. match goal with |- Some (collapse ?a) = Some (collapse ?b) => assert (X : a = b); [|now rewrite X] end. rewrite <- !app_assoc. reflexivity.
    + intros e ->. do 3 eexists. split; [reflexivity|]. split; [apply py_int_str_Z|]. rewrite RT. split; [reflexivity|]. exists (str_Z (u_border u)), ef. split; [reflexivity|]. split; [apply py_int_str_Z|exact HF].
  - assert (FC : Forall plain_word (map str_Z (u_cells u))) by (apply Forall_map; apply (Forall_impl _) with (2 := LC); intros i; apply plain_str).
    assert (EC : flat_map (fun i => str_Z i ++ T " ") (u_cells u) = concat_sp (map str_Z (u_cells u))).
    { unfold concat_sp. clear. induction (u_cells u) as [|i l IH]; [reflexivity|]. cbn [map flat_map]. now rewrite IH. }
    eapply (GO (str_Z (u_id u + 1)) ((T "type" ++ T " " ++ T "cellUniverse" ++ T "; ") ++ (T "cells" ++ T " (" ++ concat_sp (map str_Z (u_cells u)) ++ T "); "))); [exact PI| | |].
    + apply piece_app; [apply piece_leaf; plain_lit|]. apply piece_list; [plain_lit|exact FC].
    + unfold scone_universe_text. rewrite NR, RT, EP, EC. match goal with |- Some (collapse ?a) = Some (collapse ?b) => assert (X : a = b); [|now rewrite X] end. rewrite <- !app_assoc. reflexivity.
    + intros e ->. do 3 eexists. split; [reflexivity|]. split; [apply py_int_str_Z|]. rewrite RT. split; [apply py_int_str_Z|]. exists (map str_Z (u_cells u)). split; [reflexivity|].
      clear. induction (u_cells u) as [|i l IH]; constructor; [apply py_int_str_Z|exact IH].
Qed.

(** ** Materials *)

Definition scone_material (m : material) (c : list (text * Q)) : Prop :=
  scone_densities (m_dens m) (m_comp m) = Some c /\ zaid (m_num m) /\ ~ In newline (m_name m) /\ Forall (fun e => zaid (fst e)) (m_comp m) /\
  (forall k, m_colour m = Some k -> Forall (fun w => forallb is_digit w = true) (words (T k))).
Lemma digits_nosep w : forallb is_digit w = true -> nosep w.
Proof. unfold nosep. rewrite !forallb_forall. intros H c I. now rewrite (digit_nosep c (H c I)). Qed.
Lemma digits_no_mark w : forallb is_digit w = true -> ~ In "!"%char w.
Proof. intros H I. rewrite forallb_forall in H. specialize (H _ I). discriminate. Qed.
Lemma lex_line w x : closed w -> lex (w ++ x) = lex w ++ lex x.
Proof. apply lex_closed_app. Qed.
Definition nuclide_toks (e : text * Q) : list text := (fst e ++ T ".03") :: [fmt_e 6 (snd e)] ++ [T ";"].
Lemma arg_nosep w : forallb (fun c => is_digit c || existsb (Ascii.eqb c) (T "-+.e")) w = true -> nosep w.
Proof.
  intro F. unfold nosep. rewrite forallb_forall in *. intros c I. specialize (F c I). apply orb_true_iff in F as [F|F]; [now rewrite (digit_nosep c F)|].
  apply existsb_exists in F as (d & J & E). apply Ascii.eqb_eq in E. subst d. revert J. vm_compute. intuition (subst; reflexivity).
Qed.
Lemma fmt_e_nosep q : nosep (fmt_e 6 q).
Proof.
  unfold fmt_e. destruct (sci 6 q) as [m e]. unfold sci_text. destruct (exp_digits_ok (Z.abs_N e)) as (_ & A3 & _).
  unfold nosep. rewrite !forallb_app. rewrite (digits_nosep _ (fix_digits_digits 1 _)), (digits_nosep _ (fix_digits_digits 6 m)), (digits_nosep _ A3). destruct (Qle_bool 0 q), (e <? 0)%Z; reflexivity.
Qed.
Lemma nuclide_lex e x : zaid (fst e) -> lex (scone_nuclide e ++ x) = nuclide_toks e ++ lex x.
Proof.
  intros [ZN ZD]. destruct (PropFlukaMat.fmt_e_word 6 (snd e)) as [W1 W2]. 
  assert (E : scone_nuclide e ++ x = ((fst e ++ T ".03") ++ [blank]) ++ ((fmt_e 6 (snd e) ++ T ";") ++ [blank; newline]) ++ x).
  { unfold scone_nuclide. rewrite <- !app_assoc. reflexivity. }
  rewrite E, (lex_closed_app ((fst e ++ T ".03") ++ [blank])) by now apply closed_end.
  rewrite (lex_closed_app ((fmt_e 6 (snd e) ++ T ";") ++ [blank; newline])) by (change [blank; newline] with ([blank] ++ [newline]); rewrite app_assoc; now apply closed_end).
  assert (NZ : nonspace (fst e ++ T ".03")).
  { apply nonspace_app; [|reflexivity]. exact (proj2 (wordy_nospace _ (zaid_wordy _ (conj ZN ZD)))). }
  assert (L1 : lex ((fst e ++ T ".03") ++ [blank]) = [fst e ++ T ".03"]).
  { rewrite lex_of_words, words_app_space by reflexivity. rewrite words_single; [|destruct (fst e); discriminate|exact NZ]. cbn [flat_map app words].
    rewrite lex_alone; [reflexivity|apply nosep_app; [now apply digits_nosep|reflexivity]|exact NZ|destruct (fst e); discriminate]. }
  assert (L2 : lex ((fmt_e 6 (snd e) ++ T ";") ++ [blank; newline]) = [fmt_e 6 (snd e); T ";"]).
  { rewrite lex_of_words, words_app_space by reflexivity. rewrite words_single; [|destruct (fmt_e 6 (snd e)); discriminate|now apply nonspace_app].
    change (words [newline]) with (@nil text). cbn [flat_map app]. rewrite app_nil_r. apply lex_stop; [apply fmt_e_nosep|exact W2|exact W1]. }
  rewrite L1, L2. reflexivity.
Qed.
Lemma densities_zaids dens comp c : scone_densities dens comp = Some c -> Forall (fun e => zaid (fst e)) comp -> Forall (fun e => zaid (fst e)) c.
Proof.
  intros D F. unfold scone_densities in D. assert (G : forall k, Forall (fun e => zaid (fst e)) (map (fun e : text * Q => (fst e, (snd e * k)%Q)) comp)).
  { intro k. apply Forall_map. apply (Forall_impl _) with (2 := F). tauto. }
  destruct (negb (Qle_bool dens 0)); [injection D as <-; apply G|]. destruct (zaids comp); [|discriminate].
  cbv zeta in D. destruct (Qeq_bool _ 0); [discriminate|]. injection D as <-. apply G.
Qed.
Lemma nuclide_closed e : closed (scone_nuclide e).
Proof. unfold scone_nuclide. rewrite !app_assoc. now apply closed_end. Qed.
Lemma nuclides_lex c x : Forall (fun e => zaid (fst e)) c -> lex (concat (map scone_nuclide c) ++ x) = flat_map nuclide_toks c ++ lex x.
Proof. induction 1 as [|e c Z F IH]; [reflexivity|]. cbn [map concat flat_map]. rewrite <- app_assoc, nuclide_lex by exact Z. now rewrite IH, app_assoc. Qed.

Lemma material_node m c : scone_material m c ->
  exists t ws e, write_scone_material m = Some t /\ shown t ws /\ acts ws [e] /\ mat_dict m c e.
Proof.
  intros (D & ZN & NN & F & NC). unfold write_scone_material. rewrite D. assert (FC := densities_zaids _ _ _ D F).
  set (ct := match m_colour m with Some k => T "rgb (" ++ T k ++ T "); " ++ [newline] | None => [] end).
  set (cw := match m_colour m with Some k => T "rgb" :: listed (words (T k)) ++ [T ";"] | None => [] end).
  set (cn := match m_colour m with Some k => [Leaf (T "rgb") (listed (words (T k)))] | None => [] end).
  assert (C1 : forall x, lex (ct ++ x) = cw ++ lex x).
  { intro x. unfold ct, cw. destruct (m_colour m) as [k|]; [|reflexivity]. specialize (NC k eq_refl).
    assert (E : (T "rgb (" ++ T k ++ T "); " ++ [newline]) ++ x = T "rgb " ++ "("%char :: T k ++ ")"%char :: (T "; " ++ [newline]) ++ x) by now rewrite <- !app_assoc.
    rewrite E, (lex_sep (T "rgb ")) by reflexivity. rewrite (lex_sep (T k)) by reflexivity. rewrite (lex_closed_app (T "; " ++ [newline])) by now apply (closed_end (T "; ")).
    assert (LK : lex (T k) = words (T k)).
    { rewrite lex_of_words. clear - NC. assert (G : Forall (fun w => w <> [] /\ nonspace w) (words (T k))) by (apply Forall_forall; intros w I; exact (words_nonempty_nospace _ w I)).
      induction NC as [|w l H FL IH]; [reflexivity|]. inversion G as [|? ? [G1 G2] G3]; subst. cbn [flat_map]. rewrite IH by exact G3. rewrite lex_alone; [reflexivity|now apply digits_nosep|exact G2|exact G1]. }
    rewrite LK. unfold listed. change (lex (T "rgb ")) with [T "rgb"]. change (lex (T "; " ++ [newline])) with [T ";"]. cbn [app]. do 2 f_equal. rewrite <- !app_assoc. reflexivity. }
  assert (C2 : acts cw cn).
  { unfold cw, cn. destruct (m_colour m) as [k|]; [|apply acts_nil]. specialize (NC k eq_refl). apply acts_leaf; [repeat split; discriminate| |discriminate].
    unfold listed. constructor; [repeat split; discriminate|]. apply Forall_app. split; [|constructor; [repeat split; discriminate|constructor]].
    apply (Forall_impl _) with (2 := NC). intros w H. apply no_sep_value, nosep_no_sep; [now apply digits_nosep|now apply digits_no_mark]. }
  assert (C3 : Forall (fun w => ~ In "!"%char w) cw).
  { unfold cw. destruct (m_colour m) as [k|]; [|constructor]. specialize (NC k eq_refl). unfold listed. constructor; [vm_compute; intuition discriminate|]. cbn [app]. constructor; [vm_compute; intuition discriminate|].
    rewrite <- app_assoc. apply Forall_app. split; [apply (Forall_impl _) with (2 := NC); exact digits_no_mark|]. repeat (apply Forall_cons; [vm_compute; intuition discriminate|]). constructor. }
  destruct (wordy_nospace _ (zaid_wordy _ ZN)) as [_ NSN]. destruct ZN as [ZN1 ZN2].
  assert (PM : nosep (T "m" ++ m_num m) /\ nonspace (T "m" ++ m_num m) /\ ~ In "!"%char (T "m" ++ m_num m)).
  { split; [apply nosep_app; [reflexivity|now apply digits_nosep]|]. split; [now apply nonspace_app|]. rewrite in_app_iff. intros [I|I]; [revert I; vm_compute; intuition discriminate|]. revert I. now apply digits_no_mark. }
  destruct PM as (P1 & P2 & P3).
  set (rest := (T "m" ++ m_num m ++ T " { " ++ newline :: T "composition { " ++ newline :: concat (map scone_nuclide c) ++ T "} " ++ newline :: ct ++ T "} " ++ [newline])).
  assert (L : lex rest = (T "m" ++ m_num m) :: T "{" :: ((T "composition" :: T "{" :: flat_map nuclide_toks c ++ [T "}"]) ++ cw) ++ [T "}"]).
  { assert (E : rest = ((T "m" ++ m_num m) ++ [blank]) ++ (T "{ " ++ newline :: T "composition { " ++ [newline]) ++ (concat (map scone_nuclide c) ++ (T "} " ++ [newline]) ++ ct ++ (T "} " ++ [newline]))).
    { unfold rest. rewrite <- !app_assoc. cbn [app]. rewrite <- !app_assoc. reflexivity. }
    rewrite E, (lex_closed_app ((T "m" ++ m_num m) ++ [blank])) by now apply closed_end. rewrite (lex_closed_app (T "{ " ++ newline :: T "composition { " ++ [newline])) by now apply (closed_end (T "{ " ++ newline :: T "composition { ")).
    rewrite nuclides_lex by exact FC. rewrite (lex_closed_app (T "} " ++ [newline])) by now apply (closed_end (T "} ")). rewrite C1.
    assert (L1 : lex ((T "m" ++ m_num m) ++ [blank]) = [T "m" ++ m_num m]).
    { rewrite lex_of_words, words_app_space by reflexivity. rewrite words_single by (discriminate || exact P2). cbn [flat_map words app]. rewrite app_nil_r. now apply lex_alone. }
    rewrite L1. change (lex (T "{ " ++ newline :: T "composition { " ++ [newline])) with [T "{"; T "composition"; T "{"]. change (lex (T "} " ++ [newline])) with [T "}"].
    cbn [app]. do 4 f_equal. rewrite <- !app_assoc. reflexivity. }
  eexists. exists ([] ++ lex rest). eexists. split; [reflexivity|]. split; [|split].
  - match goal with |- shown ?t _ => assert (E : t = ("!"%char :: (T " " ++ m_name m ++ T " ") ++ [newline]) ++ rest) end.
    { unfold rest. change (T "! ") with ("!"%char :: T " "). cbn [app]. rewrite <- !app_assoc. reflexivity. }
    rewrite E. apply shown_app.
    + apply shown_comment. rewrite !in_app_iff. intros [I|[I|I]]; [|tauto|]; revert I; vm_compute; intuition discriminate.
    + apply shown_text.
      * apply PropSerpentFile.ends_closed. unfold rest. PropSerpentFile.at_end.
      * apply no_mark. rewrite L.
        assert (FA : Forall (fun w : text => ~ In "!"%char w) ((T "m" ++ m_num m) :: T "{" :: ((T "composition" :: T "{" :: flat_map nuclide_toks c ++ [T "}"]) ++ cw) ++ [T "}"])).
        { constructor; [exact P3|]. constructor; [vm_compute; intuition discriminate|]. apply Forall_app. split; [|constructor; [vm_compute; intuition discriminate|constructor]].
          apply Forall_app. split; [|exact C3]. constructor; [vm_compute; intuition discriminate|]. constructor; [vm_compute; intuition discriminate|].
          apply Forall_app. split; [|constructor; [vm_compute; intuition discriminate|constructor]]. clear - FC. induction FC as [|e c [Z1 Z2] FC IH]; [constructor|]. cbn [flat_map]. apply Forall_app. split; [|exact IH].
          unfold nuclide_toks. constructor; [|constructor; [|constructor; [vm_compute; intuition discriminate|constructor]]].
          - rewrite in_app_iff. intros [I|I]; [revert I; now apply digits_no_mark|revert I; vm_compute; intuition discriminate].
          - apply arg_no_mark, PropSerpentFile.fmt_e_arg. }
        rewrite Forall_forall in FA. exact FA.
  - rewrite L. apply acts_dict; [apply no_sep_value; now apply nosep_no_sep|]. apply (acts_app _ [Dict (T "composition") (map (fun n => Leaf (fst n) [snd n]) (map (fun e => (fst e ++ T ".03", fmt_e 6 (snd e))) c))] _ cn); [|exact C2].
    apply acts_dict; [repeat split; discriminate|]. rewrite map_map. cbn [fst snd]. apply acts_concat. apply (Forall_impl _) with (2 := FC). intros e [Z1 Z2].
    apply acts_leaf; [| |discriminate].
    + apply no_sep_value, nosep_no_sep; [apply nosep_app; [now apply digits_nosep|reflexivity]|]. rewrite in_app_iff. intros [I|I]; [revert I; now apply digits_no_mark|revert I; vm_compute; intuition discriminate].
    + constructor; [|constructor]. apply no_sep_value, nosep_no_sep; [apply fmt_e_nosep|]. apply arg_no_mark, PropSerpentFile.fmt_e_arg.
  - eexists. split; [reflexivity|]. clear. induction c as [|e c IH]; [constructor|]. cbn [map]. constructor; [|exact IH]. cbn [fst snd]. split; [reflexivity|].
    destruct (py_float_fmt_e 6 (snd e)) as (v & V & W). exists v. split; [exact V|]. unfold seven_digits. rewrite W. assert (B := sci_value_error 6 (snd e)). rewrite <- Qmult_assoc in B. exact B.
Qed.

(** ** The file *)

Definition scone_deck (str : R -> text) (show : Q -> text) (order : list ucell -> list Z) (d : deck) : Prop :=
  (forall x, numeral (str x)) /\ Forall (fun s => exists sn, scone_surface (fst s) sn) (d_surfs d) /\
  Forall (fun c => length (str_Z (g_id c)) <= 50 /\ length (str_Z (g_mat c)) <= 50 /\ (forall f, g_fill c = Some f -> exists n, num f n /\ length (str_Z (n + 1)) <= 50) /\
                   exists r, good_gcell show c r) (d_cells d) /\
  Forall (fun e => exists c, scone_material (snd e) c) (d_mats d) /\
  universe_ids (order (map to_u (d_cells d))) (map to_u (d_cells d)) /\ Forall read_cell (map to_u (d_cells d)) /\ d_univ d = [] /\
  (forall us, create_universes (order (map to_u (d_cells d))) (map to_u (d_cells d)) [] = Some us -> Forall small us).

(** Lists of nodes for lists of items. *)
Lemma nodes_list {A} (w : A -> option text) (P : A -> node -> Prop) l : Forall (fun a => exists t ws e, w a = Some t /\ shown t ws /\ acts ws [e] /\ P a e) l ->
  exists ts ws es, mapM w l = Some ts /\ shown (concat ts) ws /\ acts ws es /\ Forall2 P l es.
Proof.
  induction 1 as [|a l (t & ws & e & W & S & A1 & H) F (ts & wss & es & WS & SS & AS & HS)].
  - exists [], [], []. split; [reflexivity|]. split; [apply shown_nil|]. split; [apply acts_nil|constructor].
  - exists (t :: ts), (ws ++ wss), (e :: es). cbn [mapM concat]. rewrite W, WS. split; [reflexivity|]. split; [now apply shown_app|]. split; [now apply (acts_app _ [e])|now constructor].
Qed.
Lemma nodes_lasting {A} (w : nat -> A -> option text) (P : A -> node -> Prop) l : Forall (fun a => exists t ws e, lasting (fun f => w f a) t /\ shown t ws /\ acts ws [e] /\ P a e) l ->
  exists ts ws es, lasting (fun f => mapM (w f) l) ts /\ shown (concat ts) ws /\ acts ws es /\ Forall2 P l es.
Proof.
  induction 1 as [|a l (t & ws & e & (k1 & W) & S & A1 & H) F (ts & wss & es & (k2 & WS) & SS & AS & HS)].
  - exists [], [], []. split; [now exists 0|]. split; [apply shown_nil|]. split; [apply acts_nil|constructor].
  - exists (t :: ts), (ws ++ wss), (e :: es). cbn [concat]. split; [|split; [now apply shown_app|split; [now apply (acts_app _ [e])|now constructor]]].
    exists (max k1 k2). intros f L. cbn [mapM]. now rewrite W, WS by lia.
Qed.

(** C79: the file is written, and what SCONE reads in it is the two dictionaries with one entry for every surface, cell, universe
    card and material, which say what the deck says; which universe cards there are is C47.  Missing from the full
    property: tori (below), cones (C58), and the places of filled cells (C48). *)
Theorem C79_scone_file_partial str show order d : scone_deck str show order d ->
  exists t ss cs us es ms, create_universes (order (map to_u (d_cells d))) (map to_u (d_cells d)) [] = Some us /\
    lasting (fun fuel => scone_file str show fuel order d) (t, us) /\ scone_reads t = Some (whole ss cs es ms) /\
    Forall2 (fun s e => forall sn, surf_sense (fst s) = Some sn -> surf_dict str (fst s) sn e) (d_surfs d) ss /\
    Forall2 (fun c e => forall r, expr (toks (g_items c)) r -> cell_dict c r e) (d_cells d) cs /\
    Forall2 univ_dict us es /\
    Forall2 (fun m e => forall c, scone_densities (m_dens (snd m)) (m_comp (snd m)) = Some c -> mat_dict (snd m) c e) (d_mats d) ms.
Proof.
  intros (NS & FS & FC & FM & UI & RC & DU & SM).
  assert (CU : exists us, create_universes (order (map to_u (d_cells d))) (map to_u (d_cells d)) [] = Some us).
  { destruct UI as (ND & NN & _). destruct (build_all_ok _ RC NN (order (map to_u (d_cells d)))) as (us & B & _). unfold create_universes. rewrite B.
    destruct (split_roots _ _) as [a b]. eauto. }
  destruct CU as (us & CU). assert (NV := C48_never _ _ _ UI RC CU). specialize (SM us CU).
  destruct (nodes_list (fun s : surface * list R => write_scone_surface str (fst s)) (fun s e => forall sn, surf_sense (fst s) = Some sn -> surf_dict str (fst s) sn e) (d_surfs d)) as (ts & w1 & ss & E1 & S1 & A1 & H1).
  { apply (Forall_impl _) with (2 := FS). intros s (sn & G). destruct (surface_dict str NS (fst s) sn G) as (t & ws & e & W & S & A & H). exists t, ws, e.
    split; [exact W|]. split; [exact S|]. split; [exact A|]. intros sn2 E2. destruct G as [E1 _]. rewrite E1 in E2. now injection E2 as <-. }
  destruct (nodes_lasting (fun f => scone_cell show f) (fun c e => forall r, expr (toks (g_items c)) r -> cell_dict c r e) (d_cells d)) as (tc & w2 & cs & (k2 & E2) & S2 & A2 & H2).
  { apply (Forall_impl _) with (2 := FC). intros c (LI & LM & LF & r & G). exact (cell_node show c r LI LM LF G). }
  destruct (nodes_lasting write_scone_universe univ_dict us) as (tu & w3 & es & (k3 & E3) & S3 & A3 & H3).
  { apply Forall_forall. intros u I. rewrite Forall_forall in SM. apply universe_node; [now apply NV|now apply SM]. }
  destruct (nodes_list (fun m : text * material => write_scone_material (snd m)) (fun m e => forall c, scone_densities (m_dens (snd m)) (m_comp (snd m)) = Some c -> mat_dict (snd m) c e) (d_mats d)) as (tm & w4 & ms & E4 & S4 & A4 & H4).
  { apply (Forall_impl _) with (2 := FM). intros m (c & G). destruct (material_node (snd m) c G) as (t & ws & e & W & S & A & H). exists t, ws, e.
    split; [exact W|]. split; [exact S|]. split; [exact A|]. intros c2 D2. destruct G as [D1 _]. rewrite D1 in D2. now injection D2 as <-. }
  set (file := seqs [ConvertModel.line "geometry { "; ConvertModel.line "type geometryStd; "; ConvertModel.line "boundary (0 0 0 0 0 0); "; ConvertModel.line "graph {type shrunk;} ";
                  ConvertModel.line "! --- surface definitions --- !"; ConvertModel.line "surfaces { "; Some (concat ts); ConvertModel.line "} ";
                  ConvertModel.line "! --- cell definitions --- !"; ConvertModel.line "cells { "; Some (concat tc); ConvertModel.line "} ";
                  ConvertModel.line "! --- universe definitions --- !"; ConvertModel.line "universes { "; Some (concat tu); ConvertModel.line "} ";
                  ConvertModel.line "} "; ConvertModel.line "nuclearData { "; ConvertModel.line "handles { ";
                  ConvertModel.line "ce {type aceNeutronDatabase; aceLibrary $SCONE_ACE; ures 0;} "; ConvertModel.line "} ";
                  ConvertModel.line "! --- material definitions --- !"; ConvertModel.line "materials { "; Some (concat tm); ConvertModel.line "} ";
                  ConvertModel.line "} "]).
  assert (SH : exists t, file = Some t /\ scone_reads t = Some (whole ss cs es ms)).
  { eexists. split; [unfold file, ConvertModel.line; cbn [seqs ConvertModel.seq]; reflexivity|]. eapply shown_reads.
    - assert (CM : forall s, ~ In newline (T s) -> shown (T (String "!"%char s) ++ [newline]) []) by (intros s N; now apply shown_comment).
      repeat (apply shown_app; [first [exact S1 | exact S2 | exact S3 | exact S4 | apply CM; vm_compute; intuition discriminate | apply shown_line; [vm_compute; intuition discriminate|vm_compute; reflexivity]]|]).
      apply shown_nil.
    - assert (VL : forall s, text_eqb (T s) (T ";") || text_eqb (T s) (T "{") || text_eqb (T s) (T "}") = false -> value (T s)).
      { intros s0 H. apply orb_false_iff in H as [H H3']. apply orb_false_iff in H as [H1' H2']. repeat split; intro K; rewrite K in *; discriminate. }
      assert (LF : forall k v, text_eqb (T k) (T ";") || text_eqb (T k) (T "{") || text_eqb (T k) (T "}") = false -> Forall value v -> v <> [] -> acts (T k :: v ++ [T ";"]) [Leaf (T k) v]).
      { intros k v K V N. apply acts_leaf; [now apply VL|exact V|exact N]. }
      assert (AD : forall k ws es, text_eqb (T k) (T ";") || text_eqb (T k) (T "{") || text_eqb (T k) (T "}") = false -> acts ws es -> acts (T k :: T "{" :: ws ++ [T "}"]) [Dict (T k) es]).
      { intros k ws0 es0 K A. apply acts_dict; [now apply VL|exact A]. }
      assert (VS : forall l, forallb (fun s => negb (text_eqb (T s) (T ";") || text_eqb (T s) (T "{") || text_eqb (T s) (T "}"))) l = true -> Forall value (map T l)).
      { intros l H. apply Forall_map. rewrite forallb_forall in H. apply Forall_forall. intros x I. apply VL. apply negb_true_iff. now apply H. }
      assert (AC := acts_app _ _ _ _
        (AD "geometry"%string _ _ eq_refl
          (acts_app _ _ _ _ (LF "type"%string [T "geometryStd"] eq_refl (VS ["geometryStd"%string] eq_refl) ltac:(discriminate))
          (acts_app _ _ _ _ (LF "boundary"%string (listed (map T ["0"; "0"; "0"; "0"; "0"; "0"]%string)) eq_refl (VS ["("; "0"; "0"; "0"; "0"; "0"; "0"; ")"]%string eq_refl) ltac:(discriminate))
          (acts_app _ _ _ _ (AD "graph"%string _ _ eq_refl (LF "type"%string [T "shrunk"] eq_refl (VS ["shrunk"%string] eq_refl) ltac:(discriminate)))
          (acts_app _ _ _ _ (AD "surfaces"%string _ _ eq_refl A1) (acts_app _ _ _ _ (AD "cells"%string _ _ eq_refl A2) (AD "universes"%string _ _ eq_refl A3)))))))
        (AD "nuclearData"%string _ _ eq_refl
          (acts_app _ _ _ _ (AD "handles"%string _ _ eq_refl (AD "ce"%string _ _ eq_refl
            (acts_app _ _ _ _ (LF "type"%string [T "aceNeutronDatabase"] eq_refl (VS ["aceNeutronDatabase"%string] eq_refl) ltac:(discriminate))
            (acts_app _ _ _ _ (LF "aceLibrary"%string [T "$SCONE_ACE"] eq_refl (VS ["$SCONE_ACE"%string] eq_refl) ltac:(discriminate))
              (LF "ures"%string [T "0"] eq_refl (VS ["0"%string] eq_refl) ltac:(discriminate))))))
            (AD "materials"%string _ _ eq_refl A4)))).
      match type of AC with acts ?a _ => match goal with |- acts ?b _ => assert (EW : b = a) end end.
      { rewrite !app_nil_r. cbn [app]. unfold listed. cbn [map app]. repeat (progress (rewrite <- ?app_assoc; cbn [app])). reflexivity. }
      rewrite EW. exact AC. }
  destruct SH as (t & ET & RT). exists t, ss, cs, us, es, ms. split; [exact CU|]. split; [|split; [exact RT|now repeat split]].
  exists (max k2 k3). intros f L. unfold scone_file, texts. rewrite DU, CU, E1, E2, E3, E4 by lia. cbn [option_map].
  change (match file with Some t0 => Some (t0, us) | None => None end = Some (t, us)). now rewrite ET.
Qed.
Print Assumptions C79_scone_file_partial.

(** The number in a filled cell names the universe card that lists the cells of that universe. *)
Theorem C79_fill str show order d : scone_deck str show order d -> (exists c, In c (d_cells d) /\ uc_number (to_u c) = Some 0%Z) ->
  exists t ss cs us es ms, lasting (fun fuel => scone_file str show fuel order d) (t, us) /\ scone_reads t = Some (whole ss cs es ms) /\
    forall c f n c', In c (d_cells d) -> g_fill c = Some f -> num f n -> n <> 0%Z -> In c' (d_cells d) -> uc_number (to_u c') = Some n ->
    exists kc b0 b1 b2 w k i ws, In (Dict kc (b0 ++ [Leaf (T "filltype") [T "uni"]; Leaf (T "universe") [w]] ++ b2)) cs /\ num kc (g_id c) /\ num w (n + 1) /\
      In (Dict k (Leaf (T "type") [T "cellUniverse"] :: Leaf (T "cells") (listed ws) :: Leaf (T "id") [i] :: b1)) es /\ num i (n + 1) /\ Forall2 num ws (members n (map to_u (d_cells d))).
Proof.
  intros SD (c0 & I0 & U0). destruct (C79_scone_file_partial str show order d SD) as (t & ss & cs & us & es & ms & CU & L & R & _ & HC & HU & _).
  exists t, ss, cs, us, es, ms. split; [exact L|]. split; [exact R|]. intros c f n c' IC EF NF N0 IC' UC'.
  destruct SD as (_ & _ & FC & _ & UI & RC & _).
  destruct (C47_universes_partial _ _ UI RC) as (us2 & root & inner & CU2 & _ & _ & _ & _ & _ & _ & _ & _ & _ & _ & ALL & _).
  { exists (to_u c0). split; [now apply in_map|exact U0]. }
  rewrite CU in CU2. injection CU2 as <-.
  destruct (ALL n) as (u & IU & EU & RU & MU).
  { destruct UI as (_ & _ & IDS). apply IDS. exists (to_u c'). split; [now apply in_map|exact UC']. }
  { exact N0. }
  assert (PC : exists e, In e cs /\ forall r, expr (toks (g_items c)) r -> cell_dict c r e).
  { clear - HC IC. induction HC as [|x e l cs H HC IH]; [destruct IC|]. destruct IC as [->|IC]; [exists e; split; [now left|exact H]|]. destruct (IH IC) as (e' & I' & H'). exists e'. split; [now right|exact H']. }
  assert (PU : exists e, In e es /\ univ_dict u e).
  { clear - HU IU. induction HU as [|x e l es H HU IH]; [destruct IU|]. destruct IU as [->|IU]; [exists e; split; [now left|exact H]|]. destruct (IH IU) as (e' & I' & H'). exists e'. split; [now right|exact H']. }
  destruct PC as (ec & IE & HE). destruct PU as (eu & IEU & HEU). rewrite Forall_forall in FC. destruct (FC c IC) as (_ & _ & _ & r & G). destruct G as (_ & _ & _ & _ & _ & G & _).
  destruct (HE r G) as (kc & ic & what & ws & r' & -> & NK & _ & FW & _). rewrite EF in FW. destruct FW as (w & n2 & -> & NF2 & NW). unfold num in NF, NF2. rewrite NF in NF2. injection NF2 as <-.
  destruct HEU as (k & i & body & -> & NI & HB). rewrite RU in HB. destruct HB as (_ & wl & -> & FL). rewrite EU in NI. rewrite MU in FL.
  do 8 eexists. split; [exact IE|]. split; [exact NK|]. split; [exact NW|]. split; [exact IEU|]. split; [exact NI|exact FL].
Qed.
Print Assumptions C79_fill.

(** The deck of C73: three surfaces, a cell of steel, a cell filled with universe 7, and a cell of universe 7. *)
Definition order_ex (l : list ucell) : list Z := [0; 7]%Z.
Example C79_deck : scone_deck PropSurfOut.str01 show_ex order_ex deck_ex.
Proof.
  assert (NU : forall w : text, (negb (text_eqb w []) && (length w <=? 40) && forallb (fun c => is_digit c || existsb (Ascii.eqb c) (T "-+.e")) w)%bool = true -> numeral w).
  { intros w H. apply andb_true_iff in H as [H H3]. apply andb_true_iff in H as [H1 H2]. split; [intros ->; discriminate|]. split; [now apply Nat.leb_le|exact H3]. }
  split; [|split; [|split; [|split; [|split; [|split; [|split]]]]]].
  - intro x. unfold PropSurfOut.str01. destruct (Req_EM_T x 0), (Req_EM_T x 1); now apply NU.
  - cbn [d_surfs deck_ex]. repeat (constructor; [eexists; split; [reflexivity|split; [reflexivity|discriminate]]|]). constructor.
  - destruct C73_deck as (FC & _). cbn [d_cells deck_ex cells_ex] in *. rewrite Forall_forall in FC.
    constructor; [|constructor; [|constructor; [|constructor]]]; (split; [vm_compute; lia|]); (split; [vm_compute; lia|]); (split; [cbn [g_fill]; first [discriminate|intros f [= <-]; exists 7%Z; split; [reflexivity|vm_compute; lia]]|]).
    + destruct (FC _ (or_introl eq_refl)) as (r & G). exists r. exact G.
    + destruct (FC _ (or_intror (or_introl eq_refl))) as (r & G). exists r. exact G.
    + destruct (FC _ (or_intror (or_intror (or_introl eq_refl)))) as (r & G). exists r. exact G.
  - constructor; [|constructor]. eexists. split; [vm_compute; reflexivity|]. cbn [snd steel_ex m_num m_name m_comp m_colour].
    split; [split; [discriminate|reflexivity]|]. split; [vm_compute; intuition discriminate|]. split; [|discriminate]. repeat (constructor; [split; [discriminate|reflexivity]|]). constructor.
  - split; [|split].
    + unfold order_ex. constructor; [intros [H|[]]; discriminate|]. constructor; [intros []|constructor].
    + intros c I. cbn in I. destruct I as [<-|[<-|[<-|[]]]]; vm_compute; discriminate.
    + intro n. cbn [order_ex In]. split.
      * intros [<-|[<-|[]]]; [exists (to_u (nth 0 cells_ex (mkG 0 0 [] [] [] None None None None 0))); split; [now left|reflexivity]|].
        exists (to_u (nth 2 cells_ex (mkG 0 0 [] [] [] None None None None 0))). split; [now right; right; left|reflexivity].
      * intros (c & I & E). cbn in I. destruct I as [<-|[<-|[<-|[]]]]; vm_compute in E; injection E as <-; tauto.
  - cbn [d_cells deck_ex cells_ex map to_u]. constructor; [|constructor; [|constructor; [|constructor]]]; (split; [|first [discriminate | split; reflexivity]]); cbn; intros t r I; intuition (subst; discriminate).
  - reflexivity.
  - intros us E. vm_compute in E. injection E as <-. repeat (constructor; [split; [vm_compute; lia|]; split; [vm_compute; lia|]; split; [repeat (constructor; [vm_compute; lia|]); constructor|]; split; [cbn [u_fill]; first [discriminate | intros f [= <-]; vm_compute; lia]|discriminate]|]). constructor.
Qed.
Example C79_text : exists us, scone_file PropSurfOut.str01 show_ex 10 order_ex deck_ex = Some (
  lf "geometry { " ++ lf "type geometryStd; " ++ lf "boundary (0 0 0 0 0 0); " ++ lf "graph {type shrunk;} " ++
  lf "! --- surface definitions --- !" ++ lf "surfaces { " ++ lf "3 { id 3; type  sphere; origin (0.0 1.0 0.0); radius 1.0; } " ++
  lf "4 { id 4; type  xPlane; x0 1.0; } " ++ lf "40 { id 40; type  zPlane; z0 0.0; } " ++ lf "} " ++
  lf "! --- cell definitions --- !" ++ lf "cells { " ++ lf "1 { type unionCell; id 1; filltype mat; material m12; surfaces [ -3 ];" ++ lf "      }" ++
  lf "2 { type unionCell; id 2; filltype uni; universe 8; surfaces [ < 3 -4 >" ++ lf "      : -40 ]; }" ++
  lf "33 { type unionCell; id 33; filltype mat; material void; surfaces [ # <" ++ lf "      -3 : 40 > ]; }" ++ lf "} " ++
  lf "! --- universe definitions --- !" ++ lf "universes { " ++ lf "root { type rootUniverse; border 0; fill u<9>; id 1; } " ++
  lf "8 { type cellUniverse; cells (33 ); id 8; } " ++ lf "9 { type cellUniverse; cells (1 2 ); id 9; } " ++ lf "} " ++
  lf "} " ++ lf "nuclearData { " ++ lf "handles { " ++ lf "ce {type aceNeutronDatabase; aceLibrary $SCONE_ACE; ures 0;} " ++ lf "} " ++
  lf "! --- material definitions --- !" ++ lf "materials { " ++ lf "! M12 " ++ lf "m12 { " ++ lf "composition { " ++ lf "26056.03 7.828782e-02; " ++ lf "6012.03 2.609594e-02; " ++ lf "} " ++
  lf "} " ++ lf "} " ++ lf "} ", us).
Proof.
  eexists. unfold scone_file, texts. cbn [d_surfs d_cells d_mats d_univ deck_ex mapM]. unfold write_scone_surface, scone_body, numbers.
  cbn [fst s_type s_coef s_bc s_id map option_map]. rewrite PropSurfOut.str01_0, PropSurfOut.str01_1. vm_compute. reflexivity.
Qed.
(** Read again: the entries of each dictionary. *)
Definition keys (e : node) : list text := match e with Leaf k _ => [k] | Dict k es => k :: map (fun n => match n with Leaf j _ | Dict j _ => j end) es end.
Example C79_example : exists t us ss cs es ms, scone_file PropSurfOut.str01 show_ex 10 order_ex deck_ex = Some (t, us) /\ scone_reads t = Some (whole ss cs es ms) /\
  map (hd []) (map keys ss) = map T ["3"; "4"; "40"]%string /\ map (hd []) (map keys cs) = map T ["1"; "2"; "33"]%string /\
  map (hd []) (map keys es) = map T ["root"; "8"; "9"]%string /\ map (hd []) (map keys ms) = [T "m12"].
Proof.
  destruct C79_text as (us & E). eexists. exists us. do 4 eexists. split; [exact E|]. split; [vm_compute; reflexivity|]. split; [reflexivity|]. split; [reflexivity|]. split; reflexivity.
Qed.

(** For a torus the line written is no entry of a dictionary: SCONE cannot read the file. *)
Theorem C79_torus_refuted : exists str show order d t us sn, (forall x, numeral (str x)) /\ (exists x b, d_surfs d = [(x, b)] /\ surf_sense x = Some sn) /\
  scone_file str show 10 order d = Some (t, us) /\ scone_reads t = None.
Proof.
  exists PropSurfOut.str01, show_ex, order_ex, (ConvertModel.mkDeck [(mkS 3 None TORUS_X [0; 0; 0; 45; 1; 1]%R TRANSMISSION, [])] [] [] []).
  do 3 eexists. split; [apply (proj1 C79_deck)|]. split; [do 2 eexists; split; reflexivity|]. split; [vm_compute; reflexivity|]. vm_compute. reflexivity.
Qed.
Print Assumptions C79_torus_refuted.
