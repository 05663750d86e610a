(** The file written for PHITS as a whole (csg2csg/PhitsInput.py 17-79, MCNPCellCard.py 68-113, MCNPSurfaceCard.py 213-254,
    MCNPMaterialCard.py 9-22): C78. *)
From Coq Require Import QArith Reals.
From Verif Require Import PyStr PyStrFacts PyInt PyIntFacts PyDict FortranNumber FortranNumberProofs CellModel CellText RegionSpec RegionFacts LexSpec Formatter FormatterProofs WrapProofs
  CellWriters CellProofs CellWritersProofs CellWritersOut SurfModel SurfWriters SurfWritersProofs SurfSpec GeomSpec TargetSpec FlattenModel MaterialModel
  MaterialWriters ConvertModel PropSurfOut PropWriters PropMaterialOut PropKeyword PropDeck FileProofs LayoutProofs.
From Verif Require PropFile.
Open Scope nat_scope.
Open Scope list_scope.

(** ** How PHITS reads a file (PHITS manual, sections and input format) *)

(** The lines without comments (after $ or !; lines that begin with c in the first five columns) and without empty lines. *)
Fixpoint code_of (l : text) : text :=
  match l with [] => [] | c :: r => if existsb (Ascii.eqb c) (T "$!") then [] else c :: code_of r end.
Definition indented (l : text) : bool := text_eqb (firstn 5 l) (T "     ").
Definition counts (l : text) : bool :=
  match words l with [] => false | w :: _ => indented l || negb (existsb (text_eqb w) [T "c"; T "C"]) end.
Definition phits_lines (t : text) : list text := filter counts (map code_of (split_on newline t)).

(** A line in brackets begins a section (blanks in its name do not count); a line with five blanks in front continues the
    card before it. *)
Definition heading (l : text) : bool := match words l with ("["%char :: _) :: _ => true | _ => false end.
Record reading := Rd { loose : list text; begun : list (list text); sections : list (text * list (list text)) }.
Fixpoint sects (ls : list text) : reading :=
  match ls with
  | [] => Rd [] [] []
  | l :: r =>
      let x := sects r in
      if heading l then Rd [] [] ((concat (words l), match loose x with [] => begun x | w => w :: begun x end) :: sections x)
      else if indented l then Rd (words l ++ loose x) (begun x) (sections x)
      else Rd [] ((words l ++ loose x) :: begun x) (sections x)
  end.
Definition phits_reads (t : text) : reading := sects (phits_lines t).

(** The card of a surface: the mark of its boundary condition, the number, the kind and the coefficients.  The kinds are
    those of MCNP. *)
Definition phits_mark (b : bcond) : option text :=
  match b with TRANSMISSION => Some [] | VACUUM => Some [] | REFLECTING => Some (T "*") | WHITE => Some (T "+") | PERIODIC => None end.
Definition surf_card (str : R -> text) (card : list text) (id : Z) (b : bcond) (sn : sense) : Prop :=
  exists k m vals sn', card = (k ++ str_Z id) :: T m :: map str vals /\ phits_mark b = Some k /\ mcnp_means m vals sn' /\ same_sense sn' sn.

(** The card of a cell: number, material, density unless the material is 0, region, and the words with an equals sign, where
    parentheses stand apart. *)
Definition apart (w : text) : text := flat_map (fun c => if existsb (Ascii.eqb c) (T "()") then [blank; c; blank] else [c]) w.
Definition cell_card (card : list text) (id mat : Z) (dens : text) (u fill : option text) (place : list text) (r : region) : Prop :=
  exists ws ks r', card = str_Z id :: str_Z mat :: (if (mat =? 0)%Z then [] else [dens]) ++ ws ++ ks /\ (forall w, In w ws -> ~ In "="%char w) /\
    expr (flat_map mcnp_lex ws) r' /\ (forall env, holds env r' = holds env r) /\
    flat_map (fun k => words (apart k)) ks = match u with Some x => [T "u=" ++ x] | None => [] end ++
      match fill with Some x => (T "fill=" ++ x) :: match place with [] => [] | p => T "(" :: p ++ [T ")"] end | None => [] end.
Definition mat_card (show : Q -> text) (card : list text) (m : material) : Prop :=
  card = (T "M" ++ m_num m) :: flat_map (fun e => [fst e ++ T "." ++ match dget (fst e) (m_xs m) with Some x => x | None => [] end; show (snd e)]) (m_comp m).

(** ** Lines *)

Definition bare (c : ascii) : bool := negb (existsb (Ascii.eqb c) (T "$![")).
Definition bare_word (w : text) : Prop := forallb bare w = true.
Lemma code_bare l : forallb bare l = true -> code_of l = l.
Proof.
  induction l as [|c l IH]; intro F; [reflexivity|]. cbn [forallb] in F. apply andb_true_iff in F as [B F]. cbn [code_of].
  unfold bare in B. cbn in B |- *. destruct (Ascii.eqb c "$"), (Ascii.eqb c "!"); try discriminate. cbn [orb]. now rewrite IH.
Qed.
Lemma bare_words_text t : Forall bare_word (words t) -> forallb bare t = true.
Proof.
  intro F. apply forallb_forall. intros c I. destruct (is_space c) eqn:S.
  - unfold bare. destruct (existsb (Ascii.eqb c) (T "$![")) eqn:E; [|reflexivity]. apply existsb_exists in E as (d & J & E). apply Ascii.eqb_eq in E. subst d.
    cbn in J. destruct J as [<-|[<-|[<-|[]]]]; discriminate.
  - destruct (in_some_word c t I S) as (w & J & K). rewrite Forall_forall in F. specialize (F w J). unfold bare_word in F. rewrite forallb_forall in F. auto.
Qed.
Lemma heading_bare l : forallb bare l = true -> heading l = false.
Proof.
  intro F. unfold heading. destruct (words l) as [|[|c w] ws] eqn:W; [reflexivity|reflexivity|].
  assert (I : In c l) by (apply (in_words_in c (c :: w)); [rewrite W; now left|now left]).
  rewrite forallb_forall in F. specialize (F c I). unfold bare in F. cbn in F. destruct c as [[][][][][][][][]]; try reflexivity; discriminate.
Qed.

(** Lines that hold some cards, whatever comes after them. *)
Definition sheet (t : text) (cs : list (list text)) : Prop :=
  exists L, t = with_ends L /\ Forall (fun l => ~ In newline l) L /\
    forall rest c s, sects rest = Rd [] c s -> sects (filter counts (map code_of L) ++ rest) = Rd [] (cs ++ c) s.
Lemma sheet_nil : sheet [] [].
Proof. exists []. split; [reflexivity|]. split; [constructor|]. intros rest c s E. exact E. Qed.
Lemma sheet_app t1 c1 t2 c2 : sheet t1 c1 -> sheet t2 c2 -> sheet (t1 ++ t2) (c1 ++ c2).
Proof.
  intros (L1 & -> & N1 & S1) (L2 & -> & N2 & S2). exists (L1 ++ L2). split; [now rewrite PropFile.with_ends_app|]. split; [apply Forall_app; now split|].
  intros rest c s E. rewrite map_app, filter_app, <- app_assoc, <- app_assoc. apply S1. now apply S2.
Qed.
Lemma sheet_list {A} (P : A -> list text -> Prop) (l : list A) ts : Forall2 (fun a t => exists card, sheet t [card] /\ P a card) l ts ->
  exists cs, sheet (concat ts) cs /\ Forall2 P l cs.
Proof.
  induction 1 as [|a t l ts (card & S & H) F (cs & IH & FF)]; [exists []; split; [apply sheet_nil|constructor]|].
  exists (card :: cs). cbn [concat]. split; [now apply (sheet_app _ [card])|now constructor].
Qed.
Lemma lines_with_ends L b : Forall (fun l => ~ In newline l) L -> split_on newline (with_ends L ++ b) = L ++ split_on newline b.
Proof.
  induction 1 as [|l L N F IH]; [reflexivity|]. unfold with_ends in *. cbn [map concat]. rewrite <- !app_assoc. cbn [app].
  rewrite split_on_app by exact N. now rewrite IH.
Qed.
Lemma sheet_section t cs b name c s : sheet t cs -> Forall (fun w => ~ In newline w) [name] -> heading (code_of name) = true -> counts (code_of name) = true ->
  sects (phits_lines b) = Rd [] c s -> sects (phits_lines (name ++ newline :: t ++ b)) = Rd [] [] ((concat (words (code_of name)), cs ++ c) :: s).
Proof.
  intros (L & -> & N & S) NN H C E. unfold phits_lines. rewrite split_on_app by (now inversion NN). rewrite lines_with_ends by exact N. cbn [map filter]. rewrite C, map_app, filter_app.
  cbn [sects]. rewrite H. pose proof (S _ _ _ E) as Y. unfold phits_lines in Y. set (x := sects (_ ++ _)). replace x with (Rd [] (cs ++ c) s) by (symmetry; exact Y). reflexivity.
Qed.

Definition deeper (l : text) : text := T "     " ++ l.
Lemma words_with_ends L : words (with_ends L) = flat_map words L.
Proof.
  induction L as [|l L IH]; [reflexivity|]. unfold with_ends in *. cbn [map concat flat_map]. rewrite words_closed_app by now apply closed_end.
  rewrite IH. f_equal. now apply words_app_space_r.
Qed.
Lemma more_lines ls : Forall (fun l => forallb bare l = true) ls -> forall rest w c s, sects rest = Rd w c s ->
  sects (filter counts (map code_of (map deeper ls)) ++ rest) = Rd (flat_map words ls ++ w) c s.
Proof.
  induction 1 as [|l ls B F IH]; intros rest w c s E; [exact E|]. cbn [map filter].
  assert (BD : forallb bare (deeper l) = true) by (unfold deeper; rewrite forallb_app, B; reflexivity).
  assert (WD : words (deeper l) = words l) by (unfold deeper; now apply words_app_space_l).
  rewrite code_bare by exact BD. cbn [flat_map]. unfold counts at 1. rewrite WD. destruct (words l) as [|v vs] eqn:W.
  - now apply IH.
  - change (indented (deeper l)) with true. cbn [orb app sects]. rewrite heading_bare by exact BD. change (indented (deeper l)) with true.
    rewrite (IH rest w c s E). cbn [loose begun sections]. rewrite WD. f_equal. cbn [app]. now rewrite app_assoc.
Qed.
Lemma lines_sheet l0 ls : ~ In newline l0 -> Forall (fun l => ~ In newline l) ls -> indented l0 = false -> counts l0 = true ->
  Forall bare_word (words (with_ends (l0 :: map deeper ls))) -> sheet (with_ends (l0 :: map deeper ls)) [words (with_ends (l0 :: map deeper ls))].
Proof.
  intros N0 NS I0 C0 B. rewrite words_with_ends in *. cbn [flat_map] in *. apply Forall_app in B as [B0 BS]. apply bare_words_text in B0.
  assert (WD : forall L, flat_map words (map deeper L) = flat_map words L).
  { induction L as [|l L IH]; [reflexivity|]. cbn [map flat_map]. now rewrite IH. }
  rewrite WD in *.
  assert (BL : Forall (fun l => forallb bare l = true) ls).
  { clear - BS. induction ls as [|l ls IH]; [constructor|]. cbn [flat_map] in BS. apply Forall_app in BS as [B1 B2]. constructor; [now apply bare_words_text|auto]. }
  exists (l0 :: map deeper ls). split; [reflexivity|]. split.
  - constructor; [exact N0|]. apply Forall_map. apply (Forall_impl _) with (2 := NS). intros l H. unfold deeper. rewrite in_app_iff. intros [I|I]; [|contradiction]. revert I. vm_compute. intuition discriminate.
  - intros rest c s E. cbn [map filter]. rewrite code_bare, C0 by exact B0. cbn [app sects]. rewrite heading_bare, I0 by exact B0.
    rewrite (more_lines ls BL rest [] c s E). cbn [loose begun sections]. now rewrite app_nil_r.
Qed.

(** What the line formatter does. *)
Lemma rest_shape (q : text) n : n <= length q -> exists a, skipn n (q ++ [newline]) = a ++ [newline] /\ incl a q.
Proof.
  intro L. exists (skipn n q). split; [rewrite skipn_app; replace (n - length q) with 0 by lia; reflexivity|]. intros x I. rewrite <- (firstn_skipn n q). apply in_app_iff. now right.
Qed.
Lemma fmt_lines fuel : forall q new r, ~ In newline q -> isspace (q ++ [newline]) = false -> fmt_loop fuel (q ++ [newline]) new = Some r ->
  exists l0 ls, r = new ++ with_ends (l0 :: map deeper ls) /\ ~ In newline l0 /\ Forall (fun l => ~ In newline l) ls /\
    forall d t, q = d :: t -> d <> blank -> exists l1, l0 = d :: l1.
Proof.
  induction fuel as [|f IH]; intros q new r NQ SP H; [discriminate|]. cbn [fmt_loop] in H. destruct (Nat.leb_spec (length (q ++ [newline])) 72) as [L|L].
  - rewrite SP in H. injection H as <-. exists q, []. split; [unfold with_ends; cbn [map concat]; now rewrite app_nil_r|]. split; [exact NQ|]. split; [constructor|]. intros d t -> _. now exists t.
  - rewrite app_length in L. cbn [length] in L. cbv zeta in H. set (p := rfind blank (slice_to (q ++ [newline]) 72)) in *.
    assert (PB : (-1 <= p < 72)%Z).
    { unfold p. pose proof (rfind_bounds blank (slice_to (q ++ [newline]) 72)) as B. assert (length (slice_to (q ++ [newline]) 72) <= 72) by (unfold slice_to; cbn; apply firstn_le_length). lia. }
    assert (HD : exists n, slice_to (q ++ [newline]) p = firstn n q /\ slice_from (q ++ [newline]) p = skipn n (q ++ [newline]) /\ n <= length q /\ (n = 0 -> p = 0%Z)).
    { destruct (Z.ltb_spec p 0) as [P|P].
      - assert (p = (-1)%Z) by lia. exists (length q). unfold slice_to, slice_from. destruct (Z.ltb_spec p 0); [|lia]. replace (length (q ++ [newline]) - Z.to_nat (- p)) with (length q) by (rewrite app_length; cbn [length]; lia).
        split; [rewrite firstn_app; replace (length q - length q) with 0 by lia; cbn [firstn]; apply app_nil_r|]. split; [reflexivity|]. split; lia.
      - exists (Z.to_nat p). unfold slice_to, slice_from. destruct (Z.ltb_spec p 0); [lia|].
        split; [rewrite firstn_app; replace (Z.to_nat p - length q) with 0 by lia; cbn [firstn]; apply app_nil_r|]. split; [reflexivity|]. split; lia. }
    destruct HD as (n & E1 & E2 & LN & NZ). rewrite E1, E2 in H.
    assert (N1 : ~ In newline (firstn n q)) by (intro I; apply NQ; rewrite <- (firstn_skipn n q); apply in_app_iff; now left).
    assert (HH : forall d t, q = d :: t -> d <> blank -> exists l1, firstn n q = d :: l1).
    { intros d t -> D. destruct n as [|n]; [|now exists (firstn n t)]. exfalso. specialize (NZ eq_refl). unfold p in NZ.
      destruct (rfind_split blank _ 0 NZ) as (a & b & EE & LA & _). destruct a; [|discriminate]. unfold slice_to in EE. cbn in EE. injection EE as EE _. congruence. }
    destruct (isspace (skipn n (q ++ [newline]))) eqn:SS.
    + injection H as <-. exists (firstn n q), []. split; [unfold with_ends; cbn [map concat]; now rewrite app_nil_r|]. split; [exact N1|]. split; [constructor|exact HH].
    + destruct (rest_shape q n LN) as (a & EA & IA). rewrite EA in *. apply IH in H as (l0 & ls & -> & A & B & _); [|intro I; now apply NQ, IA|exact SS].
      exists (firstn n q), (l0 :: ls). split; [|split; [exact N1|split; [now constructor|exact HH]]].
      unfold with_ends. cbn [map concat]. unfold deeper at 2. rewrite <- !app_assoc. reflexivity.
Qed.
Lemma formatter_sheet d t : ~ In newline (d :: t) -> is_space d = false -> d <> "c"%char -> d <> "C"%char -> runs_at_most 70 (d :: t ++ [newline]) ->
  Forall bare_word (words (d :: t)) -> exists r, lasting (fun f => mcnp_line_formatter f (d :: t ++ [newline])) r /\ sheet r [words (d :: t)].
Proof.
  intros N S C1 C2 R B. destruct (formatter_words _ R) as (r & (fuel & F) & W). exists r. split; [apply lasting_format; now exists fuel|].
  assert (WE : words (d :: t ++ [newline]) = words (d :: t)) by (change (d :: t ++ [newline]) with ((d :: t) ++ [newline]); now apply words_app_space_r).
  assert (SP : isspace ((d :: t) ++ [newline]) = false) by (cbn; now rewrite S).
  assert (K : exists l0 ls, r = with_ends (l0 :: map deeper ls) /\ ~ In newline l0 /\ Forall (fun l => ~ In newline l) ls /\ exists l1, l0 = d :: l1).
  { unfold mcnp_line_formatter in F. destruct (length _ <? 72).
    - injection F as <-. exists (d :: t), []. split; [unfold with_ends; cbn [map concat]; now rewrite app_nil_r|]. split; [exact N|]. split; [constructor|now exists t].
    - destruct (fmt_lines fuel (d :: t) [] r N SP F) as (l0 & ls & E & A1 & A2 & A3). exists l0, ls. split; [exact E|]. split; [exact A1|]. split; [exact A2|].
      apply (A3 d t eq_refl). intros ->. discriminate. }
  destruct K as (l0 & ls & -> & N0 & NS & l1 & ->). rewrite <- WE, <- W. apply lines_sheet; [exact N0|exact NS| | |exact (eq_ind_r (Forall bare_word) B (eq_trans W WE))].
  - unfold indented. change (firstn 5 (d :: l1)) with (d :: firstn 4 l1). change (T "     ") with (blank :: T "    "). destruct (text_eqb_spec (d :: firstn 4 l1) (blank :: T "    ")) as [E|E]; [|reflexivity]. injection E as E _. subst d. discriminate.
  - unfold counts. cbn [words]. rewrite S. assert (X : forall w, negb (existsb (text_eqb (d :: w)) [T "c"; T "C"]) = true).
    { intro w. cbn [existsb]. destruct (text_eqb_spec (d :: w) (T "c")) as [E|_]; [injection E as E _; congruence|]. destruct (text_eqb_spec (d :: w) (T "C")) as [E|_]; [injection E as E _; congruence|reflexivity]. }
    destruct l1 as [|e l1]; [now rewrite X, orb_true_r|]. destruct (is_space e); [now rewrite X, orb_true_r|]. destruct (words (e :: l1)); now rewrite X, orb_true_r.
Qed.

(** ** Surfaces *)

Lemma digit_bare c : is_digit c = true -> bare c = true.
Proof. intro D. unfold bare. destruct (existsb (Ascii.eqb c) (T "$![")) eqn:E; [|reflexivity]. apply existsb_exists in E as (d & I & E). apply Ascii.eqb_eq in E. subst d. cbn in I. destruct I as [<-|[<-|[<-|[]]]]; discriminate. Qed.
Lemma numeral_bare w : numeral w -> bare_word w.
Proof.
  intros (_ & _ & F). unfold bare_word. rewrite forallb_forall in *. intros c I. specialize (F c I). apply orb_true_iff in F as [F|F]; [now apply digit_bare|].
  apply existsb_exists in F as (d & J & E). apply Ascii.eqb_eq in E. subst d. cbn in J. destruct J as [<-|[<-|[<-|[<-|[]]]]]; reflexivity.
Qed.
Lemma int_bare z : bare_word (str_Z z).
Proof. apply forallb_forall. intros c I. destruct (int_word_chars _ (int_word_str z) c I) as [H | ->]; [now apply digit_bare|reflexivity]. Qed.
Lemma bare_app a b : bare_word a -> bare_word b -> bare_word (a ++ b).
Proof. unfold bare_word. intros A B. now rewrite forallb_app, A, B. Qed.
Lemma digits_bare w : forallb is_digit w = true -> bare_word w.
Proof. intro F. unfold bare_word. rewrite forallb_forall in *. intros c I. apply digit_bare. auto. Qed.

Definition phits_surface (str : R -> text) (s : surface) (sn : sense) : Prop :=
  surf_sense s = Some sn /\ ~ sheeted s /\ s_bc s <> PERIODIC /\ length (str_Z (s_id s)) <= 60 /\ Forall (fun x => numeral (str x)) (s_coef s).
Lemma first_char z : exists d t, str_Z z = d :: t /\ is_space d = false /\ d <> "c"%char /\ d <> "C"%char.
Proof.
  destruct (str_Z z) as [|d t] eqn:E; [exfalso; revert E; apply int_word_nonempty, int_word_str|]. exists d, t. split; [reflexivity|].
  destruct (int_word_chars _ (int_word_str z) d) as [H|H]; [rewrite E; now left| |subst d; repeat split; discriminate].
  split; [destruct (is_space d) eqn:S; [apply space_not_digit in S; congruence|reflexivity]|]. split; intros ->; discriminate.
Qed.
Lemma surface_sheet str s b sn : phits_surface str s sn ->
  exists t card, lasting (fun f => mcnp_surface str f (s, b)) t /\ sheet t [card] /\ surf_card str card (s_id s) (s_bc s) sn.
Proof.
  intros (E & NS & NP & LI & NC). destruct (mcnp_form str s sn E NS) as (m & vals & sn' & B & M & SS & IN & NE & LM & WM & DM & FM & _).
  assert (PV : Forall (fun x => numeral (str x)) vals) by (apply Forall_forall; intros x I; rewrite Forall_forall in NC; auto).
  assert (BB : exists bt, mcnp_boundary (s_bc s) = Some bt /\ phits_mark (s_bc s) = Some bt /\ (bt = [] \/ bt = T "*" \/ bt = T "+"))
    by (destruct (s_bc s); try contradiction; eexists; (split; [reflexivity|]); (split; [reflexivity|auto])).
  destruct BB as (bt & EB & EM & CB).
  set (t := bt ++ str_Z (s_id s) ++ T " " ++ T m ++ T " " ++ numbers str vals ++ nl).
  assert (ET : mcnp_surface_text str s = Some t) by (unfold mcnp_surface_text; rewrite EB, B; reflexivity).
  destruct (word_str_Z (s_id s)) as [NI SI].
  assert (WI : word (bt ++ str_Z (s_id s))).
  { split; [intro F; apply app_eq_nil in F as [_ F]; contradiction|]. unfold nonspace in *. rewrite forallb_app, SI. destruct CB as [-> |[-> | ->]]; reflexivity. }
  assert (WV : Forall (fun w => word w) (map str vals)).
  { apply Forall_map. apply (Forall_impl _) with (2 := PV). intros x N. destruct (numeral_facts _ N) as (A & _ & D & _). now split. }
  assert (WN : words (numbers str vals ++ nl) = map str vals).
  { rewrite words_sep by (rewrite orb_true_iff; right; reflexivity). unfold numbers. rewrite words_spread, words_words; [cbn; apply app_nil_r|exact WV]. }
  assert (WT : words t = (bt ++ str_Z (s_id s)) :: T m :: map str vals).
  { unfold t. rewrite app_assoc, words_head by apply WI. rewrite words_head by apply WM. now rewrite WN. }
  assert (RU : runs_at_most 70 t).
  { apply runs_maxrun. unfold t. rewrite app_assoc. change (T " ") with [blank]. cbn [app]. rewrite !maxrun_app_blank.
    pose proof (maxrun_noblank (bt ++ str_Z (s_id s))) as M1. rewrite app_length in M1.
    assert (length bt <= 1) by (destruct CB as [-> |[-> | ->]]; cbn; lia).
    pose proof (maxrun_noblank (T m)). assert (M3 : maxrun (numbers str vals ++ nl) <= 41).
    { apply maxrun_spread. apply Forall_map. apply (Forall_impl _) with (2 := PV). intros x (_ & L & _). exact L. }
    lia. }
  assert (HD : exists d q, t = d :: q ++ [newline] /\ is_space d = false /\ d <> "c"%char /\ d <> "C"%char /\ d :: q = bt ++ str_Z (s_id s) ++ T " " ++ T m ++ T " " ++ numbers str vals).
  { assert (X : exists d q, bt ++ str_Z (s_id s) = d :: q /\ is_space d = false /\ d <> "c"%char /\ d <> "C"%char).
    { destruct (first_char (s_id s)) as (d & q & EQ & D1 & D2 & D3). rewrite EQ. destruct CB as [-> |[-> | ->]]; [now exists d, q|..].
      - exists "*"%char, (d :: q). split; [reflexivity|]. split; [reflexivity|]. split; discriminate.
      - exists "+"%char, (d :: q). split; [reflexivity|]. split; [reflexivity|]. split; discriminate. }
    destruct X as (d & q & EX & D1 & D2 & D3). exists d, (q ++ T " " ++ T m ++ T " " ++ numbers str vals). unfold t. rewrite !(app_assoc bt), EX.
    split; [|split; [exact D1|split; [exact D2|split; [exact D3|reflexivity]]]]. unfold nl. rewrite <- !app_assoc. reflexivity. }
  destruct HD as (d & q & EQ & D1 & D2 & D3 & EP).
  assert (WQ : words (d :: q) = words t) by (rewrite EQ; symmetry; change (d :: q ++ [newline]) with ((d :: q) ++ [newline]); now apply words_app_space_r).
  destruct (formatter_sheet d q) as (r & L & SH); [|exact D1|exact D2|exact D3|now rewrite <- EQ| |].
  - rewrite EP. intro I. rewrite !in_app_iff in I. assert (WORD : forall w, nonspace w -> ~ In newline w).
    { intros w H J. unfold nonspace in H. rewrite forallb_forall in H. specialize (H _ J). discriminate. }
    destruct I as [I|[I|[I|[I|[I|I]]]]].
    + destruct CB as [-> |[-> | ->]]; cbn in I; intuition discriminate.
    + revert I. now apply WORD.
    + destruct I as [I|[]]; discriminate.
    + revert I. apply WORD, WM.
    + destruct I as [I|[]]; discriminate.
    + unfold numbers, spread in I. clear - I WV WORD. induction (map str vals) as [|w l IH]; [destruct I|]. inversion WV as [|? ? W1 W2]; subst.
      destruct l as [|v l]; [cbn in I; revert I; apply WORD, W1|]. change (join_sp (w :: v :: l)) with (w ++ blank :: join_sp (v :: l)) in I.
      apply in_app_iff in I as [I|[I|I]]; [revert I; apply WORD, W1|discriminate|auto].
  - rewrite WQ, WT. constructor; [|constructor].
    + apply bare_app; [destruct CB as [-> |[-> | ->]]; reflexivity|apply int_bare].
    + inversion M; subst; reflexivity.
    + apply Forall_map. apply (Forall_impl _) with (2 := PV). intros x N. now apply numeral_bare.
  - rewrite WQ, WT in SH. exists r. eexists. split; [|split; [exact SH|exists bt, m, vals, sn'; split; [reflexivity|]; split; [exact EM|]; split; [exact M|exact SS]]].
    destruct L as (k & L). exists k. intros f LE. unfold mcnp_surface. cbn [fst]. rewrite ET, EQ. now apply L.
Qed.

(** ** Cells *)

Lemma apart_app a b : apart (a ++ b) = apart a ++ apart b.
Proof. unfold apart. apply flat_map_app. Qed.
Lemma words_first d r : is_space d = false -> exists w ws, words (d :: r) = (d :: w) :: ws.
Proof.
  intro S. cbn [words]. rewrite S. destruct r as [|e r]; [now exists [], []|]. destruct (is_space e); [now exists [], (words (e :: r))|].
  destruct (words (e :: r)) as [|w ws]; [now exists [], []|now exists w, ws].
Qed.
Lemma words_join d e r w ws : is_space d = false -> is_space e = false -> words (e :: r) = w :: ws -> words (d :: e :: r) = (d :: w) :: ws.
Proof. intros S1 S2 W. change (words (d :: e :: r)) with (if is_space d then words (e :: r) else if is_space e then [d] :: words (e :: r) else match words (e :: r) with w :: ws => (d :: w) :: ws | [] => [[d]] end). now rewrite S1, S2, W. Qed.
Lemma words_apart t : words (apart t) = flat_map (fun k => words (apart k)) (words t).
Proof.
  induction t as [|c t IH]; [reflexivity|].
  assert (PAR : forall x, existsb (Ascii.eqb c) (T "()") = true -> words (apart (c :: x)) = [c] :: words (apart x)).
  { intros x P. unfold apart. cbn [flat_map]. rewrite P. fold (apart x). cbn [app]. assert (S : is_space c = false) by (cbn in P; destruct (Ascii.eqb_spec c "("); [now subst c|]; destruct (Ascii.eqb_spec c ")"); [now subst c|discriminate]).
    rewrite words_cons_space by reflexivity. change (c :: blank :: apart x) with ([c] ++ blank :: apart x). rewrite words_app_space by reflexivity. rewrite words_single; [reflexivity|discriminate|cbn; now rewrite S]. }
  assert (NOT : forall x, existsb (Ascii.eqb c) (T "()") = false -> apart (c :: x) = c :: apart x) by (intros x P; unfold apart; cbn [flat_map]; now rewrite P).
  destruct (is_space c) eqn:S.
  - rewrite words_cons_space by exact S. rewrite NOT by (destruct (existsb (Ascii.eqb c) (T "()")) eqn:P; [cbn in P; destruct (Ascii.eqb_spec c "("); [subst; discriminate|]; destruct (Ascii.eqb_spec c ")"); [subst; discriminate|]; discriminate|reflexivity]).
    now rewrite words_cons_space by exact S.
  - destruct t as [|d r].
    + rewrite (words_single [c]); [|discriminate|cbn; now rewrite S]. cbn [flat_map]. now rewrite app_nil_r.
    + destruct (is_space d) eqn:SD.
      * assert (ND : existsb (Ascii.eqb d) (T "()") = false) by (destruct (existsb (Ascii.eqb d) (T "()")) eqn:P; [cbn in P; destruct (Ascii.eqb_spec d "("); [subst; discriminate|]; destruct (Ascii.eqb_spec d ")"); [subst; discriminate|]; discriminate|reflexivity]).
        change (c :: d :: r) with ([c] ++ d :: r). rewrite words_app_space, apart_app by exact SD. rewrite flat_map_app, <- (words_cons_space d r SD), <- IH.
        assert (AD : apart (d :: r) = d :: apart r) by (unfold apart; cbn [flat_map]; now rewrite ND).
        rewrite AD, words_app_space by exact SD. rewrite (words_cons_space d _ SD). f_equal. rewrite (words_single [c]); [|discriminate|cbn; now rewrite S]. cbn [flat_map]. now rewrite app_nil_r.
      * destruct (words_first d r SD) as (w & ws & W). rewrite (words_join c d r _ _ S SD W). rewrite W in IH. cbn [flat_map] in IH |- *.
        destruct (existsb (Ascii.eqb c) (T "()")) eqn:P.
        { rewrite !PAR, IH by reflexivity. reflexivity. }
        rewrite !NOT by reflexivity. destruct (existsb (Ascii.eqb d) (T "()")) eqn:PD.
        { assert (AD : forall x, apart (d :: x) = blank :: d :: blank :: apart x) by (intro x; unfold apart; cbn [flat_map]; now rewrite PD).
          rewrite !AD in *. change (c :: blank :: ?x) with ([c] ++ blank :: x). rewrite !words_app_space by reflexivity. rewrite (words_cons_space blank) in IH by reflexivity. rewrite IH, <- app_assoc.
          now rewrite (words_cons_space blank) by reflexivity. }
        assert (AD : forall x, apart (d :: x) = d :: apart x) by (intro x; unfold apart; cbn [flat_map]; now rewrite PD).
        rewrite !AD in *. destruct (words_first d (apart w) SD) as (v & vs & V). rewrite V in IH. cbn [app] in IH.
        rewrite (words_join c d _ _ _ S SD IH), (words_join c d _ _ _ S SD V). reflexivity.
Qed.
Lemma apart_none w : ~ In "("%char w -> ~ In ")"%char w -> apart w = w.
Proof.
  induction w as [|c w IH]; intros A B; [reflexivity|]. unfold apart. cbn [flat_map]. fold (apart w). rewrite IH by (intro I; first [apply A; right; exact I | apply B; right; exact I]).
  cbn [T list_ascii_of_string existsb]. destruct (Ascii.eqb_spec c "(") as [->|_]; [exfalso; apply A; now left|]. destruct (Ascii.eqb_spec c ")") as [->|_]; [exfalso; apply B; now left|reflexivity].
Qed.
Section Cell.
Context (show : Q -> text) (c : gcell) (r : region) (G : good_gcell show c r).

Definition kw0 : text := mcnp_keywords false (to_w show c).
Lemma kw0_prefix : kw_text show c = kw0 ++ T " IMP:N=" ++ show (g_imp c).
Proof. unfold kw_text, kw0, mcnp_keywords, to_w. cbn [w_univ w_fill w_offset w_rot w_imp]. rewrite app_nil_r, <- !app_assoc. reflexivity. Qed.
Lemma numeral_apart w : numeral w -> apart w = w.
Proof. intros (_ & _ & F). rewrite forallb_forall in F. apply apart_none; intro I; specialize (F _ I); discriminate. Qed.
Lemma concat_apart l : Forall numeral l -> apart (concat_sp l) = concat_sp l.
Proof.
  induction 1 as [|w l N F IH]; [reflexivity|]. change (concat_sp (w :: l)) with ((w ++ [blank]) ++ concat_sp l). rewrite !apart_app, IH, numeral_apart by exact N. reflexivity.
Qed.
Lemma concat_bare l : Forall numeral l -> forallb bare (concat_sp l) = true.
Proof.
  induction 1 as [|w l N F IH]; [reflexivity|]. change (concat_sp (w :: l)) with ((w ++ [blank]) ++ concat_sp l). rewrite !forallb_app, IH. rewrite (numeral_bare w N). reflexivity.
Qed.
Lemma inner_apart : apart (inner_text c) = inner_text c /\ forallb bare (inner_text c) = true.
Proof.
  destruct G as (_ & _ & _ & _ & _ & _ & _ & _ & _ & GO & GR & _). unfold inner_text, off_text, rot_text. rewrite apart_app, forallb_app.
  assert (O : apart (off_text c) = off_text c /\ forallb bare (off_text c) = true).
  { unfold off_text. destruct (g_offset c) as [o|]; [|split; reflexivity]. destruct (GO o eq_refl) as [L F]. rewrite <- L, firstn_all. split; [now apply concat_apart|now apply concat_bare]. }
  assert (R : apart (rot_text c) = rot_text c /\ forallb bare (rot_text c) = true).
  { unfold rot_text. destruct (g_rot c) as [o|]; [|split; reflexivity]. destruct (GR o eq_refl) as [L F]. rewrite <- L, firstn_all. split; [now apply concat_apart|now apply concat_bare]. }
  unfold off_text, rot_text in O, R. destruct O as [-> ->], R as [-> ->]. now split.
Qed.
Definition fill_words : list text := match g_fill c with Some x => (T "fill=" ++ x) :: match placement (g_offset c) (g_rot c) with [] => [] | p => T "(" :: p ++ [T ")"] end | None => [] end.
Lemma kw0_words : words (apart kw0) = match g_univ c with Some x => [T "u=" ++ x] | None => [] end ++ fill_words /\ forallb bare kw0 = true.
Proof.
  destruct inner_apart as [IA IB]. assert (IW := inner_words show c r G).
  destruct G as (_ & _ & _ & _ & _ & _ & _ & GU & GF & GO & GR & _).
  unfold kw0, mcnp_keywords, to_w. cbn [w_univ w_fill w_offset w_rot]. rewrite app_nil_r.
  assert (U : words (apart match g_univ c with Some u => T " u=" ++ u | None => [] end) = match g_univ c with Some x => [T "u=" ++ x] | None => [] end /\
              forallb bare match g_univ c with Some u => T " u=" ++ u | None => [] end = true).
  { destruct (g_univ c) as [u|]; [|split; reflexivity]. destruct (GU u eq_refl) as [N L]. assert (NU : numeral u) by now apply number_numeral. destruct (numeral_facts u NU) as (A & _ & B & _).
    rewrite apart_app, (numeral_apart u NU). split; [|rewrite forallb_app, (numeral_bare u NU); reflexivity].
    change (apart (T " u=") ++ u) with (blank :: T "u=" ++ u). rewrite words_cons_space by reflexivity. apply words_single; [discriminate|]. unfold nonspace in *. rewrite forallb_app, B. reflexivity. }
  destruct U as [U1 U2]. unfold fill_words. rewrite apart_app, forallb_app, U2.
  destruct (g_fill c) as [f|]; [|rewrite !app_nil_r; now split].
  destruct (GF f eq_refl) as [N L]. assert (NU : numeral f) by now apply number_numeral. destruct (numeral_facts f NU) as (A & _ & B & _).
  assert (WF : nonspace (T "fill=" ++ f)) by (unfold nonspace in *; rewrite forallb_app, B; reflexivity).
  assert (MAIN : forall X p, words (apart X) = p -> forallb bare X = true ->
    words (apart match g_univ c with Some u => T " u=" ++ u | None => [] end ++ apart (T " fill=" ++ f ++ T " " ++ X)) = match g_univ c with Some x => [T "u=" ++ x] | None => [] end ++ (T "fill=" ++ f) :: p /\
    forallb bare (T " fill=" ++ f ++ T " " ++ X) = true).
  { intros X p WX BX. split; [|rewrite !forallb_app, BX, (numeral_bare f NU); reflexivity].
    rewrite !apart_app, (numeral_apart f NU). change (apart (T " fill=") ++ ?x) with (blank :: T "fill=" ++ x). rewrite words_app_space, U1 by reflexivity. f_equal.
    rewrite app_assoc. change (apart (T " ")) with (T " "). rewrite words_head by (discriminate || exact WF). now rewrite WX. }
  assert (INNER : g_offset c <> None \/ g_rot c <> None -> words (apart (T "(" ++ inner_text c ++ T ")")) = T "(" :: placement (g_offset c) (g_rot c) ++ [T ")"] /\ forallb bare (T "(" ++ inner_text c ++ T ")") = true).
  { intro H. split; [|rewrite !forallb_app, IB; reflexivity]. rewrite !apart_app, IA. change (apart (T "(")) with (T " ( "). change (apart (T ")")) with (blank :: T ") ").
    change (T " ( " ++ ?x) with (blank :: T "(" ++ T " " ++ x). rewrite words_cons_space, words_head by (discriminate || reflexivity). f_equal. rewrite words_app_space by reflexivity. now rewrite (IW H). }
  assert (NE : g_offset c <> None \/ g_rot c <> None -> placement (g_offset c) (g_rot c) <> []).
  { unfold placement. intro H. destruct (g_offset c) as [o|]; [destruct (GO o eq_refl) as [LO _]; destruct o; discriminate|]. destruct (g_rot c); [discriminate|tauto]. }
  assert (EQ : match g_offset c, g_rot c with None, None => [] | off, rot => T "(" ++ match off with Some o => concat_sp (firstn 3 o) | None => T " 0 0 0 " end ++
      match rot with Some r => concat_sp (firstn 9 r) | None => [] end ++ T ")" end =
    if match g_offset c, g_rot c with None, None => true | _, _ => false end then [] else T "(" ++ inner_text c ++ T ")").
  { unfold inner_text, off_text, rot_text. destruct (g_offset c), (g_rot c); rewrite <- ?app_assoc; reflexivity. }
  rewrite EQ. clear EQ. destruct (g_offset c) as [o|] eqn:EO; [|destruct (g_rot c) as [m|] eqn:ER].
  - specialize (INNER ltac:(left; discriminate)). specialize (NE ltac:(left; discriminate)). apply MAIN; [|apply INNER]. rewrite (proj1 INNER). destruct (placement (Some o) (g_rot c)); [contradiction|reflexivity].
  - specialize (INNER ltac:(right; discriminate)). specialize (NE ltac:(right; discriminate)). apply MAIN; [|apply INNER]. rewrite (proj1 INNER). destruct (placement None (Some m)); [contradiction|reflexivity].
  - now apply MAIN.
Qed.

Lemma cell_sheet : exists t card, lasting (fun f => write_mcnp_cell f false (to_w show c)) t /\ sheet t [card] /\
  forall r, expr (toks (g_items c)) r -> cell_card card (g_id c) (g_mat c) (g_dens c) (g_univ c) (g_fill c) (placement (g_offset c) (g_rot c)) r.
Proof.
  destruct (body_facts show c r G) as (B1 & B2 & _ & _). destruct (body_head show c r G) as (d & t & BH & SD). destruct (kw_runs show c r G) as [_ K].
  destruct (kw_chunks show c r G) as (ch & KC & FC). destruct kw0_words as [KW KB].
  assert (KN : ~ In newline kw0).
  { intro I. assert (J : In newline (kw_text show c)) by (rewrite kw0_prefix, in_app_iff; now left). rewrite KC in J. apply (chunks_space _ _ FC) in J as [J|J]; discriminate. }
  assert (KR : maxrun kw0 <= 50).
  { rewrite kw0_prefix in K. change (T " IMP:N=" ++ ?x) with (blank :: T "IMP:N=" ++ x) in K. rewrite maxrun_app_blank in K. lia. }
  destruct G as (G1 & G2 & G3 & GD & GS & GE & GW & _).
  assert (IW : Forall int_word (words_of (g_items c))) by (apply (Forall_impl _) with (2 := GW); now intros a [A _]).
  assert (WU : forall z, length (str_Z z) <= 60 -> word_upto 60 (str_Z z)) by (intros z L; destruct (str_Z_word_upto z) as [A B]; repeat split; assumption).
  destruct (mcnp_text_facts false (to_w show c) false) as (_ & F2 & F3).
  { now apply WU. } { exact G2. }
  { intro M. destruct (GD M) as (N & _). destruct (numeral_facts _ N) as (A & B & D & _). repeat split; [exact A|exact D|cbn [w_dens to_w]; lia]. }
  { exact GS. } { apply (Forall_impl _) with (2 := GW). now intros a [_ A]. } { apply runs_maxrun. unfold kw0 in KR. lia. }
  cbn [w_items to_w] in F2. fold kw0 in F2. set (g := flat_map mcnp_op (g_items c) ++ [newline]) in *.
  assert (TE : mcnp_text false (to_w show c) = d :: (t ++ kw0) ++ [newline]) by (unfold mcnp_text; fold (body show c) kw0; rewrite BH, <- app_assoc; reflexivity).
  assert (CD : body_char d = true) by (rewrite BH in B1; cbn [forallb] in B1; now apply andb_true_iff in B1).
  assert (WT : words (d :: t ++ kw0) = words (mcnp_text false (to_w show c))) by (rewrite TE; symmetry; change (d :: (t ++ kw0) ++ [newline]) with ((d :: t ++ kw0) ++ [newline]); now apply words_app_space_r).
  assert (BB : forallb bare (d :: t ++ kw0) = true).
  { change (d :: t ++ kw0) with ((d :: t) ++ kw0). rewrite <- BH, forallb_app, KB, andb_true_r. apply forallb_forall. intros x I. rewrite forallb_forall in B1. specialize (B1 x I). revert B1. apply body_char_facts; [apply digit_bare|reflexivity]. }
  destruct (formatter_sheet d (t ++ kw0)) as (out & L & SH); [|exact SD| | |rewrite <- TE; apply runs_maxrun; lia| |].
  - change (d :: t ++ kw0) with ((d :: t) ++ kw0). rewrite <- BH, in_app_iff. tauto.
  - intros ->. discriminate.
  - intros ->. discriminate.
  - apply Forall_forall. intros w I. apply forallb_forall. intros x J. rewrite forallb_forall in BB. apply BB. eapply in_words_in; eassumption.
  - exists out. eexists. split; [|split; [exact SH|]].
    + destruct L as (k & L). exists k. intros f LE. unfold write_mcnp_cell. rewrite TE. now apply L.
    + intros r' E. exists (words g), (words kw0), r'. split; [|split; [|split; [|split; [reflexivity|]]]].
      * rewrite WT, F2. unfold mcnp_head, to_w. cbn [w_id w_mat w_dens app]. reflexivity.
      * intros w I J. assert (X : In "="%char g) by (eapply in_words_in; eassumption). unfold g in X. apply in_app_iff in X as [X|[X|[]]]; [|discriminate].
        assert (Y := items_body _ IW). rewrite forallb_forall in Y. specialize (Y _ X). discriminate.
      * rewrite <- lex_words_eqn. unfold g. rewrite (mcnp_render _ false); [|exact GS|apply (Forall_impl _) with (2 := IW); intros w H; now apply plain_one_atom, int_word_plain|]. 
        -- change (mcnp_lex [newline]) with (@nil rtok). now rewrite app_nil_r.
        -- eauto.
      * rewrite <- words_apart. rewrite KW. unfold fill_words. destruct (g_fill c); [|reflexivity]. destruct (placement (g_offset c) (g_rot c)); reflexivity.
Qed.
End Cell.

(** ** Importances and materials *)

Lemma importance_sheet show c : numeral (show (g_imp c)) -> sheet (phits_importance show c) [[str_Z (g_id c); show (g_imp c)]].
Proof.
  intro N. destruct (numeral_facts _ N) as (A & _ & B & _). destruct (first_char (g_id c)) as (d & t & E & D1 & D2 & D3). destruct (word_str_Z (g_id c)) as [NI SI].
  set (l := T "    " ++ str_Z (g_id c) ++ T "        " ++ show (g_imp c)).
  assert (W : words l = [str_Z (g_id c); show (g_imp c)]).
  { unfold l. rewrite words_app_space_l by reflexivity. change (T "        " ++ ?x) with (T " " ++ T "       " ++ x). rewrite words_head by assumption.
    rewrite words_app_space_l by reflexivity. now rewrite words_single by assumption. }
  assert (WE : words (with_ends (l :: map deeper [])) = words l) by (rewrite words_with_ends; cbn [map flat_map]; apply app_nil_r).
  assert (X : phits_importance show c = with_ends (l :: map deeper [])) by (unfold phits_importance, with_ends, l; cbn [map concat]; rewrite app_nil_r, <- !app_assoc; reflexivity).
  rewrite X, <- W, <- WE. apply lines_sheet; [|constructor| | |].
  - unfold l. rewrite !in_app_iff. unfold nonspace in *. rewrite forallb_forall in SI, B. intros [I|[I|[I|I]]]; [| apply SI in I; discriminate| |apply B in I; discriminate].
    all: cbn in I; intuition discriminate.
  - unfold l. rewrite E. unfold indented. change (firstn 5 (T "    " ++ (d :: t) ++ T "        " ++ show (g_imp c))) with (T "    " ++ [d]). destruct (text_eqb_spec (T "    " ++ [d]) (T "     ")) as [H|H]; [|reflexivity].
    cbn in H. injection H as ->. discriminate.
  - unfold counts. rewrite W, E. assert (Y : existsb (text_eqb (d :: t)) [T "c"; T "C"] = false).
    { cbn [existsb]. destruct (text_eqb_spec (d :: t) (T "c")) as [H|_]; [injection H as H _; congruence|]. destruct (text_eqb_spec (d :: t) (T "C")) as [H|_]; [injection H as H _; congruence|reflexivity]. }
    rewrite Y. apply orb_true_r.
  - rewrite WE, W. constructor; [apply int_bare|constructor; [now apply numeral_bare|constructor]].
Qed.

Definition phits_material (show : Q -> text) (m : material) : Prop :=
  zaid (m_num m) /\ m_comp m <> [] /\
  Forall (fun e => zaid (fst e) /\ numeral (show (snd e)) /\ exists x, dget (fst e) (m_xs m) = Some x /\ nonspace x /\ bare_word x) (m_comp m).
Lemma material_sheet show m : phits_material show m -> exists t card, write_mcnp_material show true false m = Some t /\ sheet t [card] /\ mat_card show card m.
Proof.
  intros ((ZN & ZD) & NE & FN). exists (with_ends (mat_lines show true false m)). eexists. split.
  { apply (lines_written show true false m NE). apply (Forall_impl _) with (2 := FN). intros e (_ & _ & x & E & _) _. now exists x. }
  split; [|unfold mat_card; reflexivity]. unfold mat_lines. cbn [app]. destruct (m_comp m) as [|e es] eqn:CE; [tauto|]. rewrite <- CE in FN.
  set (entry := fun e : text * Q => token true m e ++ T " " ++ show (snd e)).
  assert (TK : forall e, In e (m_comp m) -> token true m e <> [] /\ nonspace (token true m e) /\ bare_word (token true m e)).
  { intros x I. rewrite Forall_forall in FN. destruct (FN x I) as ((ZX & ZY) & _ & lib & EL & LW & BL).
    unfold token. rewrite EL. split; [intro H; apply app_eq_nil in H as [_ H]; discriminate|]. split.
    - unfold nonspace. rewrite !forallb_app. apply andb_true_iff. split.
      + rewrite forallb_forall in *. intros y J. specialize (ZY y J). destruct (is_space y) eqn:S; [apply space_not_digit in S; congruence|reflexivity].
      + change (forallb (fun c => negb (is_space c)) (T ".")) with true. cbn [andb]. exact LW.
    - apply bare_app; [now apply digits_bare|]. apply bare_app; [reflexivity|exact BL]. }
  assert (WD : forall x, In x (m_comp m) -> words (entry x) = [token true m x; show (snd x)] /\ ~ In newline (entry x)).
  { intros x I. destruct (TK x I) as (T1 & T2 & T3). rewrite Forall_forall in FN. destruct (FN x I) as (_ & N & _). destruct (numeral_facts _ N) as (A & _ & B & _). unfold entry. split.
    - rewrite words_head by assumption. now rewrite words_single by assumption.
    - unfold nonspace in *. rewrite forallb_forall in T2, B. rewrite !in_app_iff. intros [J|[J|J]]; [apply T2 in J; discriminate|destruct J as [J|[]]; discriminate|apply B in J; discriminate]. }
  set (l0 := (T "M" ++ m_num m) ++ deeper (entry e)).
  assert (W0 : words l0 = (T "M" ++ m_num m) :: words (entry e)).
  { unfold l0, deeper. change (T "     " ++ entry e) with (T " " ++ T "    " ++ entry e). rewrite words_head; [now rewrite words_app_space_l by reflexivity|discriminate|].
    unfold nonspace. rewrite forallb_app. change (forallb (fun c => negb (is_space c)) (T "M")) with true. cbn [andb]. rewrite forallb_forall in *. intros y J. specialize (ZD y J). destruct (is_space y) eqn:S; [apply space_not_digit in S; congruence|reflexivity]. }
  assert (EL : (T "M" ++ m_num m ++ nuc_code show true m e) :: map (nuc_code show true m) es = l0 :: map deeper (map entry es)).
  { unfold l0. rewrite map_map. rewrite <- app_assoc. reflexivity. }
  rewrite EL.
  assert (IN : forall x, In x (e :: es) -> In x (m_comp m)) by (rewrite CE; auto).
  assert (WW : words (with_ends (l0 :: map deeper (map entry es))) = (T "M" ++ m_num m) :: flat_map (fun e => [fst e ++ T "." ++ match dget (fst e) (m_xs m) with Some x => x | None => [] end; show (snd e)]) (e :: es)).
  { rewrite words_with_ends. cbn [flat_map]. rewrite W0, (proj1 (WD e (IN e (or_introl eq_refl)))). cbn [app]. do 3 f_equal.
    assert (IN2 : forall x, In x es -> In x (m_comp m)) by (intros x I; apply IN; now right). clear - WD IN2. induction es as [|x es IH]; [reflexivity|]. cbn [map flat_map].
    assert (X : words (deeper (entry x)) = words (entry x)) by reflexivity. rewrite X, (proj1 (WD x (IN2 x (or_introl eq_refl)))), IH; [reflexivity|]. intros y I. apply IN2. now right. }
  rewrite <- WW. apply lines_sheet.
  - unfold l0, deeper. rewrite !in_app_iff. destruct (WD e (IN e (or_introl eq_refl))) as [_ NE0]. rewrite forallb_forall in ZD.
    intros [[I|I]|[I|I]]; [destruct I as [I|[]]; discriminate|apply ZD in I; discriminate|cbn in I; intuition discriminate|contradiction].
  - apply Forall_map. apply Forall_forall. intros x I. apply WD. apply IN. now right.
  - reflexivity.
  - unfold counts. rewrite W0. cbn [app T list_ascii_of_string existsb text_eqb]. apply orb_true_r.
  - rewrite WW. constructor; [apply bare_app; [reflexivity|now apply digits_bare]|]. apply Forall_flat_map. apply Forall_forall. intros x I. apply IN in I.
    constructor; [exact (proj2 (proj2 (TK x I)))|]. constructor; [|constructor]. apply numeral_bare. rewrite Forall_forall in FN. now apply FN.
Qed.

(** ** The file *)

Definition phits_deck (str : R -> text) (show : Q -> text) (d : deck) : Prop :=
  Forall (fun s => exists sn, phits_surface str (fst s) sn) (d_surfs d) /\ Forall (fun c => exists r, good_gcell show c r) (d_cells d) /\
  Forall (fun e => phits_material show (snd e)) (d_mats d).

Lemma sheet_empty b c s : sects (phits_lines b) = Rd [] c s -> sects (phits_lines ((T "" ++ [newline]) ++ b)) = Rd [] c s.
Proof. intro E. unfold phits_lines in *. change (split_on newline ((T "" ++ [newline]) ++ b)) with ([] :: split_on newline b). exact E. Qed.
Lemma section_ok nm n t cs b s : concat (words (code_of (T nm))) = n -> ~ In newline (T nm) -> heading (code_of (T nm)) = true -> counts (code_of (T nm)) = true -> sheet t cs ->
  sects (phits_lines b) = Rd [] [] s -> sects (phits_lines ((T nm ++ [newline]) ++ t ++ b)) = Rd [] [] ((n, cs) :: s).
Proof. intros <- N H C S E. rewrite <- app_assoc. cbn [app]. rewrite (sheet_section t cs b (T nm) [] s S); [now rewrite app_nil_r|now constructor|exact H|exact C|exact E]. Qed.
Lemma line_sheet s : Forall bare_word (words (T s)) -> ~ In newline (T s) -> indented (T s) = false -> counts (T s) = true -> sheet (T s ++ [newline]) [words (T s)].
Proof.
  intros B N I C. assert (WE : words (with_ends (T s :: map deeper [])) = words (T s)) by (rewrite words_with_ends; cbn [map flat_map]; apply app_nil_r).
  assert (X : T s ++ [newline] = with_ends (T s :: map deeper [])) by (unfold with_ends; cbn [map concat]; now rewrite app_nil_r).
  rewrite X, <- WE. apply lines_sheet; [exact N|exact (Forall_nil _)|exact I|exact C|exact (eq_ind_r (Forall bare_word) B WE)].
Qed.

(** C78: the file is written, and PHITS reads in it, with nothing else, a title, the three parameters, a card for every
    surface, a card for every cell, the importance of every cell, and a card for every material, which say what the deck says.
    Missing from the full property: cones cut to one sheet and periodic boundaries, for which MCNP cards lose data or are not
    written (C50), and the outer region (below). *)
Theorem C78_phits_file_partial str show d : phits_deck str show d ->
  exists t ss cc mm, lasting (fun fuel => phits_file str show fuel d) t /\
    phits_reads t = Rd [] [] [(T "[TITLE]", [words (T "This PHITS file was produced automatically by csg2csg")]);
      (T "[PARAMETERS]", [map T ["icntl"; "="; "11"]; map T ["maxbch"; "="; "10"]; map T ["maxcas"; "="; "1000000"]]%string);
      (T "[SURFACE]", ss); (T "[CELL]", cc);
      (T "[IMPORTANCE]", map T ["reg"; "imp"]%string :: map (fun c => [str_Z (g_id c); show (g_imp c)]) (d_cells d));
      (T "[MATERIAL]", mm)] /\
    Forall2 (fun s card => forall sn, surf_sense (fst s) = Some sn -> surf_card str card (s_id (fst s)) (s_bc (fst s)) sn) (d_surfs d) ss /\
    Forall2 (fun c card => forall r, expr (toks (g_items c)) r ->
      cell_card card (g_id c) (g_mat c) (g_dens c) (g_univ c) (g_fill c) (placement (g_offset c) (g_rot c)) r) (d_cells d) cc /\
    Forall2 (fun e card => mat_card show card (snd e)) (d_mats d) mm.
Proof.
  intros (FS & FC & FM).
  destruct (lasting_list (fun f s => mcnp_surface str f s)
    (fun s t => exists card, sheet t [card] /\ forall sn, surf_sense (fst s) = Some sn -> surf_card str card (s_id (fst s)) (s_bc (fst s)) sn) (d_surfs d)) as (ts & (k1 & L1) & H1).
  { apply (Forall_impl _) with (2 := FS). intros [s b] (sn & P). destruct (surface_sheet str s b sn P) as (t & card & L & S & C). exists t. split; [exact L|]. exists card. split; [exact S|].
    cbn [fst]. intros sn2 E2. destruct P as (E1 & _). cbn [fst] in E1. rewrite E1 in E2. now injection E2 as <-. }
  destruct (lasting_list (fun f c => write_mcnp_cell f false (to_w show c))
    (fun c t => exists card, sheet t [card] /\ forall r, expr (toks (g_items c)) r -> cell_card card (g_id c) (g_mat c) (g_dens c) (g_univ c) (g_fill c) (placement (g_offset c) (g_rot c)) r) (d_cells d)) as (tc & (k2 & L2) & H2).
  { apply (Forall_impl _) with (2 := FC). intros c (r & P). destruct (cell_sheet show c r P) as (t & card & L & S & C). exists t. split; [exact L|]. now exists card. }
  destruct (lasting_list (fun _ (e : text * material) => write_mcnp_material show true false (snd e))
    (fun e t => exists card, sheet t [card] /\ mat_card show card (snd e)) (d_mats d)) as (tm & (k3 & L3) & H3).
  { apply (Forall_impl _) with (2 := FM). intros e P. destruct (material_sheet show (snd e) P) as (t & card & W & S & C). exists t. split; [now exists 0|]. now exists card. }
  destruct (sheet_list _ _ _ H1) as (ss & S1 & Q1). destruct (sheet_list _ _ _ H2) as (cc & S2 & Q2). destruct (sheet_list _ _ _ H3) as (mm & S3 & Q3).
  assert (S4 : sheet (flat_map (phits_importance show) (d_cells d)) (map (fun c => [str_Z (g_id c); show (g_imp c)]) (d_cells d))).
  { clear - FC. induction FC as [|c l (r & P) F IH]; [apply sheet_nil|]. cbn [flat_map map]. apply (sheet_app _ [_]); [|exact IH]. apply importance_sheet.
    destruct P as (_ & _ & _ & _ & _ & _ & _ & _ & _ & _ & _ & A & B & _). now apply number_numeral. }
  eexists. exists ss, cc, mm. split; [|split; [|split; [exact Q1|split; [exact Q2|exact Q3]]]].
  - exists (max k1 (max k2 k3)). intros f LE. unfold phits_file, texts, write_phits_materials, write_all. cbn [seqs].
    assert (MM : mapM (write_mcnp_material show true false) (map snd (d_mats d)) = Some tm).
    { rewrite <- (L3 (max k1 (max k2 k3))) by lia. clear. induction (d_mats d) as [|e l IH]; [reflexivity|]. cbn [map mapM]. now rewrite IH. }
    rewrite L1, L2, MM by lia. reflexivity.
  - unfold phits_reads.
    assert (LS : forall s, (forallb bare (T s) && forallb (fun c => negb (Ascii.eqb newline c)) (T s) && negb (indented (T s)) && counts (T s))%bool = true -> forall ws, words (T s) = ws -> sheet (T s ++ [newline]) [ws]).
    { intros s H ws <-. apply andb_true_iff in H as [H H4]. apply andb_true_iff in H as [H H3']. apply andb_true_iff in H as [H1' H2']. apply line_sheet.
      - apply Forall_forall. intros w I. apply forallb_forall. intros x J. rewrite forallb_forall in H1'. apply H1'. eapply in_words_in; eassumption.
      - intro I. rewrite forallb_forall in H2'. specialize (H2' _ I). discriminate.
      - now apply negb_true_iff.
      - exact H4. }
    assert (NL : forall s, forallb (fun c => negb (Ascii.eqb newline c)) (T s) = true -> ~ In newline (T s)) by (intros s H I; rewrite forallb_forall in H; specialize (H _ I); discriminate).
    Ltac section name s := apply (section_ok name); [vm_compute; reflexivity|apply s; vm_compute; reflexivity|vm_compute; reflexivity|vm_compute; reflexivity| |].
    section "[ T I T L E ]"%string NL; [apply (LS "This PHITS file was produced automatically by csg2csg "%string); vm_compute; reflexivity|]. apply sheet_empty.
    assert (P3 : forall a b c x : text, a ++ b ++ c ++ x = (a ++ b ++ c) ++ x) by (intros; now rewrite <- !app_assoc).
    rewrite (P3 (T "icntl = 11" ++ [newline])).
    section "[ P A R A M E T E R S ]"%string NL; [apply (sheet_app _ [_]); [apply (LS "icntl = 11"%string); vm_compute; reflexivity|]; apply (sheet_app _ [_]); [apply (LS "maxbch = 10"%string); vm_compute; reflexivity|apply (LS "maxcas = 1000000"%string); vm_compute; reflexivity]|]. apply sheet_empty.
    section "[ S U R F A C E ]"%string NL; [exact S1|]. apply sheet_empty. section "[ C E L L ]"%string NL; [exact S2|]. apply sheet_empty.
    rewrite (app_assoc (T "   reg       imp   " ++ [newline])).
    section "[ I M P O R T A N C E ]"%string NL; [apply (sheet_app _ [_]); [apply (LS "   reg       imp   "%string); vm_compute; reflexivity|exact S4]|]. apply sheet_empty.
    section "[ M A T E R I A L ]"%string NL; [exact S3|]. reflexivity.
Qed.
Print Assumptions C78_phits_file_partial.

(** The deck of C73 with a library for the nuclides of steel. *)
Definition steel_lib : material := mkM (T "12") (T "M12") (-78 # 10) [(T "26056", 3 # 4); (T "6012", 1 # 4)]%Q [(T "26056", T "70c"); (T "6012", T "70c")] None.
Definition deck_lib : deck := mkDeck (d_surfs PropFile.deck_ex) PropFile.cells_ex [(T "12", steel_lib)] [].
Example C78_deck : phits_deck str01 PropFile.show_ex deck_lib.
Proof.
  assert (NU : forall w : text, (negb (text_eqb w []) && (length w <=? 40) && forallb (fun c => is_digit c || existsb (Ascii.eqb c) (T "-+.e")) w)%bool = true -> numeral w).
  { intros w H. apply andb_true_iff in H as [H H3]. apply andb_true_iff in H as [H1 H2]. split; [intros ->; discriminate|]. split; [now apply Nat.leb_le|exact H3]. }
  destruct PropFile.C73_deck as (FC & FS & FM & _). split; [|split].
  - cbn [d_surfs deck_lib]. apply (Forall_impl _) with (2 := FS). intros s (sn & A & B & C & _ & D & E). exists sn. split; [exact A|]. split; [exact B|]. split; [exact C|]. split; [exact D|].
    apply (Forall_impl _) with (2 := E). tauto.
  - exact FC.
  - destruct (FM _ _ (or_introl eq_refl)) as (_ & (A & B & C & D & E) & F). constructor; [|constructor]. cbn [snd]. split; [exact A|]. split; [discriminate|].
    cbn [m_comp steel_lib PropFile.steel_ex] in *. rewrite Forall_forall in *. intros e I. destruct (E e I) as (X & _). split; [exact X|]. split; [now apply F|].
    exists (T "70c"). split; [destruct I as [<-|[<-|[]]]; reflexivity|]. split; reflexivity.
Qed.
Example C78_text : phits_file str01 PropFile.show_ex 10 deck_lib = Some (
  PropFile.lf "[ T I T L E ]" ++ PropFile.lf "This PHITS file was produced automatically by csg2csg " ++ PropFile.lf "" ++
  PropFile.lf "[ P A R A M E T E R S ]" ++ PropFile.lf "icntl = 11" ++ PropFile.lf "maxbch = 10" ++ PropFile.lf "maxcas = 1000000" ++ PropFile.lf "" ++
  PropFile.lf "[ S U R F A C E ]" ++ PropFile.lf "+3 s 0.0 1.0 0.0 1.0" ++ PropFile.lf "4 px 1.0" ++ PropFile.lf "40 pz 0.0" ++ PropFile.lf "" ++
  PropFile.lf "[ C E L L ]" ++ PropFile.lf "1 12 -7.8 -3" ++ PropFile.lf "2 0 ( 3 -4 ) : -40 fill=7 (1.5 0.0 -2e-07 )" ++ PropFile.lf "33 0 # ( -3 : 40 ) u=7" ++ PropFile.lf "" ++
  PropFile.lf "[ I M P O R T A N C E ]" ++ PropFile.lf "   reg       imp   " ++ PropFile.lf "    1        1.0" ++ PropFile.lf "    2        1.0" ++ PropFile.lf "    33        0.25" ++ PropFile.lf "" ++
  PropFile.lf "[ M A T E R I A L ]" ++ PropFile.lf "M12     26056.70c 0.75" ++ PropFile.lf "     6012.70c 0.25" ++ PropFile.lf "").
Proof.
  unfold phits_file, texts, mcnp_surface, mcnp_surface_text. cbn [d_surfs d_cells d_mats deck_lib PropFile.deck_ex mapM]. unfold SurfWriters.mcnp_body, numbers.
  cbn [fst s_type s_coef s_bc s_id map option_map]. rewrite str01_0, str01_1. vm_compute. reflexivity.
Qed.
Example C78_example : exists t, phits_file str01 PropFile.show_ex 10 deck_lib = Some t /\
  map (fun s => length (snd s)) (sections (phits_reads t)) = [1; 3; 3; 3; 4; 1].
Proof. eexists. split; [exact C78_text|]. vm_compute. reflexivity. Qed.

(** PHITS asks for the outer region as a cell of material -1 (particles that enter it are lost to the calculation); a cell
    of importance 0, the outside of an MCNP model, is written with material 0, a void inside, whatever its importance. *)
Theorem C78_outside_refuted : exists show c t, g_imp c = 0%Q /\ g_mat c = 0%Z /\ g_fill c = None /\ words t = map T ["1"; "0"; "4"]%string /\
  forall fuel i, write_mcnp_cell fuel false (to_w show (mkG (g_id c) (g_mat c) (g_dens c) (g_text c) (g_items c) (g_univ c) (g_fill c) (g_offset c) (g_rot c) i)) = Some t.
Proof.
  exists PropFile.show_ex, (mkG 1 0 (T "0") [T "4"] [Str (T "4")] None None None None 0). eexists. split; [reflexivity|]. split; [reflexivity|]. split; [reflexivity|].
  split; [|intros fuel i; vm_compute; reflexivity]. vm_compute. reflexivity.
Qed.
Print Assumptions C78_outside_refuted.
