(** C54 and C55: how the lines of a file become cards. *)
From Coq Require Import QArith Reals Lra.
From Verif Require Import PyStr PyStrFacts PyDict Formatter FormatterProofs CellModel SurfModel FlattenModel NamesModel
  MaterialModel BoundaryModel DeckScan.
Open Scope nat_scope.
Open Scope list_scope.

(* ------------------------------------------------------------------ *)
(** * Lines *)

(** A line of a file: what MCNP reads, and a comment after a dollar sign, if any. *)
Record line := mkL { code : text; remark : option text }.

(** The line as it stands in the file. *)
Definition printed (l : line) : text :=
  code l ++ match remark l with Some c => "$"%char :: c | None => [] end ++ [newline].

(** The line has something to read that is no white space. *)
Definition visible (s : text) : Prop := exists c, In c s /\ is_space c = false.
(** The line begins with five blanks. *)
Definition indented (s : text) : Prop := exists r, s = T "     " ++ r.

Definition plain (l : line) : Prop := ~ In "$"%char (code l) /\ visible (code l).
(** A card: its first line and the lines that continue it. *)
Definition card := (line * list line)%type.
Definition good_card (c : card) : Prop :=
  plain (fst c) /\ ~ indented (code (fst c)) /\ Forall (fun l => plain l /\ indented (code l)) (snd c).
Definition card_lines (c : card) : list text := printed (fst c) :: map printed (snd c).
(** The words of a card. *)
Definition card_words (c : card) : list text := words (code (fst c)) ++ flat_map (fun l => words (code l)) (snd c).

(** Cutting the comment off a line. *)
Lemma find_dollar a b : ~ In "$"%char a -> find "$" (a ++ "$"%char :: b) = Z.of_nat (length a).
Proof.
  induction a as [|c a IH]; intro N; cbn [find app].
  - reflexivity.
  - cbn [In] in N. destruct (Ascii.eqb_spec "$" c) as [E|E]; [subst; tauto|].
    rewrite IH by tauto. cbn [length]. destruct (Z.ltb_spec (Z.of_nat (length a)) 0); lia.
Qed.

Lemma find_none a : ~ In "$"%char a -> find "$" a = (-1)%Z.
Proof.
  induction a as [|c a IH]; intro N; cbn [find]; [reflexivity|].
  cbn [In] in N. destruct (Ascii.eqb_spec "$" c) as [E|E]; [subst; tauto|].
  now rewrite IH by tauto.
Qed.

Lemma cut_app a b : ~ In "$"%char a -> strip_dollar_comments (a ++ "$"%char :: b) = a.
Proof.
  intro N. unfold strip_dollar_comments. rewrite (find_dollar a b N). cbv zeta.
  destruct (Z.eqb_spec (Z.of_nat (length a)) (-1)); [lia|].
  unfold slice_to. destruct (Z.ltb_spec (Z.of_nat (length a)) 0); [lia|].
  rewrite Nat2Z.id, firstn_app, firstn_all, Nat.sub_diag. apply app_nil_r.
Qed.

Lemma cut_none a : ~ In "$"%char a -> strip_dollar_comments a = a.
Proof. intro N. unfold strip_dollar_comments. now rewrite find_none. Qed.

Lemma remove_is_strip x : remove_inline_comment x = strip_dollar_comments x.
Proof.
  unfold remove_inline_comment. destruct (existsb (Ascii.eqb "$") x) eqn:E.
  - unfold strip_dollar_comments. destruct (Z.eqb_spec (find "$" x) (-1)) as [F|F]; [|reflexivity].
    exfalso. apply existsb_exists in E as (d & I & D). apply Ascii.eqb_eq in D. subst d.
    apply in_split in I as (a & b & ->).
    revert F. clear. induction a as [|c a IH]; cbn [find app]; [discriminate|].
    destruct (Ascii.eqb "$" c); [discriminate|]. destruct (Z.ltb_spec (find "$" (a ++ "$"%char :: b)) 0) as [L|L]; [|lia].
    intros _. apply IH. destruct (find "$" (a ++ "$"%char :: b)) eqn:Q; try lia.
    assert (B : (-1 <= find "$" (a ++ "$"%char :: b))%Z).
    { clear. induction (a ++ "$"%char :: b) as [|c l IH]; cbn [find]; [lia|].
      destruct (Ascii.eqb "$" c); [lia|]. destruct (Z.ltb_spec (find "$" l) 0); lia. }
    lia.
  - symmetry. apply cut_none. intro I.
    assert (existsb (Ascii.eqb "$") x = true) by (apply existsb_exists; exists "$"%char; split; [exact I|reflexivity]).
    congruence.
Qed.

(** What is left of a printed line. *)
Definition kept_text (l : line) : text := code l ++ match remark l with Some _ => [] | None => [newline] end.

Lemma cut_printed l : ~ In "$"%char (code l) -> strip_dollar_comments (printed l) = kept_text l.
Proof.
  intro N. unfold printed, kept_text. destruct (remark l) as [c|].
  - cbn [app]. rewrite cut_app by exact N. now rewrite app_nil_r.
  - cbn [app]. apply cut_none. rewrite in_app_iff. cbn [In]. intros [I|[I|[]]]; [tauto|discriminate].
Qed.

Lemma visible_not_space s t : visible s -> isspace (s ++ t) = false.
Proof.
  intros (c & I & E). unfold isspace. destruct (s ++ t) as [|x y] eqn:Q; [reflexivity|].
  rewrite <- Q. apply not_true_iff_false. intro F. rewrite forallb_forall in F.
  rewrite F in E; [discriminate|]. rewrite in_app_iff. now left.
Qed.

Lemma begins_five_spec s : begins_five s = true <-> indented s.
Proof.
  unfold begins_five, five, indented. rewrite text_eqb_eq. split.
  - intro E. exists (skipn 5 s). rewrite <- (firstn_skipn 5 s) at 1. now rewrite E.
  - intros (r & ->). reflexivity.
Qed.

(** A visible line is indented in the file iff its code is. *)
Lemma indented_app s t : visible s -> indented (s ++ t) -> indented s.
Proof.
  intros (c & I & E) (r & Q).
  destruct s as [|a1 s]; [destruct I|]. cbn [app T list_ascii_of_string] in Q.
  injection Q as -> Q.
  destruct s as [|a2 s]; [destruct I as [<-|[]]; discriminate|]. cbn [app] in Q. injection Q as -> Q.
  destruct s as [|a3 s]; [cbn [In] in I; destruct I as [<-|[<-|[]]]; discriminate|]. cbn [app] in Q. injection Q as -> Q.
  destruct s as [|a4 s]; [cbn [In] in I; destruct I as [<-|[<-|[<-|[]]]]; discriminate|]. cbn [app] in Q. injection Q as -> Q.
  destruct s as [|a5 s]; [cbn [In] in I; destruct I as [<-|[<-|[<-|[<-|[]]]]]; discriminate|]. cbn [app] in Q. injection Q as -> Q.
  exists s. reflexivity.
Qed.

Lemma indented_more s t : indented s -> indented (s ++ t).
Proof. intros (r & ->). exists (r ++ t). now rewrite <- app_assoc. Qed.

(* ------------------------------------------------------------------ *)
(** * Blocks *)

Section Block.
Context (cut : text -> text).
Context (cut_eq : forall x, cut x = strip_dollar_comments x).

Lemma scan_conts acc ls rest :
  Forall (fun l => plain l /\ indented (code l)) ls ->
  scan_block cut (Some acc) (map printed ls ++ rest) = scan_block cut (Some (acc ++ concat (map kept_text ls))) rest.
Proof.
  intro F. revert acc. induction F as [|l ls [[D V] I] F IH]; intro acc; cbn [map app concat].
  - now rewrite app_nil_r.
  - cbn [scan_block]. rewrite cut_eq, cut_printed by exact D.
    assert (C : continues (kept_text l) = true).
    { unfold continues, kept_text. rewrite (visible_not_space _ _ V).
      rewrite (proj2 (begins_five_spec _)) by (now apply indented_more). reflexivity. }
    rewrite C, IH, <- app_assoc. reflexivity.
Qed.

Definition card_text (c : card) : text := kept_text (fst c) ++ concat (map kept_text (snd c)).

Lemma head_fresh l : plain l -> ~ indented (code l) ->
  isspace (kept_text l) = false /\ continues (kept_text l) = false.
Proof.
  intros [D V] N. unfold kept_text, continues. rewrite (visible_not_space _ _ V). split; [reflexivity|].
  destruct (begins_five _) eqn:B; [|reflexivity]. apply begins_five_spec in B. apply indented_app in B; tauto.
Qed.

Lemma scan_open cards : Forall good_card cards -> forall acc b rest, b <> [] -> forallb is_space b = true ->
  scan_block cut (Some acc) (flat_map card_lines cards ++ b :: rest) = Some (acc :: map card_text cards, rest).
Proof.
  assert (SB : forall b, b <> [] -> forallb is_space b = true -> strip_dollar_comments b = b /\ isspace b = true /\ continues b = false).
  { intros b B S. assert (IS : isspace b = true) by (destruct b; [tauto|exact S]).
    repeat split; [|exact IS|].
    - apply cut_none. intro I. rewrite forallb_forall in S. apply S in I. discriminate.
    - unfold continues. rewrite IS. apply andb_false_r. }
  intro F. induction F as [|c cards [P [N C]] F IH]; intros acc b rest B S; cbn [flat_map app map].
  - cbn [scan_block]. rewrite cut_eq. destruct (SB b B S) as (-> & -> & ->). reflexivity.
  - unfold card_lines at 1. cbn [app scan_block]. rewrite cut_eq, cut_printed by apply P.
    destruct (head_fresh _ P N) as [H1 H2]. rewrite H1, H2.
    rewrite <- app_assoc, scan_conts by exact C. rewrite IH by assumption. reflexivity.
Qed.

Lemma scan_closed cards b rest : Forall good_card cards -> b <> [] -> forallb is_space b = true ->
  scan_block cut None (flat_map card_lines cards ++ b :: rest) = Some (map card_text cards, rest).
Proof.
  intros F B S. destruct F as [|c cards [P [N C]] F]; cbn [flat_map app map].
  - cbn [scan_block]. rewrite cut_eq, cut_none.
    + destruct b; [tauto|]. cbn [isspace]. now rewrite S.
    + intro I. rewrite forallb_forall in S. apply S in I. discriminate.
  - unfold card_lines at 1. cbn [app scan_block]. rewrite cut_eq, cut_printed by apply P.
    destruct (head_fresh _ P N) as [H1 H2]. rewrite H1.
    rewrite <- app_assoc, scan_conts by exact C. rewrite scan_open by assumption. reflexivity.
Qed.
End Block.

Lemma words_kept l : words (kept_text l) = words (code l).
Proof. unfold kept_text. apply words_app_space_r. destruct (remark l); reflexivity. Qed.

Lemma words_indented_app a b : indented b -> words (a ++ b) = words a ++ words b.
Proof.
  intros (r & ->). change (a ++ T "     " ++ r) with (a ++ blank :: (T "    " ++ r)).
  rewrite words_app_space by exact blank_is_space. reflexivity.
Qed.

Lemma words_conts ls a : Forall (fun l => plain l /\ indented (code l)) ls ->
  words (a ++ concat (map kept_text ls)) = words a ++ flat_map (fun l => words (code l)) ls.
Proof.
  intro F. revert a. induction F as [|l ls [P I] F IH]; intro a; cbn [map concat flat_map]; [now rewrite !app_nil_r|].
  rewrite app_assoc, IH, words_indented_app, words_kept, app_assoc; [reflexivity|].
  unfold kept_text. now apply indented_more.
Qed.

Lemma words_card c : good_card c -> words (card_text c) = card_words c.
Proof. intros (P & N & F). unfold card_text, card_words. now rewrite words_conts, words_kept by exact F. Qed.

(** C54, for blocks in which every line has something to read: a block of cell lines that ends in a blank line is
    split into its cards, in order, and the lines after the blank line are left over; the same for surfaces.  Comments
    after a dollar sign do not change the words of a card.  (Missing: lines that hold only a comment, for which it is
    false, below.) *)
Theorem C54_cards_partial cards b rest :
  Forall good_card cards -> b <> [] -> forallb is_space b = true ->
  exists ts us,
    get_cell_cards (flat_map card_lines cards ++ b :: rest) = Some (ts, rest) /\ map words ts = map card_words cards /\
    get_surface_cards (flat_map card_lines cards ++ b :: rest) = Some (us, rest) /\ map words us = map card_words cards.
Proof.
  intros F B S. exists (map card_text cards), (map card_text cards).
  assert (W : map words (map card_text cards) = map card_words cards).
  { rewrite map_map. apply map_ext_in. intros c I. apply words_card. rewrite Forall_forall in F. now apply F. }
  repeat split; try exact W; apply scan_closed; auto. exact remove_is_strip.
Qed.
Print Assumptions C54_cards_partial.

Definition cards_ex : list card :=
  [(mkL (T "1 1 -7.8 -1 2 ") (Some (T " the wall")), [mkL (T "     (3:-4)") None; mkL (T "       5 ") (Some (T " and 5"))]);
   (mkL (T "2 0 1") None, [])].
Example cards_partial_ex :
  Forall good_card cards_ex /\
  (exists ts, get_cell_cards (flat_map card_lines cards_ex ++ T " " :: [T "1 so 5"]) = Some (ts, [T "1 so 5"]) /\
     map words ts = [[T "1"; T "1"; T "-7.8"; T "-1"; T "2"; T "(3:-4)"; T "5"]; [T "2"; T "0"; T "1"]]).
Proof.
  assert (G : Forall good_card cards_ex).
  { unfold cards_ex, good_card, plain, visible. repeat constructor; cbn [fst snd code];
      try (exists "1"%char; split; [cbn; tauto|reflexivity]);
      try (exists "2"%char; split; [cbn; tauto|reflexivity]);
      try (exists "3"%char; split; [cbn; tauto|reflexivity]);
      try (exists "5"%char; split; [cbn; tauto|reflexivity]);
      try (intros (r & E); discriminate);
      try (cbn; intuition discriminate).
    - exists (T "(3:-4)"). reflexivity.
    - exists (T "  5 "). reflexivity. }
  split; [exact G|].
  destruct (C54_cards_partial cards_ex (T " ") [T "1 so 5"] G) as (ts & us & H & W & _); [discriminate|reflexivity|].
  exists ts. split; [exact H|]. rewrite W. reflexivity.
Qed.

(** ** Any file *)

Definition opens (x : text) : bool := negb (begins_five (strip_dollar_comments x)).
Definition count_opening (l : list text) : nat := length (filter opens l).

Lemma scan_any cut l : (forall x, cut x = strip_dollar_comments x) -> forall cur cards rest,
  scan_block cut cur l = Some (cards, rest) ->
  exists pre b, l = pre ++ b :: rest /\ isspace (strip_dollar_comments b) = true /\
    Forall (fun x => isspace (strip_dollar_comments x) = false) pre /\
    concat cards = match cur with Some a => a | None => [] end ++ concat (map strip_dollar_comments pre) /\
    length cards = match cur with
                   | Some _ => S (count_opening pre)
                   | None => match pre with [] => 0 | _ :: p => S (count_opening p) end
                   end.
Proof.
  intro CE. induction l as [|x l IH]; intros cur cards rest H; cbn [scan_block] in H; [discriminate|].
  cbv zeta in H. rewrite CE in H. destruct cur as [a|].
  - destruct (continues (strip_dollar_comments x)) eqn:C.
    + apply IH in H as (pre & b & -> & B & F & K & L).
      unfold continues in C. apply andb_true_iff in C as [C1 C2]. apply negb_true_iff in C2.
      exists (x :: pre), b. cbn [app map concat]. repeat split; auto.
      * rewrite K, app_assoc. reflexivity.
      * rewrite L. unfold count_opening. cbn [filter]. unfold opens at 2. rewrite C1. reflexivity.
    + destruct (isspace (strip_dollar_comments x)) eqn:S.
      * injection H as <- <-. exists [], x. repeat split; auto.
      * destruct (scan_block cut _ l) as [[cs r]|] eqn:Q; [|discriminate]. injection H as <- <-.
        apply IH in Q as (pre & b & -> & B & F & K & L).
        exists (x :: pre), b. cbn [app map concat]. repeat split; auto.
        -- now rewrite K.
        -- cbn [length]. rewrite L. unfold count_opening. cbn [filter].
           unfold continues in C. rewrite S, andb_true_r in C. unfold opens at 2. rewrite C. reflexivity.
  - destruct (isspace (strip_dollar_comments x)) eqn:S.
    + injection H as <- <-. exists [], x. repeat split; auto.
    + apply IH in H as (pre & b & -> & B & F & K & L).
      exists (x :: pre), b. cbn [app map concat]. repeat split; auto.
Qed.

(** C54 for every file that is read at all: the lines up to the first line that is blank without its comment all go
    into the cards, in order and with nothing left out but the comments; there is one card for the first line and one
    for every later line that does not begin with five blanks. *)
Theorem C54_nothing_lost l cards rest :
  get_cell_cards l = Some (cards, rest) \/ get_surface_cards l = Some (cards, rest) ->
  exists pre b, l = pre ++ b :: rest /\ isspace (strip_dollar_comments b) = true /\
    Forall (fun x => isspace (strip_dollar_comments x) = false) pre /\
    concat cards = concat (map strip_dollar_comments pre) /\
    length cards = match pre with
                   | [] => 0
                   | _ :: p => S (length (filter (fun x => negb (begins_five (strip_dollar_comments x))) p))
                   end.
Proof.
  intros [H|H].
  - apply (scan_any _ l remove_is_strip None) in H. exact H.
  - apply (scan_any _ l (fun x => eq_refl) None) in H. exact H.
Qed.
Print Assumptions C54_nothing_lost.

Example nothing_lost_ex :
  exists cards rest, get_cell_cards (flat_map card_lines cards_ex ++ [T " "; T "1 so 5"]) = Some (cards, rest) /\
    length cards = 2 /\ rest = [T "1 so 5"].
Proof. eexists _, _. vm_compute. repeat split. Qed.

(** A line that holds only a comment, but is indented, ends the block: the cell after it is lost. *)
Theorem C54_comment_refuted : exists before remark_line after cards cards' rest',
  remark_line = T "     $ outer cells" ++ [newline] /\
  get_cell_cards (before ++ after) = Some (cards, []) /\ length cards = 2 /\
  get_cell_cards (before ++ remark_line :: after) = Some (cards', rest') /\ length cards' = 1 /\ length rest' = 2.
Proof.
  exists [T "1 0 -1" ++ [newline]], (T "     $ outer cells" ++ [newline]), [T "2 0 1" ++ [newline]; [newline]].
  do 3 eexists. vm_compute. repeat split.
Qed.
Print Assumptions C54_comment_refuted.

(** The same in the block of surfaces. *)
Theorem C54_surface_comment_refuted : exists before remark_line after cards cards' rest',
  remark_line = T "     $ outer surfaces" ++ [newline] /\
  get_surface_cards (before ++ after) = Some (cards, []) /\ length cards = 2 /\
  get_surface_cards (before ++ remark_line :: after) = Some (cards', rest') /\ length cards' = 1 /\ length rest' = 2.
Proof.
  exists [T "1 so 5" ++ [newline]], (T "     $ outer surfaces" ++ [newline]), [T "2 so 7" ++ [newline]; [newline]].
  do 3 eexists. vm_compute. repeat split.
Qed.
Print Assumptions C54_surface_comment_refuted.

(** A comment at the beginning of a line becomes an empty cell card, which cannot be read. *)
Theorem C54_dollar_line_refuted : exists before after cards cards' rest,
  get_cell_cards (before ++ after) = Some (cards, rest) /\ length cards = 2 /\
  get_cell_cards (before ++ (T "$ outer cells" ++ [newline]) :: after) = Some (cards', rest) /\ length cards' = 3 /\
  In [] cards' /\ (forall fuel, interpret fuel [] = None).
Proof.
  exists [T "1 0 -1" ++ [newline]], [T "2 0 1" ++ [newline]; [newline]]. do 3 eexists.
  split; [vm_compute; reflexivity|]. split; [reflexivity|]. split; [vm_compute; reflexivity|]. split; [reflexivity|].
  split; [vm_compute; tauto|]. intros [|f]; reflexivity.
Qed.
Print Assumptions C54_dollar_line_refuted.

(** A comment line whose c is not in the first column is taken for a cell card, which cannot be read. *)
Theorem C54_indented_c_refuted : exists file p t,
  file = T "title" ++ newline :: T "1 0 -1" ++ newline :: T " c outer cells" ++ newline :: T "2 0 1" ++ newline ::
         newline :: T "1 so 5" ++ newline :: [newline] /\
  split_file file = Some p /\ In t (p_cells p) /\ words t = [T "c"; T "outer"; T "cells"] /\
  (forall fuel, interpret fuel t = None).
Proof.
  do 3 eexists. split; [reflexivity|]. split; [vm_compute; reflexivity|]. cbn [p_cells].
  split; [right; left; reflexivity|]. split; [reflexivity|].
  intros [|f]; reflexivity.
Qed.
Print Assumptions C54_indented_c_refuted.

(** ** Comment lines *)

Lemma readlines_line x b : ~ In newline x -> readlines (x ++ newline :: b) = (x ++ [newline]) :: readlines b.
Proof.
  induction x as [|c x IH]; intro N; cbn [app readlines].
  - reflexivity.
  - cbn [In] in N. destruct (Ascii.eqb_spec c newline) as [E|E]; [subst; tauto|]. now rewrite IH by tauto.
Qed.

Lemma readlines_app a b : readlines (a ++ newline :: b) = readlines (a ++ [newline]) ++ readlines b.
Proof.
  induction a as [|c a IH]; cbn [app readlines].
  - reflexivity.
  - rewrite IH. destruct (Ascii.eqb c newline); [reflexivity|].
    destruct (readlines (a ++ [newline])) as [|l ls] eqn:Q.
    + destruct a as [|y a]; cbn [app readlines] in Q.
      * discriminate.
      * destruct (Ascii.eqb y newline); [discriminate|]. destruct (readlines (a ++ [newline])); discriminate.
    + reflexivity.
Qed.

(** C54, comment lines: a line that begins with c (in either case) may be put between any two lines after the title
    without changing anything that is read. *)
Theorem C54_comment_lines title a c b : forall k,
  k = "c"%char \/ k = "C"%char -> ~ In newline title -> ~ In newline c -> sub_in (T "message") (lower (title ++ [newline])) = false ->
  split_file (title ++ newline :: a ++ newline :: k :: c ++ newline :: b) = split_file (title ++ newline :: a ++ newline :: b).
Proof.
  intros k K NT NC M. unfold split_file, read_lines.
  rewrite !(readlines_line title) by exact NT.
  rewrite (readlines_app a (k :: c ++ newline :: b)), (readlines_app a b).
  change (k :: c ++ newline :: b) with ((k :: c) ++ newline :: b). rewrite (readlines_line (k :: c)).
  2:{ cbn [In]. intros [E|E]; [|tauto]. destruct K as [-> | ->]; discriminate. }
  cbn [map]. cbn [set_title]. rewrite M.
  replace (drop_comment_lines (map lower (readlines (a ++ [newline]) ++ ((k :: c) ++ [newline]) :: readlines b)))
    with (drop_comment_lines (map lower (readlines (a ++ [newline]) ++ readlines b))); [reflexivity|].
  unfold drop_comment_lines. rewrite !map_app, !filter_app. f_equal. cbn [map app filter].
  assert (I : is_comment_line (lower (k :: c ++ [newline])) = true) by (destruct K as [-> | ->]; reflexivity).
  rewrite I. reflexivity.
Qed.
Print Assumptions C54_comment_lines.

Definition file_ex (extra : text) : text :=
  T "Title" ++ newline :: T "1 0 -1 IMP:N=1" ++ newline :: extra ++ T "2 0 1" ++ newline :: newline :: T "1 SO 5" ++ newline ::
  newline :: T "m1 1001 1" ++ [newline].
Example comment_lines_ex :
  split_file (file_ex (T "C a comment" ++ [newline])) = split_file (file_ex []) /\
  (exists p, split_file (file_ex []) = Some p /\ map words (p_cells p) = [[T "1"; T "0"; T "-1"; T "imp:n=1"]; [T "2"; T "0"; T "1"]] /\
             map words (p_surfs p) = [[T "1"; T "so"; T "5"]] /\ p_mats p = [(T "1", T "1001 1 ")]).
Proof.
  split.
  - apply (C54_comment_lines (T "Title") (T "1 0 -1 IMP:N=1") (T " a comment")
             (T "2 0 1" ++ newline :: newline :: T "1 SO 5" ++ newline :: newline :: T "m1 1001 1" ++ [newline]));
      [now right| | |vm_compute; reflexivity]; vm_compute; intuition discriminate.
  - eexists. vm_compute. repeat split.
Qed.

(* ------------------------------------------------------------------ *)
(** * The data block *)

(** A data card: a first line that is not indented and lines that continue it. *)
Definition data_card (c : card) : Prop := ~ indented (printed (fst c)) /\ Forall (fun l => indented (printed l)) (snd c).

(** ** Materials *)

(** A line of text without comment sign or line end. *)
Definition one_line (l : line) : Prop := ~ In "$"%char (code l) /\ ~ In newline (code l).

(** The material card number [n]: fewer than five blanks, m and the number, a blank, and entries; the continuation lines
    are indented and do not look like the beginning of a material card. *)
Definition material_deck_card (n rest : text) (c : card) : Prop :=
  (exists a, forallb (Ascii.eqb blank) a = true /\ length a < 5 /\ code (fst c) = a ++ "m"%char :: n ++ blank :: rest) /\
  n <> [] /\ forallb is_digit n = true /\ one_line (fst c) /\
  Forall (fun l => one_line l /\ indented (code l) /\ is_material_line (printed l) = false) (snd c).

Lemma words_dollar s c : exists A w v B,
  words (s ++ "$"%char :: c) = A ++ (w ++ "$"%char :: v) :: B /\ words s = A ++ match w with [] => [] | _ => [w] end.
Proof.
  induction s as [|x s IH].
  - cbn [app]. exists [], []. destruct (words ("$"%char :: c)) as [|u B] eqn:E.
    + apply words_nil_inv in E. discriminate.
    + exists (skipn 1 u), B. split; [|reflexivity]. cbn [app]. f_equal.
      cbn [words] in E. change (is_space "$") with false in E. cbv iota in E.
      destruct c as [|d c]; [injection E as <- <-; reflexivity|].
      destruct (is_space d); [injection E as <- <-; reflexivity|].
      destruct (words (d :: c)); injection E as <- <-; reflexivity.
  - destruct IH as (A & w & v & B & E & F). cbn [app].
    destruct (is_space x) eqn:SX.
    + exists A, w, v, B. rewrite !words_cons_space by exact SX. now split.
    + destruct s as [|y s].
      * cbn [app] in E |- *. cbn [words] in F.
        assert (A = [] /\ w = []) as [-> ->] by (destruct A; [|discriminate]; destruct w; [now split|discriminate]).
        cbn [app] in E. exists [], [x], v, B. split; [|cbn [words]; rewrite SX; reflexivity].
        cbn [words]. rewrite SX. change (is_space "$") with false. cbv iota.
        change (match words ("$"%char :: c) with [] => [[x]] | w0 :: ws => (x :: w0) :: ws end = ([x] ++ "$"%char :: v) :: B).
        rewrite E. reflexivity.
      * cbn [app] in E |- *.
        assert (W : forall z, words (x :: y :: z) = if is_space y then [x] :: words (y :: z)
                    else match words (y :: z) with w0 :: ws => (x :: w0) :: ws | [] => [[x]] end).
        { intro z. cbn [words]. now rewrite SX. }
        rewrite !W, E, F. destruct (is_space y) eqn:SY.
        -- exists ([x] :: A), w, v, B. now split.
        -- destruct A as [|a A].
           ++ cbn [app]. exists [], (x :: w), v, B. split; [reflexivity|]. destruct w; [|reflexivity].
              exfalso. cbn [app] in F. apply words_nil_inv in F. cbn [forallb] in F. now rewrite SY in F.
           ++ cbn [app]. exists ((x :: a) :: A), w, v, B. now split.
Qed.

Lemma join_sp_app A w B : join_sp (A ++ w :: B) = concat (map (fun a => a ++ [blank]) A) ++ join_sp (w :: B).
Proof.
  induction A as [|a A IH]; [reflexivity|]. cbn [app map concat].
  assert (E : forall l, l <> [] -> join_sp (a :: l) = a ++ blank :: join_sp l) by (intros [|? ?] ?; [tauto|reflexivity]).
  rewrite E, IH by (destruct A; discriminate). now rewrite <- !app_assoc.
Qed.

Lemma words_joined A t : Forall (fun a => a <> [] /\ forallb (fun c => negb (is_space c)) a = true) A ->
  words (concat (map (fun a => a ++ [blank]) A) ++ t) = A ++ words t.
Proof.
  intro F. induction F as [|a A [N S] F IH]; [reflexivity|]. cbn [map concat app].
  rewrite <- !app_assoc. cbn [app]. rewrite words_app_space by exact blank_is_space.
  now rewrite IH, words_single.
Qed.

Lemma words_good s : Forall (fun a => a <> [] /\ forallb (fun c => negb (is_space c)) a = true) (words s).
Proof. apply Forall_forall. intros w I. now apply (words_nonempty_nospace s w). Qed.

Lemma in_words_in c w s : In w (words s) -> In c w -> In c s.
Proof.
  revert w. induction s as [|x s IH]; intros w I J; cbn [words] in I; [destruct I|].
  destruct (is_space x); [right; eapply IH; eauto|].
  destruct s as [|y s]; [destruct I as [<-|[]]; destruct J as [->|[]]; now left|].
  destruct (is_space y).
  - destruct I as [<-|I]; [destruct J as [->|[]]; now left|]. right. eapply IH; eauto.
  - destruct (words (y :: s)) as [|w0 ws] eqn:E.
    + destruct I as [<-|[]]; destruct J as [->|[]]; now left.
    + destruct I as [<-|I].
      * destruct J as [->|J]; [now left|]. right. apply (IH w0); [now left|exact J].
      * right. apply (IH w); [now right|exact J].
Qed.

Lemma not_in_joined c A : c <> blank -> (forall w, In w A -> ~ In c w) -> ~ In c (concat (map (fun a => a ++ [blank]) A)).
Proof.
  intros N H I. apply in_concat in I as (y & I & J). apply in_map_iff in I as (w & <- & I).
  apply in_app_or in J as [J|[J|[]]]; [now apply (H w)|congruence].
Qed.

(** The text made of the entries of the first line: its words, without the comment. *)
Lemma first_line_words s rem : ~ In "$"%char s ->
  let t := remove_inline_comment
             (join_sp (words (s ++ match rem with Some c => "$"%char :: c | None => [] end ++ [newline])) ++ T " ") in
  words t = words s /\ ~ In newline t.
Proof.
  intros D t. subst t. rewrite remove_is_strip.
  assert (ND : forall w, In w (words s) -> ~ In "$"%char w) by (intros w I J; apply D; eapply in_words_in; eauto).
  assert (NN : forall w s', In w (words s') -> ~ In newline w).
  { intros w s' I J. apply words_nonempty_nospace in I as [_ S]. rewrite forallb_forall in S. apply S in J. discriminate. }
  assert (plain_case : forall l, l = words s -> words (strip_dollar_comments (join_sp l ++ T " ")) = words s /\
            ~ In newline (strip_dollar_comments (join_sp l ++ T " "))).
  { intros l ->. assert (J : join_sp (words s) ++ T " " = concat (map (fun a => a ++ [blank]) (words s)) \/ words s = []).
    { destruct (words s) as [|w l] using rev_ind; [now right|left].
      rewrite join_sp_app. cbn [join_sp]. rewrite map_app, concat_app. cbn [map concat]. now rewrite app_nil_r, <- app_assoc. }
    destruct J as [J|J].
    - rewrite J. rewrite cut_none by (apply not_in_joined; [discriminate|exact ND]). split.
      + rewrite <- (app_nil_r (concat _)). rewrite words_joined by apply words_good. cbn [words]. apply app_nil_r.
      + apply not_in_joined; [discriminate|]. intros w I. now apply (NN w s).
    - rewrite J. split; [reflexivity|]. cbn. intuition discriminate. }
  destruct rem as [c|].
  - cbn [app]. destruct (words_dollar s (c ++ [newline])) as (A & w & v & B & E & F).
    rewrite E, join_sp_app.
    assert (Q : exists rest', join_sp ((w ++ "$"%char :: v) :: B) ++ T " " = w ++ "$"%char :: rest').
    { destruct B as [|b B].
      - cbn [join_sp]. rewrite <- app_assoc. cbn [app]. now eexists.
      - cbn [join_sp]. rewrite <- !app_assoc. cbn [app]. now eexists. }
    destruct Q as (rest' & Q).
    assert (EQ : (concat (map (fun a => a ++ [blank]) A) ++ join_sp ((w ++ "$"%char :: v) :: B)) ++ T " " =
                 (concat (map (fun a => a ++ [blank]) A) ++ w) ++ "$"%char :: rest').
    { etransitivity; [symmetry; apply app_assoc|]. rewrite Q. apply app_assoc. }
    match goal with |- context [strip_dollar_comments ?x] =>
      match type of EQ with _ = ?y => replace x with y by (symmetry; exact EQ) end end.
    assert (ND2 : ~ In "$"%char (concat (map (fun a => a ++ [blank]) A) ++ w)).
    { rewrite in_app_iff. intros [I|I].
      - revert I. apply not_in_joined; [discriminate|]. intros u IU. apply ND. rewrite F, in_app_iff. now left.
      - apply (ND w); [|exact I]. rewrite F, in_app_iff. right. destruct w; [destruct I|now left]. }
    rewrite cut_app by exact ND2. split.
    + rewrite words_joined, F.
      * f_equal. destruct w as [|y w]; [reflexivity|].
        assert (IW : In (y :: w) (words s)) by (rewrite F, in_app_iff; right; now left).
        apply words_nonempty_nospace in IW as [_ S]. now rewrite words_single.
      * generalize (words_good s). rewrite F. rewrite Forall_app. tauto.
    + rewrite in_app_iff. intros [I|I].
      * revert I. apply not_in_joined; [discriminate|]. intros u IU. apply (NN u s). rewrite F, in_app_iff. now left.
      * apply (NN w s); [|exact I]. rewrite F, in_app_iff. right. destruct w; [destruct I|now left].
  - cbn [app]. rewrite (words_app_space_r s [newline]) by reflexivity. now apply plain_case.
Qed.

Lemma not_five_cards pre x r : begins_five x = false ->
  get_material_cards (pre ++ x :: r) = get_material_cards pre ++ get_material_cards (x :: r).
Proof.
  intro B. induction pre as [|y pre IH]; [reflexivity|]. cbn [app]. 
  assert (C : forall l, continuation (l ++ x :: r) = continuation l).
  { induction l as [|z l IHl]; cbn [app continuation]; [now rewrite B|]. destruct (begins_five z); [now rewrite IHl|reflexivity]. }
  assert (M : material_card y (pre ++ x :: r) = material_card y pre).
  { unfold material_card. destruct (words y); [reflexivity|]. now rewrite C. }
  change (get_material_cards (y :: pre ++ x :: r)) with
    (if is_material_line y then material_card y (pre ++ x :: r) :: get_material_cards (pre ++ x :: r) else get_material_cards (pre ++ x :: r)).
  change (get_material_cards (y :: pre)) with
    (if is_material_line y then material_card y pre :: get_material_cards pre else get_material_cards pre).
  rewrite M, IH. now destruct (is_material_line y).
Qed.

Lemma replace_newline_none s : ~ In newline s -> replace_char newline [] s = s.
Proof.
  unfold replace_char. induction s as [|c s IH]; intro N; cbn [flat_map]; [reflexivity|]. cbn [In] in N.
  destruct (Ascii.eqb_spec newline c) as [E|E]; [subst; tauto|]. cbn [app]. now rewrite IH by tauto.
Qed.

Lemma conts_text ls post : Forall (fun l => one_line l /\ indented (code l) /\ is_material_line (printed l) = false) ls ->
  (forall x r, post = x :: r -> begins_five x = false) ->
  get_material_cards (map printed ls ++ post) = get_material_cards post /\
  continuation (map printed ls ++ post) = concat (map kept_text ls) /\
  (forall a, words (a ++ concat (map kept_text ls)) = words a ++ flat_map (fun l => words (code l)) ls) /\
  (forall a, ~ In newline a -> words (replace_char newline [] (a ++ concat (map kept_text ls))) = words a ++ flat_map (fun l => words (code l)) ls).
Proof.
  intros F P. induction F as [|l ls ((D & N) & I & M) F (IH1 & IH2 & IH3 & IH4)].
  - cbn [map app concat flat_map]. split; [reflexivity|]. split.
    + destruct post as [|x r]; [reflexivity|]. cbn [continuation]. now rewrite (P x r).
    + split; intro a; [now rewrite !app_nil_r|]. intro NA. now rewrite !app_nil_r, replace_newline_none.
  - cbn [map app concat flat_map]. split; [|split; [|split]].
    + cbn [get_material_cards]. now rewrite M.
    + cbn [continuation]. rewrite (proj2 (begins_five_spec _)), IH2 by (unfold printed; now apply indented_more).
      now rewrite remove_is_strip, cut_printed.
    + intro a. rewrite app_assoc, IH3, words_indented_app, words_kept, app_assoc; [reflexivity|].
      unfold kept_text. now apply indented_more.
    + intros a NA.
      assert (K : replace_char newline [] (a ++ kept_text l ++ concat (map kept_text ls)) =
                  replace_char newline [] ((a ++ code l) ++ concat (map kept_text ls))).
      { unfold replace_char, kept_text. rewrite !flat_map_app, <- !app_assoc. do 2 f_equal.
        destruct (remark l); reflexivity. }
      rewrite K, IH4 by (rewrite in_app_iff; tauto). rewrite words_indented_app by exact I. now rewrite app_assoc.
Qed.

(** C55, materials: a material card is read wherever it stands, also if its lines are the last of the file, with its
    number and the entries of all its lines; comments are left out, and the composition is that of the card written
    on one line. *)
Theorem C55_materials pre n rest c post :
  material_deck_card n rest c -> (forall x r, post = x :: r -> ~ indented x) ->
  exists t, get_material_cards (pre ++ card_lines c ++ post) = get_material_cards pre ++ (n, t) :: get_material_cards post /\
    words t = words rest ++ flat_map (fun l => words (code l)) (snd c) /\
    mcnp_composition t = mcnp_composition (join_sp (words t)).
Proof.
  intros ((a & A & LA & E) & NN & DN & (D & NL) & F) P.
  assert (P' : forall x r, post = x :: r -> begins_five x = false).
  { intros x r Q. apply P in Q. destruct (begins_five x) eqn:B; [|reflexivity]. apply begins_five_spec in B. tauto. }
  destruct (conts_text (snd c) post F P') as (G1 & G2 & G3 & G4).
  assert (AS : forallb is_space a = true).
  { rewrite forallb_forall in A |- *. intros x I. apply A in I. apply Ascii.eqb_eq in I. subst x. reflexivity. }
  assert (NS : forallb (fun x => negb (is_space x)) ("m"%char :: n) = true).
  { cbn [forallb]. change (is_space "m") with false. cbn [negb andb]. rewrite forallb_forall in DN |- *.
    intros x I. apply DN in I. unfold is_digit in I. apply andb_true_iff in I as [I1 I2].
    apply N.leb_le in I1, I2. unfold is_space.
    destruct (N.leb_spec 9 (N_of_ascii x)), (N.leb_spec (N_of_ascii x) 13), (N.leb_spec 28 (N_of_ascii x)),
      (N.leb_spec (N_of_ascii x) 32), (N.eqb_spec (N_of_ascii x) 133), (N.eqb_spec (N_of_ascii x) 160); try lia; reflexivity. }
  assert (B5 : begins_five (printed (fst c)) = false).
  { destruct (begins_five _) eqn:B; [|reflexivity]. exfalso. apply begins_five_spec in B. destruct B as (r & Q).
    unfold printed in Q. rewrite E in Q.
    assert (V : nth_error (T "     " ++ r) (length a) = Some "m"%char).
    { rewrite <- Q, <- app_assoc. rewrite nth_error_app2 by lia. now rewrite Nat.sub_diag. }
    cbn [T list_ascii_of_string app] in V.
    do 5 (destruct a as [|? a]; [cbn in V; discriminate|cbn [length nth_error] in V]). cbn in LA. lia. }
  assert (ML : is_material_line (printed (fst c)) = true).
  { unfold printed. rewrite E. clear - A NN DN. rewrite <- app_assoc.
    destruct n as [|d n]; [tauto|]. cbn [forallb] in DN. apply andb_true_iff in DN as [DD _].
    induction a as [|x a IH]; cbn [app is_material_line].
    - change (Ascii.eqb "m" blank) with false. cbn [app]. now rewrite DD.
    - cbn [forallb] in A. apply andb_true_iff in A as [X A]. apply Ascii.eqb_eq in X. subst x.
      rewrite Ascii.eqb_refl. now apply IH. }
  unfold card_lines. cbn [app]. rewrite not_five_cards by exact B5. cbn [get_material_cards]. rewrite ML, G1.
  set (tail := match remark (fst c) with Some c0 => "$"%char :: c0 | None => [] end ++ [newline]).
  assert (DR : ~ In "$"%char rest).
  { intro I. apply D. rewrite E, in_app_iff. right. right. rewrite in_app_iff. right. now right. }
  assert (W : words (printed (fst c)) = ("m"%char :: n) :: words (rest ++ tail)).
  { unfold printed. fold tail. rewrite E, <- app_assoc.
    rewrite words_app_space_l by exact AS.
    change (("m"%char :: n ++ blank :: rest) ++ tail) with (("m"%char :: n ++ blank :: rest) ++ tail).
    replace (("m"%char :: n ++ blank :: rest) ++ tail) with (("m"%char :: n) ++ blank :: (rest ++ tail))
      by (cbn [app]; now rewrite <- app_assoc).
    rewrite words_app_space by exact blank_is_space. now rewrite words_single. }
  unfold material_card. rewrite W, G2.
  assert (RM : replace_char "m" [] ("m"%char :: n) = n).
  { unfold replace_char. cbn [flat_map]. rewrite Ascii.eqb_refl. cbn [app]. clear - DN.
    induction n as [|d n IH]; [reflexivity|]. cbn [forallb flat_map] in *. apply andb_true_iff in DN as [DD DN].
    destruct (Ascii.eqb_spec "m" d) as [X|X]; [subst d; discriminate|]. cbn [app]. now rewrite IH. }
  rewrite RM. eexists. split; [reflexivity|].
  destruct (first_line_words rest (remark (fst c)) DR) as [W1 W2].
  match goal with |- words (?x ++ _) = _ /\ _ => change (words x = words rest) in W1; change (~ In newline x) in W2 end.
  split.
  - rewrite G3, W1. reflexivity.
  - unfold mcnp_composition. do 2 f_equal. rewrite G4, G3 by exact W2. rewrite W1.
    set (ws := words rest ++ _).
    assert (FW : Forall (fun w => w <> [] /\ forallb (fun x => negb (is_space x)) w = true) ws).
    { unfold ws. rewrite Forall_app. split; [apply words_good|]. apply Forall_flat_map. apply Forall_forall. intros; apply words_good. }
    assert (NJ : ~ In newline (join_sp ws) /\ words (join_sp ws) = ws).
    { destruct ws as [|w l] using rev_ind; [split; [intros []|reflexivity]|].
      rewrite join_sp_app. cbn [join_sp]. rewrite Forall_app in FW. destruct FW as [FW1 FW2].
      inversion FW2 as [|? ? [X1 X2] _]; subst. split.
      - assert (Z : forall u, forallb (fun x => negb (is_space x)) u = true -> ~ In newline u).
        { intros u S J. rewrite forallb_forall in S. apply S in J. discriminate. }
        rewrite in_app_iff. intros [I|I]; [|now apply (Z w)].
        revert I. apply not_in_joined; [discriminate|]. intros u IU. apply Z.
        rewrite Forall_forall in FW1. now apply FW1.
      - rewrite words_joined by exact FW1. now rewrite words_single. }
    rewrite replace_newline_none by apply NJ. now rewrite (proj2 NJ).
Qed.
Print Assumptions C55_materials.

Definition water : card :=
  (mkL (T "m12 nlib=70c 1001.70c 2 ") (Some (T " hydrogen")), [mkL (T "       8016.70c 1") (Some (T "and oxygen"))]).
Example materials_ex :
  material_deck_card (T "12") (T "nlib=70c 1001.70c 2 ") water /\
  get_material_cards (T "mode n" :: card_lines water ++ []) = [(T "12", T "nlib=70c 1001.70c 2        8016.70c 1")] /\
  option_map fst (mcnp_composition (T "nlib=70c 1001.70c 2        8016.70c 1")) = Some [(T "1001", 2%Q); (T "8016", 1%Q)].
Proof.
  split; [|vm_compute; split; reflexivity].
  unfold material_deck_card, one_line, water; cbn [fst snd code]. split; [|split; [|split; [|split]]].
  - exists []. cbn [length]. repeat split. lia.
  - discriminate.
  - reflexivity.
  - split; vm_compute; intuition discriminate.
  - repeat constructor; try (vm_compute; intuition discriminate). exists (T "  8016.70c 1"). reflexivity.
Qed.

(** ** Importances *)

Lemma lstrip_split s : exists a, forallb is_space a = true /\ s = a ++ lstrip s.
Proof.
  induction s as [|c s (a & A & E)]; [exists []; now split|]. cbn [lstrip].
  destruct (is_space c) eqn:S.
  - exists (c :: a). cbn [forallb app]. rewrite S. split; [exact A|now f_equal].
  - exists []. now split.
Qed.

Lemma forallb_rev {A} (f : A -> bool) l : forallb f (rev l) = forallb f l.
Proof.
  induction l as [|x l IH]; [reflexivity|]. cbn [rev forallb]. rewrite forallb_app, IH. cbn [forallb].
  rewrite andb_true_r. apply andb_comm.
Qed.

Lemma rstrip_split s : exists a, forallb is_space a = true /\ s = rstrip s ++ a.
Proof.
  destruct (lstrip_split (rev s)) as (a & A & E). exists (rev a). split; [now rewrite forallb_rev|].
  unfold rstrip. rewrite <- rev_app_distr, <- E. symmetry. apply rev_involutive.
Qed.

Lemma words_rstrip s : words (rstrip s) = words s.
Proof. destruct (rstrip_split s) as (a & A & E). rewrite E at 2. symmetry. now apply words_app_space_r. Qed.

Lemma words_app_rstrip t x : indented x -> words (t ++ rstrip x) = words t ++ words x.
Proof.
  intros (r & ->). destruct (rstrip_split (T "     " ++ r)) as (a & A & E).
  rewrite <- (words_rstrip (T "     " ++ r)).
  destruct (rstrip (T "     " ++ r)) as [|c u]; [cbn [words]; now rewrite !app_nil_r|].
  cbn [T list_ascii_of_string app] in E. injection E as <- _.
  rewrite words_app_space by reflexivity. now rewrite words_cons_space.
Qed.

(** An entry of the data block: an importance card with its particle and what follows the keyword, or another card. *)
Definition entry := (option (particle * text) * card)%type.
Definition entry_ok (e : entry) : Prop :=
  data_card (snd e) /\
  match fst e with
  | Some (p, rest) =>
      code (fst (snd e)) = T "imp:" ++ particle_to_mcnp p ++ blank :: rest /\ remark (fst (snd e)) = None /\
      Forall (fun l => remark l = None) (snd (snd e))
  | None => Forall (fun x => sub_in (T "imp") x = false) (card_lines (snd e))
  end.
Definition entry_lines (l : list entry) : list text := flat_map (fun e => card_lines (snd e)) l.
Definition about (p : particle) (e : entry) : bool :=
  match fst e with Some (q, _) => particle_beq q p | None => false end.

Lemma particle_beq_eq a b : particle_beq a b = true <-> a = b.
Proof. unfold particle_beq. rewrite text_eqb_eq. split; [|now intros ->]. destruct a, b; cbn; intro E; try reflexivity; discriminate. Qed.

Lemma pget_pset p q t d : pget q (pset p t d) = if particle_beq p q then Some t else pget q d.
Proof.
  induction d as [|[r u] d IH]; cbn [pset pget].
  - reflexivity.
  - destruct (particle_beq r p) eqn:E; cbn [pget].
    + apply particle_beq_eq in E. subst r. now destruct (particle_beq p q).
    + rewrite IH. destruct (particle_beq r q) eqn:F, (particle_beq p q) eqn:G; try reflexivity.
      apply particle_beq_eq in F, G. subst. unfold particle_beq in E. now rewrite text_eqb_refl in E.
Qed.

(** The text stored for an importance card. *)
Definition imp_text (rest : text) (c : card) : text :=
  rstrip (skipn 5 (printed (fst c))) ++ concat (map (fun l => rstrip (printed l)) (snd c)).
Definition imp_step (d : list (particle * text)) (e : entry) : list (particle * text) :=
  match fst e with Some (p, rest) => pset p (imp_text rest (snd e)) d | None => d end.

Lemma scan_imp_conts p t d ls rest : Forall (fun l => indented (printed l)) ls ->
  scan_importances (Some (p, t)) d (map printed ls ++ rest) =
  scan_importances (Some (p, t ++ concat (map (fun l => rstrip (printed l)) ls))) d rest.
Proof.
  intro F. revert t. induction F as [|l ls I F IH]; intro t; cbn [map app concat]; [now rewrite app_nil_r|].
  cbn [scan_importances]. rewrite (proj2 (begins_five_spec _) I), IH, <- app_assoc. reflexivity.
Qed.

Lemma scan_imp_head p rest c d more : data_card c ->
  code (fst c) = T "imp:" ++ particle_to_mcnp p ++ blank :: rest -> remark (fst c) = None ->
  scan_importances None d (card_lines c ++ more) = scan_importances (Some (p, imp_text rest c)) d more.
Proof.
  intros [N F] E R. unfold card_lines. cbn [app scan_importances].
  assert (P : printed (fst c) = T "imp:" ++ particle_to_mcnp p ++ blank :: rest ++ [newline]).
  { unfold printed. rewrite E, R. cbn [app]. rewrite <- !app_assoc. reflexivity. }
  assert (S : sub_in (T "imp") (printed (fst c)) = true) by (rewrite P; destruct p; reflexivity).
  assert (Q : importance_particle (printed (fst c)) = Some p).
  { unfold importance_particle. rewrite P. rewrite app_assoc, words_app_space by exact blank_is_space.
    rewrite (words_single (T "imp:" ++ particle_to_mcnp p)); destruct p; try reflexivity; discriminate. }
  rewrite S, Q. rewrite scan_imp_conts by exact F. reflexivity.
Qed.

Lemma scan_imp_other c d more : Forall (fun x => sub_in (T "imp") x = false) (card_lines c) ->
  scan_importances None d (card_lines c ++ more) = scan_importances None d more.
Proof.
  intro F. induction F as [|x l E F IH]; [reflexivity|]. cbn [app scan_importances]. now rewrite E.
Qed.

Lemma scan_imp_close p t d e es : data_card (snd e) ->
  scan_importances (Some (p, t)) d (entry_lines (e :: es)) = scan_importances None (pset p t d) (entry_lines (e :: es)).
Proof.
  intros [N _]. unfold entry_lines. cbn [flat_map]. unfold card_lines at 1 3. cbn [app scan_importances].
  destruct (begins_five (printed (fst (snd e)))) eqn:B; [|reflexivity]. apply begins_five_spec in B. tauto.
Qed.

Lemma scan_imp_entries es c d : Forall entry_ok (es ++ [(None, c)]) ->
  scan_importances None d (entry_lines (es ++ [(None, c)])) = Some (fold_left imp_step es d).
Proof.
  revert d. induction es as [|e es IH]; intros d F; cbn [app fold_left].
  - inversion F as [|? ? [_ G] _]; subst. cbn [fst snd] in G. unfold entry_lines. cbn [flat_map snd].
    rewrite scan_imp_other by exact G. reflexivity.
  - inversion F as [|? ? [D G] F']; subst. unfold entry_lines. cbn [flat_map]. fold (entry_lines (es ++ [(None, c)])).
    unfold imp_step at 2. destruct (fst e) as [[p rest]|].
    + destruct G as (E & R & _). rewrite (scan_imp_head p rest) by assumption.
      destruct (es ++ [(None, c)]) as [|e2 es2] eqn:Q; [destruct es; discriminate|].
      rewrite scan_imp_close by (inversion F' as [|? ? [D2 _] _]; exact D2). now apply IH.
    + rewrite scan_imp_other by exact G. now apply IH.
Qed.

Lemma words_imp_text p rest c : data_card c ->
  code (fst c) = T "imp:" ++ particle_to_mcnp p ++ blank :: rest -> remark (fst c) = None -> Forall (fun l => remark l = None) (snd c) ->
  words (imp_text rest c) = words rest ++ flat_map (fun l => words (code l)) (snd c).
Proof.
  intros [_ F] E R RN. unfold imp_text.
  assert (P : skipn 5 (printed (fst c)) = blank :: rest ++ [newline]).
  { unfold printed. rewrite E, R. cbn [app]. rewrite <- !app_assoc. destruct p; reflexivity. }
  rewrite P.
  assert (G : forall ls, Forall (fun l => indented (printed l)) ls -> Forall (fun l => remark l = None) ls -> forall t,
            words (t ++ concat (map (fun l => rstrip (printed l)) ls)) = words t ++ flat_map (fun l => words (code l)) ls).
  { clear. intros ls F. induction F as [|l ls I F IH]; intros RN t; cbn [map concat flat_map]; [now rewrite !app_nil_r|].
    inversion RN as [|? ? R RN']; subst.
    rewrite app_assoc, IH, words_app_rstrip by assumption. rewrite <- app_assoc. do 2 f_equal.
    unfold printed. rewrite R. cbn [app]. apply words_app_space_r. reflexivity. }
  rewrite G by assumption. f_equal. rewrite words_rstrip, words_cons_space by exact blank_is_space.
  apply words_app_space_r. reflexivity.
Qed.

(** C55, importances, for a data block in which importance cards carry no comments, no other line has the letters imp
    in it, and the last card is another one: every importance card is read, with the values of all its lines, unless a
    later one is for the same particle.  (Missing: what the refutations below show.) *)
Theorem C55_importances_partial es c : Forall entry_ok (es ++ [(None, c)]) ->
  exists d, get_importances (entry_lines (es ++ [(None, c)])) = Some d /\
    (forall p, existsb (about p) es = false -> pget p d = None) /\
    (forall before p rest k behind, es = before ++ (Some (p, rest), k) :: behind -> existsb (about p) behind = false ->
       exists t, pget p d = Some t /\ words t = words rest ++ flat_map (fun l => words (code l)) (snd k)).
Proof.
  intro F. exists (fold_left imp_step es []). split; [now apply scan_imp_entries|].
  assert (H : forall p es d, existsb (about p) es = false -> pget p (fold_left imp_step es d) = pget p d).
  { clear. intros p es. induction es as [|e es IH]; intros d E; [reflexivity|]. cbn [existsb] in E.
    apply orb_false_iff in E as [E1 E2]. cbn [fold_left]. rewrite IH by exact E2. unfold imp_step, about in *.
    destruct (fst e) as [[q rest]|]; [|reflexivity]. rewrite pget_pset, E1. reflexivity. }
  split.
  - intros p E. now rewrite H.
  - intros before p rest k behind -> E. rewrite fold_left_app. cbn [fold_left]. rewrite H by exact E.
    unfold imp_step at 1. cbn [fst snd]. rewrite pget_pset. unfold particle_beq. rewrite text_eqb_refl.
    exists (imp_text rest k). split; [reflexivity|].
    rewrite Forall_app in F. destruct F as [F _]. rewrite Forall_app in F. destruct F as [_ F].
    inversion F as [|? ? [D G] _]; subst. cbn [fst snd] in *. destruct G as (E1 & R & RN). now apply (words_imp_text p).
Qed.
Print Assumptions C55_importances_partial.

(** An importance card at the end of the file cannot be read, whatever comes before it. *)
Theorem C55_last_importance_fails es p rest c : Forall entry_ok (es ++ [(Some (p, rest), c)]) ->
  get_importances (entry_lines (es ++ [(Some (p, rest), c)])) = None.
Proof.
  unfold get_importances. generalize (@nil (particle * text)) as d. induction es as [|e es IH]; intros d F; cbn [app].
  - inversion F as [|? ? [D G] _]; subst. cbn [fst snd] in *. destruct G as (E & R & _). unfold entry_lines. cbn [flat_map snd].
    rewrite (scan_imp_head p rest) by assumption. reflexivity.
  - inversion F as [|? ? [D G] F']; subst. unfold entry_lines. cbn [flat_map]. fold (entry_lines (es ++ [(Some (p, rest), c)])).
    destruct (fst e) as [[q r]|].
    + destruct G as (E & R & _). rewrite (scan_imp_head q r) by assumption.
      destruct (es ++ [(Some (p, rest), c)]) as [|e2 es2] eqn:Q; [destruct es; discriminate|].
      rewrite scan_imp_close by (inversion F' as [|? ? [D2 _] _]; exact D2). now apply IH.
    + rewrite scan_imp_other by exact G. now apply IH.
Qed.
Print Assumptions C55_last_importance_fails.

Definition entries_ex : list entry :=
  [(Some (NEUTRON, T "1 1"), (mkL (T "imp:n 1 1") None, [mkL (T "      0") None]));
   (None, (mkL (T "m1 1001 2") None, [mkL (T "       8016 1") None]));
   (Some (PHOTON, T "1 2r"), (mkL (T "imp:p 1 2r") None, []))].
Example importances_ex : Forall entry_ok (entries_ex ++ [(None, (mkL (T "nps 1000") None, []))]) /\
  get_importances (entry_lines (entries_ex ++ [(None, (mkL (T "nps 1000") None, []))])) =
    Some [(NEUTRON, T " 1 1      0"); (PHOTON, T " 1 2r")] /\
  get_importances (entry_lines entries_ex) = None.
Proof.
  split; [|vm_compute; split; reflexivity].
  unfold entries_ex, entry_ok, data_card; cbn [app].
  repeat constructor; cbn [fst snd]; try (intros (r & E); discriminate); eexists; reflexivity.
Qed.

(** C55 is false: an importance card on the last line of the file. *)
Theorem C55_last_importance_refuted : exists l t,
  get_importances (l ++ [T "nps 1000" ++ [newline]]) = Some [(NEUTRON, t)] /\ words t = [T "1"; T "0"] /\ get_importances l = None.
Proof. exists [T "imp:n 1 0" ++ [newline]]. eexists. vm_compute. repeat split. Qed.
Print Assumptions C55_last_importance_refuted.

(** C55 is false: the word "important" in the comment of a material card stops the reading of the file. *)
Theorem C55_important_refuted : exists x y,
  x = T "m1 1001 1 " ++ [newline] /\ y = T "m1 1001 1 $ important" ++ [newline] /\
  get_importances [x] = Some [] /\ get_importances [y] = None /\ get_material_cards [x] = [(T "1", T "1001 1 ")] /\
  get_material_cards [y] = [(T "1", T "1001 1 ")].
Proof. do 2 eexists. split; [reflexivity|]. split; [reflexivity|]. vm_compute. repeat split. Qed.
Print Assumptions C55_important_refuted.

(** C55 is false: a comment on an importance card is taken for importances, and then the card cannot be used. *)
Theorem C55_importance_comment_refuted : exists x y d d' t,
  x = T "imp:n 1 0" ++ [newline] /\ y = T "imp:n 1 0 $ inner outer" ++ [newline] /\
  get_importances [x; T "nps 1" ++ [newline]] = Some d /\ neutrons d = Some t /\ words t = [T "1"; T "0"] /\
  get_importances [y; T "nps 1" ++ [newline]] = Some d' /\ (forall cells, apply_importances d' cells = None).
Proof.
  do 5 eexists. split; [reflexivity|]. split; [reflexivity|]. split; [vm_compute; reflexivity|].
  split; [reflexivity|]. split; [reflexivity|]. split; [vm_compute; reflexivity|].
  intros [|[? ?] [|[? ?] [|[? ?] [|[? ?] [|[? ?] ?]]]]]; reflexivity.
Qed.
Print Assumptions C55_importance_comment_refuted.

(** C55 is false: an importance card that does not begin in the first column loses the wrong five characters. *)
Theorem C55_importance_column_refuted : exists x y d d' t,
  x = T "imp:n 1 0" ++ [newline] /\ y = " "%char :: x /\
  get_importances [x; T "nps 1" ++ [newline]] = Some d /\ neutrons d = Some t /\ words t = [T "1"; T "0"] /\
  get_importances [y; T "nps 1" ++ [newline]] = Some d' /\ (forall cells, apply_importances d' cells = None).
Proof.
  do 5 eexists. split; [reflexivity|]. split; [reflexivity|]. split; [vm_compute; reflexivity|].
  split; [reflexivity|]. split; [reflexivity|]. split; [vm_compute; reflexivity|].
  intros [|[? ?] [|[? ?] [|[? ?] [|[? ?] [|[? ?] ?]]]]]; reflexivity.
Qed.
Print Assumptions C55_importance_column_refuted.

(** ** Transforms *)

Definition tr_name (x : text) : Prop := (exists r, x = T "tr" ++ r) \/ (exists r, x = T "*tr" ++ r).
Definition tr_entry := (bool * card)%type.
Definition tr_ok (e : tr_entry) : Prop :=
  data_card (snd e) /\ if fst e then tr_name (printed (fst (snd e))) else ~ tr_name (printed (fst (snd e))).
Definition tr_lines (l : list tr_entry) : list text := flat_map (fun e => card_lines (snd e)) l.

Lemma is_tr_spec x : is_tr_line x = true <-> tr_name x.
Proof.
  unfold is_tr_line, tr_name. rewrite orb_true_iff, !text_eqb_eq. split.
  - intros [E|E]; [left; exists (skipn 2 x)|right; exists (skipn 3 x)]; rewrite <- E; symmetry; apply firstn_skipn.
  - intros [(r & ->)|(r & ->)]; [left|right]; reflexivity.
Qed.

Lemma indented_not_tr x : indented x -> is_tr_line x = false.
Proof. intros (r & ->). reflexivity. Qed.

Lemma scan_tr_conts t ls rest : Forall (fun l => indented (printed l)) ls ->
  scan_transforms (Some t) (map printed ls ++ rest) = scan_transforms (Some (t ++ concat (map printed ls))) rest.
Proof.
  intro F. revert t. induction F as [|l ls I F IH]; intro t; cbn [map app concat]; [now rewrite app_nil_r|].
  cbn [scan_transforms]. rewrite (proj2 (begins_five_spec _) I), IH, <- app_assoc. reflexivity.
Qed.

Lemma scan_tr_other ls rest : Forall (fun l => indented (printed l)) ls ->
  scan_transforms None (map printed ls ++ rest) = scan_transforms None rest.
Proof.
  intro F. induction F as [|l ls I F IH]; [reflexivity|]. cbn [map app scan_transforms].
  now rewrite (indented_not_tr _ I).
Qed.

Definition tr_texts (es : list tr_entry) : list text := map (fun e => concat (card_lines (snd e))) (filter fst es).

Lemma scan_tr_entries es c : Forall tr_ok (es ++ [(false, c)]) ->
  scan_transforms None (tr_lines (es ++ [(false, c)])) = Some (tr_texts es) /\
  forall t, scan_transforms (Some t) (tr_lines (es ++ [(false, c)])) = Some (t :: tr_texts es).
Proof.
  induction es as [|e es IH]; intro F; cbn [app].
  - inversion F as [|? ? [[N D] G] _]; subst. cbn [fst snd] in *. unfold tr_lines. cbn [flat_map snd]. rewrite app_nil_r.
    assert (Z : is_tr_line (printed (fst c)) = false).
    { destruct (is_tr_line _) eqn:Q; [|reflexivity]. apply is_tr_spec in Q. tauto. }
    assert (B : begins_five (printed (fst c)) = false).
    { destruct (begins_five _) eqn:Q; [|reflexivity]. apply begins_five_spec in Q. tauto. }
    assert (K : scan_transforms None (map printed (snd c)) = Some []).
    { rewrite <- (app_nil_r (map printed (snd c))). now rewrite scan_tr_other. }
    unfold card_lines. cbn [scan_transforms]. rewrite Z, B, K. now split.
  - inversion F as [|? ? [[N D] G] F']; subst. destruct (IH F') as [IH1 IH2].
    unfold tr_lines. cbn [flat_map]. fold (tr_lines (es ++ [(false, c)])).
    assert (B : begins_five (printed (fst (snd e))) = false).
    { destruct (begins_five _) eqn:Q; [|reflexivity]. apply begins_five_spec in Q. tauto. }
    unfold card_lines. cbn [app scan_transforms]. rewrite B. unfold tr_texts. cbn [filter].
    destruct (fst e); cbn [map].
    + rewrite (proj2 (is_tr_spec _) G). rewrite scan_tr_conts by exact D. rewrite IH2. now split.
    + assert (Z : is_tr_line (printed (fst (snd e))) = false).
      { destruct (is_tr_line _) eqn:Q; [|reflexivity]. apply is_tr_spec in Q. tauto. }
      rewrite Z, scan_tr_other by exact D. rewrite IH1. now split.
Qed.

Lemma words_printed_app l t : words (printed l ++ t) = words (printed l) ++ words t.
Proof.
  unfold printed. rewrite !app_assoc. rewrite <- (app_assoc _ [newline] t). cbn [app].
  rewrite words_app_space by exact newline_is_space. f_equal. symmetry. now apply words_app_space_r.
Qed.

(** C55, transforms, for a data block whose last card is not a transform card: all the transform cards are found, each
    with the words of all its lines.  (Missing: what the refutations below show.) *)
Theorem C55_transforms_partial es c : Forall tr_ok (es ++ [(false, c)]) ->
  exists ts, get_transform_cards (tr_lines (es ++ [(false, c)])) = Some ts /\
    map words ts = map (fun e => flat_map words (card_lines (snd e))) (filter fst es).
Proof.
  intro F. exists (tr_texts es). split; [now apply scan_tr_entries|].
  unfold tr_texts. rewrite map_map. apply map_ext. intros [b k]. cbn [snd]. unfold card_lines. cbn [concat flat_map].
  rewrite words_printed_app. f_equal. induction (snd k) as [|l ls IH]; [reflexivity|]. cbn [map concat flat_map].
  now rewrite words_printed_app, IH.
Qed.
Print Assumptions C55_transforms_partial.

Definition turn : tr_entry := (true, (mkL (T "tr1 0 0 5 0 1 0") None, [mkL (T "      -1 0 0 0 0 1") None])).
Definition tr_ex : list tr_entry := [(false, (mkL (T "mode n") None, [])); turn].
Example transforms_ex : Forall tr_ok (tr_ex ++ [(false, (mkL (T "nps 10") None, []))]) /\
  option_map (map words) (get_transform_cards (tr_lines (tr_ex ++ [(false, (mkL (T "nps 10") None, []))]))) =
    Some [[T "tr1"; T "0"; T "0"; T "5"; T "0"; T "1"; T "0"; T "-1"; T "0"; T "0"; T "0"; T "0"; T "1"]].
Proof.
  split; [|vm_compute; reflexivity].
  unfold tr_ex, turn, tr_ok, data_card; cbn [app].
  repeat constructor; cbn [fst snd];
    try (intros (r & E); discriminate); try (intros [(r & E)|(r & E)]; discriminate); try (eexists; reflexivity).
Qed.

(** A transform card at the end of the file cannot be read. *)
Theorem C55_last_transform_refuted : exists l ts,
  get_transform_cards (l ++ [T "nps 1000" ++ [newline]]) = Some ts /\ length ts = 1 /\ get_transform_cards l = None.
Proof. exists [T "tr1 0 0 5" ++ [newline]]. eexists. vm_compute. repeat split. Qed.
Print Assumptions C55_last_transform_refuted.

(** C55 is false: a comment of two words on a transform card makes its rotation disappear. *)
Theorem C55_transform_comment_refuted : exists x y t t',
  x = T "tr1 0 0 5 0 1 0 -1 0 0 0 0 1" ++ [newline] /\ y = T "tr1 0 0 5 0 1 0 -1 0 0 0 0 1 $ quarter turn" ++ [newline] /\
  get_transform_cards [x; T "nps 1" ++ [newline]] = Some [x] /\ get_transform_cards [y; T "nps 1" ++ [newline]] = Some [y] /\
  read_trans_card x = Some (T "1", t) /\ read_trans_card y = Some (T "1", t') /\
  t_v1 t = (0, 1, 0)%R /\ t_v1 t' = (1, 0, 0)%R.
Proof.
  do 4 eexists. split; [reflexivity|]. split; [reflexivity|].
  split; [vm_compute; reflexivity|]. split; [vm_compute; reflexivity|].
  split; [cbv -[Q2R Rdefinitions.R0 Rdefinitions.R1]; reflexivity|].
  split; [cbv -[Q2R Rdefinitions.R0 Rdefinitions.R1]; reflexivity|].
  cbn [t_v1]. unfold Q2R. cbn [Qnum Qden]. split; [|reflexivity].
  assert (E1 : (0 * / 1 = 0)%R) by lra. assert (E2 : (1 * / 1 = 1)%R) by lra. now rewrite ?E1, ?E2.
Qed.
Print Assumptions C55_transform_comment_refuted.
