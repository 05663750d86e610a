(** C53: the keywords of a cell card. *)
From Coq Require Import QArith.
From Verif Require Import PyStr PyStrFacts FortranNumber FortranNumberProofs CellText CellWriters FlattenModel KeywordModel PropDeck.
Open Scope nat_scope.
Open Scope list_scope.

(** ** How keywords are spelled *)

(** A keyword with its value.  A fill may have a star, and a transformation in parentheses: what stands before the
    parenthesis and what stands inside. *)
Inductive kwd :=
| KU (v : text)
| KFill (star : bool) (v : text) (tr : option (text * text))
| KImp (v : text)
| KVol (v : text)
| KTmp (v : text).

(** A keyword on a card: white space before it, and whether there is a blank before and after the equals sign. *)
Record entry := mkE { e_gap : text; e_kw : kwd; e_b1 : bool; e_b2 : bool }.

Definition kname (k : kwd) : text :=
  match k with KU _ => T "u" | KFill _ _ _ => T "fill" | KImp _ => T "imp:n" | KVol _ => T "vol" | KTmp _ => T "tmp" end.
Definition kstar (k : kwd) : text := match k with KFill true _ _ => T "*" | _ => [] end.
Definition kvalue (k : kwd) : text := match k with KU v | KFill _ v _ | KImp v | KVol v | KTmp v => v end.
Definition krest (k : kwd) : text :=
  match k with KFill _ _ (Some (sep, inner)) => sep ++ T "(" ++ inner ++ T ")" | _ => [] end.
Definition opt_blank (b : bool) : text := if b then [blank] else [].
Definition render (e : entry) : text :=
  kstar (e_kw e) ++ kname (e_kw e) ++ opt_blank (e_b1 e) ++ T "=" ++ opt_blank (e_b2 e) ++ kvalue (e_kw e) ++ krest (e_kw e).
Definition entry_text (e : entry) : text := e_gap e ++ render e.

(** White space. *)
Definition spaces (s : text) : Prop := forallb is_space s = true.

(** Characters that no keyword begins with and that have no meaning for the keywords. *)
Definition calm (c : ascii) : bool := negb (existsb (Ascii.eqb c) (T "ufivt=$()*")).
(** Geometry may have parentheses as well. *)
Definition geometric (c : ascii) : bool := negb (existsb (Ascii.eqb c) (T "ufivt=$*")).

(** A number without exponent. *)
Definition number (v : text) : Prop :=
  exists sg d f, v = sg ++ d ++ f /\ (sg = [] \/ sg = T "+" \/ sg = T "-") /\ all_digits d /\
    (f = [] \/ exists x, f = "."%char :: x /\ all_digits x /\ x <> []) /\ d ++ f <> [].

Definition good_kwd (k : kwd) : Prop :=
  number (kvalue k) /\
  match k with
  | KFill star _ (Some (sep, inner)) =>
      spaces sep /\ forallb calm inner = true /\ (length (words inner) = 1 \/ length (words inner) = 3 \/ length (words inner) = 12) /\
      (star = true -> Forall (fun t => py_float t <> None) (words inner))
  | _ => True
  end.
Definition good_entry (e : entry) : Prop := spaces (e_gap e) /\ e_gap e <> [] /\ good_kwd (e_kw e).

Definition kind (e : entry) : nat := match e_kw e with KU _ => 0 | KFill _ _ _ => 1 | KImp _ => 2 | KVol _ => 3 | KTmp _ => 4 end.

(** The card: geometry, keywords, white space. *)
Definition kcard (geom : text) (es : list entry) (tail : text) : text := geom ++ concat (map entry_text es) ++ tail.

(** ** Searching *)

Lemma after_head h p c s : h <> c -> after (h :: p) (c :: s) = None.
Proof. intro N. cbn [after]. now destruct (Ascii.eqb_spec h c). Qed.
Lemma after_app p s : after p (p ++ s) = Some s.
Proof. induction p as [|c p IH]; [reflexivity|]. cbn [app after]. now rewrite Ascii.eqb_refl. Qed.

(** [x] is passed over in the search for [p]. *)
Definition passes (p x : text) : Prop :=
  forall r, find_sub p (x ++ r) = option_map (Nat.add (length x)) (find_sub p r) /\ kw_search p (x ++ r) = kw_search p r.

Lemma passes_nil p : passes p [].
Proof. intro r. split; [|reflexivity]. cbn [app length]. now destruct (find_sub p r). Qed.
Lemma passes_app p x y : passes p x -> passes p y -> passes p (x ++ y).
Proof.
  intros X Y r. rewrite <- app_assoc. destruct (X (y ++ r)) as [-> ->]. destruct (Y r) as [-> ->]. split; [|reflexivity].
  destruct (find_sub p r); [|reflexivity]. cbn [option_map]. now rewrite app_length, Nat.add_assoc.
Qed.
Lemma passes_char h p c : h <> c -> passes (h :: p) [c].
Proof.
  intros N r. cbn [app length]. split.
  - cbn [find_sub]. rewrite after_head by exact N. now destruct (find_sub (h :: p) r).
  - cbn [kw_search]. unfold kw_match. now rewrite after_head by exact N.
Qed.
Lemma passes_head h p x : ~ In h x -> passes (h :: p) x.
Proof.
  induction x as [|c x IH]; intro N; [apply passes_nil|]. change (c :: x) with ([c] ++ x). apply passes_app.
  - apply passes_char. intro E. apply N. now left.
  - apply IH. intro I. apply N. now right.
Qed.

Lemma find_head h p x : ~ In h x -> find_sub (h :: p) x = None.
Proof. intro N. destruct (passes_head h p x N []) as [E _]. rewrite app_nil_r in E. rewrite E. reflexivity. Qed.

Lemma spaces_calm s : spaces s -> forallb calm s = true.
Proof.
  unfold spaces. rewrite !forallb_forall. intros S c I. specialize (S c I). unfold calm.
  destruct (existsb (Ascii.eqb c) (T "ufivt=$()*")) eqn:X; [|reflexivity]. exfalso.
  apply existsb_exists in X as (d & J & E). apply Ascii.eqb_eq in E. subst d.
  cbn in J. repeat (destruct J as [<-|J]; [discriminate|]). destruct J.
Qed.
Lemma calm_geometric s : forallb calm s = true -> forallb geometric s = true.
Proof.
  rewrite !forallb_forall. intros S c I. specialize (S c I). unfold calm, geometric in *. apply negb_true_iff in S. apply negb_true_iff.
  destruct (existsb (Ascii.eqb c) (T "ufivt=$*")) eqn:X; [|reflexivity]. apply existsb_exists in X as (d & J & E).
  assert (K : existsb (Ascii.eqb c) (T "ufivt=$()*") = true); [|congruence]. apply existsb_exists. exists d. split; [|exact E].
  cbn in *. tauto.
Qed.
Lemma geometric_no s c : forallb geometric s = true -> In c (T "ufivt=$*") -> ~ In c s.
Proof.
  intros G I J. rewrite forallb_forall in G. apply G in J. unfold geometric in J. apply negb_true_iff in J.
  assert (K : existsb (Ascii.eqb c) (T "ufivt=$*") = true); [|congruence]. apply existsb_exists. exists c. split; [exact I|apply Ascii.eqb_refl].
Qed.
Lemma calm_no s c : forallb calm s = true -> In c (T "ufivt=$()*") -> ~ In c s.
Proof.
  intros G I J. rewrite forallb_forall in G. apply G in J. unfold calm in J. apply negb_true_iff in J.
  assert (K : existsb (Ascii.eqb c) (T "ufivt=$()*") = true); [|congruence]. apply existsb_exists. exists c. split; [exact I|apply Ascii.eqb_refl].
Qed.

Lemma digit_calm c : is_digit c = true -> calm c = true.
Proof.
  intro D. unfold calm. destruct (existsb (Ascii.eqb c) (T "ufivt=$()*")) eqn:X; [|reflexivity].
  apply existsb_exists in X as (d & J & E). apply Ascii.eqb_eq in E. subst d. cbn in J.
  repeat (destruct J as [<-|J]; [discriminate|]). destruct J.
Qed.
Lemma digits_calm d : all_digits d -> forallb calm d = true.
Proof. unfold all_digits. rewrite !forallb_forall. intros H c I. apply digit_calm. now apply H. Qed.

Lemma number_facts v : number v -> v <> [] /\ forallb calm v = true /\ forallb (fun c => negb (is_space c)) v = true /\
  (forall c r, is_digit c = false -> c <> "."%char -> take_number (v ++ c :: r) = v).
Proof.
  intros (sg & d & f & -> & SG & D & F & N).
  assert (ND : forallb (fun c => negb (is_space c)) d = true).
  { unfold all_digits in D. rewrite forallb_forall in *. intros c I. apply D in I. destruct (is_space c) eqn:S; [|reflexivity].
    apply space_not_digit in S. congruence. }
  assert (FF : forallb calm f = true /\ forallb (fun c => negb (is_space c)) f = true).
  { destruct F as [->|(x & -> & X & _)]; [now split|]. cbn [forallb]. rewrite (digits_calm x X). split; [reflexivity|].
    unfold all_digits in X. change (is_space ".") with false. cbn [andb negb]. rewrite forallb_forall in *. intros c I. apply X in I. destruct (is_space c) eqn:S; [|reflexivity].
    apply space_not_digit in S. congruence. }
  destruct FF as [F1 F2]. repeat split.
  - destruct SG as [-> | [-> | ->]]; try discriminate. exact N.
  - rewrite !forallb_app, (digits_calm d D), F1. destruct SG as [-> | [-> | ->]]; reflexivity.
  - rewrite !forallb_app, ND, F2. destruct SG as [-> | [-> | ->]]; reflexivity.
  - intros c r C1 C2. unfold take_number.
    assert (K : lead_sign (sg ++ (d ++ f) ++ c :: r) = (sg, (d ++ f) ++ c :: r)).
    { destruct SG as [-> | [-> | ->]]; [|reflexivity|reflexivity]. rewrite <- !app_assoc. cbn [app]. destruct d as [|x d].
      - destruct F as [->|(y & -> & _)]; [now cbn in N|]. reflexivity.
      - cbn [app]. unfold all_digits in D. cbn [forallb] in D. apply andb_true_iff in D as [D _]. unfold lead_sign.
        rewrite (digit_not x "+" D), (digit_not x "-" D) by reflexivity. reflexivity. }
    rewrite <- app_assoc, K, <- app_assoc.
    destruct F as [->|(x & -> & X & XN)].
    + cbn [app]. rewrite take_digits_app; [|exact D|exact C1].
      destruct (Ascii.eqb_spec c "."); [tauto|]. now rewrite app_nil_r.
    + cbn [app]. rewrite take_digits_app; [|exact D|reflexivity]. rewrite Ascii.eqb_refl.
      rewrite take_digits_app; [|exact X|exact C1]. destruct x as [|y x]; [tauto|]. reflexivity.
Qed.

(** ** Halving the blanks *)

Lemma halve_nonblank c r : c <> blank -> halve (c :: r) = c :: halve r.
Proof. intro N. destruct r as [|d r]; [reflexivity|]. cbn [halve]. destruct (Ascii.eqb_spec c blank); [tauto|]. reflexivity. Qed.
Lemma halve_word w r : forallb (fun c => negb (is_space c)) w = true -> halve (w ++ r) = w ++ halve r.
Proof.
  induction w as [|c w IH]; intro S; [reflexivity|]. cbn [forallb] in S. apply andb_true_iff in S as [S1 S2]. cbn [app].
  rewrite halve_nonblank by (intros ->; discriminate). now rewrite IH.
Qed.
Lemma halve_one c r : c <> blank -> halve (blank :: c :: r) = blank :: halve (c :: r).
Proof. intro N. cbn [halve]. rewrite Ascii.eqb_refl. destruct (Ascii.eqb_spec c blank); [tauto|]. reflexivity. Qed.
Lemma halve_two r : halve (blank :: blank :: r) = blank :: halve r.
Proof. reflexivity. Qed.

Lemma halve_in c s : In c (halve s) -> In c s.
Proof.
  assert (H : forall n s, length s <= n -> In c (halve s) -> In c s).
  { intro n. induction n as [|n IH]; intros [|x [|y r]] L I; try (cbn in L; lia); try exact I.
    cbn [halve length] in *. destruct (Ascii.eqb x blank && Ascii.eqb y blank) eqn:B.
    - apply andb_true_iff in B as [B1 B2]. apply Ascii.eqb_eq in B1, B2. subst. destruct I as [<-|I]; [now left|].
      right; right. apply IH; [lia|exact I].
    - destruct I as [<-|I]; [now left|]. right. apply IH; [cbn [length]; lia|exact I]. }
  apply (H (length s)). lia.
Qed.

(** A break before a character that is not blank. *)
Lemma halve_app a c r : c <> blank -> halve (a ++ c :: r) = halve a ++ halve (c :: r).
Proof.
  intro N. assert (H : forall n a, length a <= n -> halve (a ++ c :: r) = halve a ++ halve (c :: r)).
  { intro n. induction n as [|n IH]; intros [|x [|y s]] L; try (cbn in L; lia); try reflexivity.
    - cbn [app]. destruct (Ascii.eqb_spec x blank) as [->|X]; [now rewrite halve_one|]. now rewrite halve_nonblank.
    - cbn [app halve length] in *. destruct (Ascii.eqb x blank && Ascii.eqb y blank).
      + cbn [app]. f_equal. apply IH. lia.
      + cbn [app]. f_equal. apply (IH (y :: s)). cbn [length]. lia. }
  apply (H (length a)). lia.
Qed.
Lemma halve_hd s : hd blank (halve s) = hd blank s.
Proof. destruct s as [|x [|y r]]; try reflexivity. cbn [halve]. destruct (Ascii.eqb_spec x blank) as [->|]; [|reflexivity]. now destruct (Ascii.eqb y blank). Qed.

(** ** The text after the geometry, with blanks *)

Definition sp (s : text) : text := replace_char "=" (T "= ") (replace_char "=" (T " =") s).

Lemma sp_app a b : sp (a ++ b) = sp a ++ sp b.
Proof. unfold sp. now rewrite !replace_char_app. Qed.
Lemma replace_no c t s : ~ In c s -> replace_char c t s = s.
Proof.
  intro N. induction s as [|x s IH]; [reflexivity|]. cbn [In] in N. unfold replace_char in *. cbn [flat_map].
  destruct (Ascii.eqb_spec c x) as [E|E]; [symmetry in E; tauto|]. cbn [app]. now rewrite IH by tauto.
Qed.
Lemma sp_no s : ~ In "="%char s -> sp s = s.
Proof. intro N. unfold sp. now rewrite !(replace_no _ _ s N). Qed.
Lemma spacify_sp s : spacify s = halve (sp s) ++ [blank].
Proof. reflexivity. Qed.

Lemma calm_rest k : good_kwd k -> forallb geometric (krest k) = true /\ (hd blank (krest k) = "("%char \/ is_space (hd blank (krest k)) = true).
Proof.
  intros (_ & G). destruct k as [v|star v [[sep inner]|]|v|v|v]; try (split; [reflexivity|right; reflexivity]).
  destruct G as (S & C & _). cbn [krest]. split.
  - rewrite !forallb_app. rewrite (calm_geometric sep (spaces_calm sep S)), (calm_geometric inner C). reflexivity.
  - destruct sep as [|c sep]; [now left|right]. unfold spaces in S. cbn [forallb] in S. now apply andb_true_iff in S as [S _].
Qed.

Lemma name_nospace k : forallb (fun c => negb (is_space c)) (kstar k ++ kname k) = true.
Proof. destruct k as [v|[|] v t|v|v|v]; reflexivity. Qed.

(** A keyword after white space: the equals sign gets its blanks. *)
Lemma halve_entry P e r : good_entry e -> forallb geometric P = true ->
  halve (P ++ sp (entry_text e ++ r)) =
  halve (P ++ e_gap e) ++ kstar (e_kw e) ++ kname (e_kw e) ++ T " = " ++ kvalue (e_kw e) ++ halve (krest (e_kw e) ++ sp r).
Proof.
  intros (GS & GN & GK) GP. destruct (calm_rest _ GK) as [CR _]. destruct GK as (NV & _). destruct (number_facts _ NV) as (VN & VC & VS & _).
  unfold entry_text, render. rewrite sp_app. rewrite !sp_app.
  assert (E1 : sp (e_gap e) = e_gap e) by (apply sp_no; apply calm_no; [now apply spaces_calm|cbn; tauto]).
  assert (E2 : sp (kstar (e_kw e)) = kstar (e_kw e)) by (destruct (e_kw e) as [?|[|] ? ?|?|?|?]; reflexivity).
  assert (E3 : sp (kname (e_kw e)) = kname (e_kw e)) by (destruct (e_kw e); reflexivity).
  assert (E4 : forall b, sp (opt_blank b) = opt_blank b) by (intros [|]; reflexivity).
  assert (E5 : sp (kvalue (e_kw e)) = kvalue (e_kw e)) by (apply sp_no; apply calm_no; [assumption|cbn; tauto]).
  assert (E6 : sp (krest (e_kw e)) = krest (e_kw e)) by (apply sp_no; apply geometric_no; [assumption|cbn; tauto]).
  rewrite E1, E2, E3, !E4, E5, E6. change (sp (T "=")) with (T " = "). rewrite <- !app_assoc.
  assert (NS := name_nospace (e_kw e)).
  assert (H : exists c x, kstar (e_kw e) ++ kname (e_kw e) = c :: x /\ c <> blank).
  { destruct (e_kw e) as [?|[|] ? ?|?|?|?]; (do 2 eexists; split; [reflexivity|discriminate]). }
  destruct H as (c & x & CX & CB).
  rewrite (app_assoc P). rewrite (app_assoc (kstar _)), (app_assoc (kstar _) (kname _)), CX. cbn [app]. rewrite halve_app by exact CB. f_equal.
  rewrite CX in NS. change (c :: x ++ ?y) with ((c :: x) ++ y). rewrite halve_word by exact NS. cbn [app]. f_equal. f_equal.
  destruct (kvalue (e_kw e)) as [|v0 v] eqn:VE; [tauto|]. assert (V0 : v0 <> blank).
  { cbn [forallb] in VS. apply andb_true_iff in VS as [V0 _]. intros ->. discriminate. }
  assert (HV : halve ((v0 :: v) ++ krest (e_kw e) ++ sp r) = (v0 :: v) ++ halve (krest (e_kw e) ++ sp r)) by now apply halve_word.
  assert (HT : halve (opt_blank (e_b2 e) ++ (v0 :: v) ++ krest (e_kw e) ++ sp r) = opt_blank (e_b2 e) ++ (v0 :: v) ++ halve (krest (e_kw e) ++ sp r)).
  { rewrite <- HV. destruct (e_b2 e); [|reflexivity]. cbn [opt_blank app]. now apply halve_one. }
  assert (HB : halve (blank :: opt_blank (e_b2 e) ++ (v0 :: v) ++ krest (e_kw e) ++ sp r) = blank :: (v0 :: v) ++ halve (krest (e_kw e) ++ sp r)).
  { destruct (e_b2 e); cbn [opt_blank app].
    - rewrite halve_two. f_equal. exact HV.
    - rewrite halve_one by exact V0. f_equal. exact HV. }
  cbn [T list_ascii_of_string app] in *.
  assert (HE : halve ("="%char :: blank :: opt_blank (e_b2 e) ++ v0 :: v ++ krest (e_kw e) ++ sp r) =
               "="%char :: blank :: v0 :: v ++ halve (krest (e_kw e) ++ sp r)).
  { rewrite halve_nonblank by discriminate. f_equal. exact HB. }
  destruct (e_b1 e); cbn [opt_blank app].
  - change " "%char with blank. rewrite halve_two. now rewrite HE.
  - change " "%char with blank. rewrite halve_one by discriminate. now rewrite HE.
Qed.

(** ** Searching the keywords *)

(** What is searched, and for which kind of keyword. *)
Definition searched : list (text * nat) :=
  [(T "u", 0); (T "fill", 1); (T "imp", 2); (T "imp:n", 2); (T "vol", 3); (T "tmp", 4)].

Lemma searched_head p n : In (p, n) searched -> exists h q, p = h :: q /\ In h (T "ufivt").
Proof. intro I. cbn [searched In] in I. repeat (destruct I as [E|I]; [injection E as <- <-; do 2 eexists; split; [reflexivity|cbn; tauto]|]). destruct I. Qed.

Lemma passes_geometric p n x : In (p, n) searched -> forallb geometric x = true -> passes p x.
Proof.
  intros I G. destruct (searched_head p n I) as (h & q & -> & H). apply passes_head. apply geometric_no; [exact G|]. cbn in *. tauto.
Qed.

Lemma passes_other p n k r : In (p, n) searched -> n <> kind (mkE [] k r r) -> passes p (kstar k ++ kname k).
Proof.
  intros I N. assert (F : passes (T "imp") (T "fill") /\ passes (T "imp:n") (T "fill") /\ passes (T "imp") (T "*fill") /\ passes (T "imp:n") (T "*fill")).
  { repeat split; cbn; repeat (destruct (find_sub _ r0); cbn [option_map]; try reflexivity). }
  destruct F as (F1 & F2 & F3 & F4).
  cbn [searched In] in I. destruct I as [I|[I|[I|[I|[I|[I|[]]]]]]]; injection I as <- <-;
    destruct k as [?|[|] ? ?|?|?|?]; cbn [kind e_kw] in N; try (exfalso; now apply N); cbn [kstar kname app];
    solve [assumption | apply passes_head; cbn; intuition discriminate].
Qed.

Lemma kind_kw e : kind e = kind (mkE [] (e_kw e) true true).
Proof. reflexivity. Qed.

(** The keyword is found where it stands. *)
Lemma kw_match_value kw v y : In kw [T "u"; T "fill"; T "imp:n"] -> number v -> is_digit (hd blank y) = false -> hd blank y <> "."%char ->
  kw_match kw (kw ++ T " = " ++ v ++ y ++ [blank]) = Some (kw ++ T " = " ++ v).
Proof.
  intros K NV Y1 Y2. destruct (number_facts v NV) as (VN & VC & VS & VT).
  assert (E : exists c r, y ++ [blank] = c :: r /\ is_digit c = false /\ c <> "."%char).
  { destruct y as [|c y]; [exists blank, []; repeat split; discriminate|]. exists c, (y ++ [blank]). now repeat split. }
  destruct E as (c & r & -> & C1 & C2). unfold kw_match. rewrite after_app. cbn [T list_ascii_of_string app].
  change (" "%char) with blank. rewrite Ascii.eqb_refl. change (Ascii.eqb "=" "=") with true. cbn iota. rewrite Ascii.eqb_refl.
  destruct v as [|v0 v]; [tauto|]. cbn [app]. assert (V0 : Ascii.eqb v0 newline = false).
  { cbn [forallb] in VS. apply andb_true_iff in VS as [V0 _]. destruct (Ascii.eqb_spec v0 newline) as [->|]; [discriminate|reflexivity]. }
  rewrite V0. change (v0 :: v ++ c :: r) with ((v0 :: v) ++ c :: r). rewrite VT by assumption. reflexivity.
Qed.

Lemma kw_search_here kw s t : kw_match kw s = Some t -> kw_search kw s = Some t.
Proof. intro M. destruct s; cbn [kw_search]; now rewrite M. Qed.

Lemma search_entry kw n es : In (kw, n) [(T "u", 0); (T "fill", 1); (T "imp:n", 2)] -> Forall good_entry es -> NoDup (map kind es) ->
  forall P tail, forallb geometric P = true -> spaces tail -> forall e, In e es -> kind e = n ->
  kw_search kw (halve (P ++ sp (concat (map entry_text es) ++ tail)) ++ [blank]) = Some (kw ++ T " = " ++ kvalue (e_kw e)).
Proof.
  intros IK F. assert (IS : In (kw, n) searched) by (cbn in *; tauto).
  assert (IN : In kw [T "u"; T "fill"; T "imp:n"]) by (cbn in IK |- *; intuition congruence).
  induction F as [|e0 es G F IH]; intros ND P tail GP TS e IE KE; [destruct IE|].
  cbn [map concat]. rewrite <- app_assoc. rewrite halve_entry by assumption.
  assert (GG := G). destruct GG as (GS & GN & GK). destruct (calm_rest _ GK) as [CR CH]. assert (NV := proj1 GK).
  destruct (number_facts _ NV) as (VN & VC & VS & VT). rewrite <- !app_assoc.
  assert (HP : forallb geometric (halve (P ++ e_gap e0)) = true).
  { rewrite forallb_forall in *. intros c I. apply halve_in in I. apply in_app_iff in I as [I|I]; [now apply GP|].
    assert (S := calm_geometric _ (spaces_calm _ GS)). rewrite forallb_forall in S. now apply S. }
  destruct (passes_geometric kw n _ IS HP (kstar (e_kw e0) ++ kname (e_kw e0) ++ T " = " ++ kvalue (e_kw e0) ++
      halve (krest (e_kw e0) ++ sp (concat (map entry_text es) ++ tail)) ++ [blank])) as [_ ->].
  cbn [map] in ND. inversion ND as [|? ? NI ND']; subst. destruct (Nat.eq_dec (kind e0) (kind e)) as [Q|Q].
  - assert (E : e0 = e).
    { destruct IE as [IE|IE]; [exact IE|]. exfalso. apply NI. rewrite Q. now apply in_map. }
    subst e0. assert (KW : kname (e_kw e) = kw).
    { clear - IK. cbn [In] in IK. unfold kind in IK. destruct IK as [E|[E|[E|[]]]]; injection E as <- E; destruct (e_kw e); try discriminate; reflexivity. }
    assert (ST : passes kw (kstar (e_kw e))).
    { destruct (searched_head kw _ IS) as (h & q & -> & HI). apply passes_head. intro I. destruct (e_kw e) as [?|[|] ? ?|?|?|?]; try destruct I as [].
      - subst h. revert HI. cbn. intuition discriminate.
      - easy. }
    destruct (ST (kname (e_kw e) ++ T " = " ++ kvalue (e_kw e) ++
      halve (krest (e_kw e) ++ sp (concat (map entry_text es) ++ tail)) ++ [blank])) as [_ ->]. rewrite KW.
    assert (M := kw_match_value kw (kvalue (e_kw e)) (halve (krest (e_kw e) ++ sp (concat (map entry_text es) ++ tail))) IN NV).
    assert (H : is_space (hd blank (krest (e_kw e) ++ sp (concat (map entry_text es) ++ tail))) = true \/
                hd blank (krest (e_kw e) ++ sp (concat (map entry_text es) ++ tail)) = "("%char).
    { destruct (krest (e_kw e)) as [|c x]; [left|destruct CH as [CH|CH]; cbn [app hd] in *; tauto]. cbn [app].
      destruct F as [|e1 es' (GS1 & GN1 & _) F'].
      - cbn [map concat app]. rewrite sp_no by (apply calm_no; [now apply spaces_calm|cbn; tauto]).
        destruct tail as [|c tail]; [reflexivity|]. unfold spaces in TS. cbn [forallb hd] in *. now apply andb_true_iff in TS as [TS _].
      - cbn [map concat]. unfold entry_text at 1. rewrite <- !app_assoc, sp_app.
        rewrite (sp_no (e_gap e1)) by (apply calm_no; [now apply spaces_calm|cbn; tauto]).
        destruct (e_gap e1) as [|c x]; [tauto|]. unfold spaces in GS1. cbn [forallb app hd] in *. now apply andb_true_iff in GS1 as [GS1 _]. }
    rewrite !halve_hd in M.
    assert (M' : kw_match kw (kw ++ T " = " ++ kvalue (e_kw e) ++ halve (krest (e_kw e) ++ sp (concat (map entry_text es) ++ tail)) ++ [blank]) =
                 Some (kw ++ T " = " ++ kvalue (e_kw e))).
    { apply M.
      - destruct H as [H | ->]; [now apply space_not_digit|reflexivity].
      - destruct H as [H|H]; [intro D; rewrite D in H|rewrite H]; discriminate. }
    now apply kw_search_here.
  - assert (IE' : In e es) by (destruct IE as [IE|IE]; [subst; tauto|exact IE]).
    rewrite app_assoc.
    destruct (passes_other kw (kind e) (e_kw e0) true IS (fun K => Q (eq_sym K)) (T " = " ++ kvalue (e_kw e0) ++
      halve (krest (e_kw e0) ++ sp (concat (map entry_text es) ++ tail)) ++ [blank])) as [_ ->].
    assert (PE : passes kw (T " = ")).
    { destruct (searched_head kw _ IS) as (h & q & -> & HI). apply passes_head. intro I. clear - HI I.
      cbn [T list_ascii_of_string In] in I. destruct I as [<-|[<-|[<-|[]]]]; revert HI; cbn; intuition discriminate. }
    destruct (PE (kvalue (e_kw e0) ++ halve (krest (e_kw e0) ++ sp (concat (map entry_text es) ++ tail)) ++ [blank])) as [_ ->].
    destruct (passes_geometric kw (kind e) (kvalue (e_kw e0)) IS (calm_geometric _ VC) (halve (krest (e_kw e0) ++ sp (concat (map entry_text es) ++ tail)) ++ [blank])) as [_ ->].
    now apply (IH ND' (krest (e_kw e0)) tail).
Qed.

Lemma keyword_value kw n es : In (kw, n) [(T "u", 0); (T "fill", 1); (T "imp:n", 2)] -> Forall good_entry es -> NoDup (map kind es) ->
  forall P tail, forallb geometric P = true -> spaces tail -> forall e, In e es -> kind e = n ->
  get_keyword_value kw (halve (P ++ sp (concat (map entry_text es) ++ tail)) ++ [blank]) = Some (kvalue (e_kw e)).
Proof.
  intros IK F ND P tail GP TS e IE KE. unfold get_keyword_value. rewrite (search_entry kw n es IK F ND P tail GP TS e IE KE).
  assert (G : good_entry e) by (rewrite Forall_forall in F; now apply F). destruct G as (_ & _ & (NV & _)). destruct (number_facts _ NV) as (_ & _ & VS & _).
  change (T " = " ++ kvalue (e_kw e)) with (blank :: T "=" ++ blank :: kvalue (e_kw e)).
  rewrite split_on_app.
  - rewrite split_on_app by (cbn; intuition discriminate). rewrite split_on_none; [reflexivity|].
    intro I. rewrite forallb_forall in VS. apply VS in I. discriminate.
  - cbn in IK. destruct IK as [E|[E|[E|[]]]]; injection E as <- _; cbn; intuition discriminate.
Qed.

(** ** Where the keywords stand *)

Lemma passes_entry p n e : In (p, n) searched -> good_entry e -> kind e <> n -> passes p (entry_text e).
Proof.
  intros IS (GS & GN & GK) NK. destruct (calm_rest _ GK) as [CR _]. destruct (number_facts _ (proj1 GK)) as (_ & VC & _ & _).
  assert (PC : forall x, forallb geometric x = true -> passes p x) by (intro x; now apply (passes_geometric p n)).
  unfold entry_text, render. apply passes_app; [apply PC; now apply calm_geometric, spaces_calm|].
  rewrite app_assoc. apply passes_app; [apply (passes_other p n _ true IS); intro E; apply NK; now rewrite kind_kw|].
  repeat apply passes_app.
  - apply PC. now destruct (e_b1 e).
  - destruct (searched_head p n IS) as (h & q & -> & HI). apply passes_head. intros [<-|[]]. revert HI. cbn. intuition discriminate.
  - apply PC. now destruct (e_b2 e).
  - now apply PC, calm_geometric.
  - now apply PC.
Qed.

Lemma passes_entries p n es : In (p, n) searched -> Forall good_entry es -> (forall e, In e es -> kind e <> n) ->
  passes p (concat (map entry_text es)).
Proof.
  intros IS F. induction F as [|e es G F IH]; intro N; [apply passes_nil|]. cbn [map concat]. apply passes_app.
  - apply (passes_entry p n); [exact IS|exact G|]. apply N. now left.
  - apply IH. intros e' I. apply N. now right.
Qed.

Lemma find_here p s : find_sub p (p ++ s) = Some 0.
Proof.
  assert (E : exists t, after p (p ++ s) = Some t) by (exists s; apply after_app). destruct E as [t E].
  destruct (p ++ s) as [|c r]; cbn [find_sub]; now rewrite E.
Qed.

Lemma find_absent p n geom es tail : In (p, n) searched -> forallb geometric geom = true -> Forall good_entry es -> spaces tail ->
  (forall e, In e es -> kind e <> n) -> find_sub p (kcard geom es tail) = None.
Proof.
  intros IS GG F TS N. unfold kcard. destruct (passes_geometric p n geom IS GG (concat (map entry_text es) ++ tail)) as [-> _].
  destruct (passes_entries p n es IS F N tail) as [-> _].
  assert (PT := passes_geometric p n tail IS (calm_geometric _ (spaces_calm _ TS)) []). rewrite app_nil_r in PT. destruct PT as [-> _].
  destruct (searched_head p n IS) as (h & q & -> & _). reflexivity.
Qed.

Lemma find_present p n geom a e b tail : In (p, n) searched -> forallb geometric geom = true -> Forall good_entry (a ++ e :: b) ->
  NoDup (map kind (a ++ e :: b)) -> kind e = n ->
  find_sub p (kcard geom (a ++ e :: b) tail) = Some (length (geom ++ concat (map entry_text a) ++ e_gap e ++ kstar (e_kw e))).
Proof.
  intros IS GG F ND KE. unfold kcard. apply Forall_app in F as [FA FB]. inversion FB as [|? ? GE FB']; subst.
  assert (NA : forall x, In x a -> kind x <> kind e).
  { intros x I E. rewrite map_app in ND. cbn [map] in ND. apply NoDup_remove_2 in ND. apply ND. apply in_or_app. left. rewrite <- E. now apply in_map. }
  rewrite map_app, concat_app. cbn [map concat]. unfold entry_text at 2, render. rewrite <- !app_assoc.
  assert (PG : passes p (geom ++ concat (map entry_text a) ++ e_gap e ++ kstar (e_kw e))).
  { apply passes_app; [now apply (passes_geometric p (kind e))|]. apply passes_app; [now apply (passes_entries p (kind e))|].
    apply passes_app; [apply (passes_geometric p (kind e)); [exact IS|]; apply calm_geometric, spaces_calm, GE|].
    destruct (searched_head p _ IS) as (h & q & -> & HI). apply passes_head. intro I. destruct (e_kw e) as [?|[|] ? ?|?|?|?]; try destruct I as [].
    - subst h. revert HI. cbn. intuition discriminate.
    - easy. }
  match goal with |- find_sub p (geom ++ ?A ++ ?B ++ ?C ++ ?D) = _ =>
    replace (geom ++ A ++ B ++ C ++ D) with ((geom ++ A ++ B ++ C) ++ D) by (now rewrite <- !app_assoc);
    destruct (PG D) as [-> _] end.
  assert (E : exists q, kname (e_kw e) = p ++ q).
  { clear - IS. cbn [searched In] in IS. unfold kind in IS. destruct IS as [E|[E|[E|[E|[E|[E|[]]]]]]]; injection E as <- E;
      destruct (e_kw e); try discriminate; cbn [kname]; solve [exists []; reflexivity|exists (T ":n"); reflexivity]. }
  destruct E as [q ->]. rewrite <- app_assoc, find_here. cbn [option_map]. f_equal. lia.
Qed.

Lemma first_at L l : 0 < L -> In (Some L) l -> (forall n, In (Some n) l -> L <= n) -> first_position l = Some L.
Proof.
  intros P. induction l as [|[n|] l IH]; intros I H; [destruct I| |].
  - assert (LN : L <= n) by (apply H; now left). cbn [first_position]. destruct n as [|n]; [lia|].
    destruct (first_position l) as [m|] eqn:FP.
    + destruct I as [I|I].
      * injection I as I. assert (LM : L <= m); [|f_equal; lia].
        assert (A : forall l m, first_position l = Some m -> In (Some m) l).
        { clear. induction l as [|[[|n]|] l IH]; intros m E; cbn [first_position] in E; try discriminate E; try (right; now apply IH).
          destruct (first_position l) as [k|] eqn:F; [|injection E as <-; now left].
          assert (D : m = S n \/ m = k) by (assert (Nat.min (S n) k = m) by congruence; lia).
          destruct D as [-> | ->]; [now left|right; now apply IH]. }
        apply H. right. now apply A.
      * assert (E : Some m = Some L) by (apply IH; [exact I|intros k K; apply H; now right]). injection E as ->. f_equal. lia.
    + destruct I as [I|I]; [exact I|]. assert (E : None = Some L) by (apply IH; [exact I|intros k K; apply H; now right]). discriminate.
  - destruct I as [I|I]; [discriminate|]. cbn [first_position].
    assert (E : first_position l = Some L) by (apply IH; [exact I|intros k K; apply H; now right]). exact E.
Qed.

Lemma find_sub_mid p a b : find_sub p (a ++ p ++ b) <> None.
Proof.
  induction a as [|c a IH].
  - cbn [app]. now rewrite find_here.
  - cbn [app find_sub]. destruct (after p (c :: a ++ p ++ b)); [discriminate|].
    destruct (find_sub p (a ++ p ++ b)); [discriminate|tauto].
Qed.

(** No parenthesis, star or dollar where there should be none. *)
Lemma entry_no c e : good_entry e -> In c (T "$()*") ->
  match e_kw e with KFill true _ _ => c <> "*"%char | _ => True end ->
  match e_kw e with KFill _ _ (Some _) => c <> "("%char /\ c <> ")"%char | _ => True end -> ~ In c (entry_text e).
Proof.
  intros (GS & GN & GK) IC S1 S2. destruct (number_facts _ (proj1 GK)) as (_ & VC & _ & _).
  assert (ICC : In c (T "ufivt=$()*")) by (cbn in IC |- *; tauto).
  unfold entry_text, render. rewrite !in_app_iff. intros [I|[I|[I|[I|[I|[I|[I|I]]]]]]].
  - revert I. now apply calm_no; [apply spaces_calm|].
  - destruct (e_kw e) as [?|[|] ? ?|?|?|?]; try (now destruct I as []). destruct I as [I|[]]. now apply S1.
  - destruct (e_kw e) as [?|[|] ? ?|?|?|?]; revert I IC; cbn; intuition (subst; discriminate).
  - destruct (e_b1 e); [|destruct I]. destruct I as [<-|[]]. revert IC. cbn. intuition discriminate.
  - destruct I as [<-|[]]. revert IC. cbn. intuition discriminate.
  - destruct (e_b2 e); [|destruct I]. destruct I as [<-|[]]. revert IC. cbn. intuition discriminate.
  - revert I. now apply calm_no.
  - destruct GK as [_ GK]. destruct (e_kw e) as [?|st v [[sep inner]|]|?|?|?]; try (now destruct I as []).
    cbn [krest] in I. rewrite !in_app_iff in I. destruct I as [I|[[I|[]]|[I|[I|[]]]]].
    + revert I. apply calm_no; [apply spaces_calm; apply GK|exact ICC].
    + destruct S2; congruence.
    + revert I. apply calm_no; [apply GK|exact ICC].
    + destruct S2; congruence.
Qed.

Lemma entries_no c es : Forall good_entry es -> In c (T "$()*") ->
  (forall e, In e es -> match e_kw e with KFill true _ _ => c <> "*"%char | _ => True end) ->
  (forall e, In e es -> match e_kw e with KFill _ _ (Some _) => c <> "("%char /\ c <> ")"%char | _ => True end) ->
  ~ In c (concat (map entry_text es)).
Proof.
  intros F IC S1 S2 I. apply in_concat in I as (x & J & I). apply in_map_iff in J as (e & <- & J). revert I.
  rewrite Forall_forall in F. apply entry_no; [now apply F|exact IC|now apply S1|now apply S2].
Qed.

Lemma spaces_no c s : spaces s -> In c (T "$()*") -> ~ In c s.
Proof. intros S IC. apply calm_no; [now apply spaces_calm|]. cbn in IC |- *. tauto. Qed.

Lemma find_sub_no c p s : ~ In c s -> find_sub (c :: p) s = None.
Proof. apply find_head. Qed.

Lemma find_char c a b : ~ In c a -> find c (a ++ c :: b) = Z.of_nat (length a).
Proof.
  induction a as [|x a IH]; intro N; cbn [app find length]; [now rewrite Ascii.eqb_refl|]. cbn [In] in N.
  destruct (Ascii.eqb_spec c x) as [E|E]; [symmetry in E; tauto|]. rewrite IH by tauto.
  destruct (Z.ltb_spec (Z.of_nat (length a)) 0); lia.
Qed.

Lemma extract_here a inner r : ~ In "("%char a -> ~ In ")"%char a -> ~ In ")"%char inner ->
  extract_between (a ++ "("%char :: inner ++ ")"%char :: r) "(" ")" = join_sp (words inner).
Proof.
  intros N1 N2 N3. unfold extract_between. rewrite (find_char "(" a) by exact N1.
  assert (E : find ")" (a ++ "("%char :: inner ++ ")"%char :: r) = Z.of_nat (length (a ++ "("%char :: inner))).
  { change (a ++ "("%char :: inner ++ ")"%char :: r) with (a ++ ("("%char :: inner) ++ ")"%char :: r). rewrite app_assoc. apply find_char.
    rewrite in_app_iff. cbn [In]. intuition discriminate. }
  rewrite E. unfold slice_to, slice_from.
  destruct (Z.ltb_spec (Z.of_nat (length (a ++ "("%char :: inner))) 0); [lia|].
  destruct (Z.ltb_spec (Z.of_nat (length a) + 1) 0); [lia|]. rewrite Nat2Z.id.
  change (a ++ "("%char :: inner ++ ")"%char :: r) with (a ++ ("("%char :: inner) ++ ")"%char :: r). rewrite app_assoc.
  rewrite firstn_app, firstn_all, Nat.sub_diag. cbn [firstn]. rewrite app_nil_r.
  replace (Z.to_nat (Z.of_nat (length a) + 1)) with (length (a ++ T "(")) by (rewrite app_length; cbn [length T list_ascii_of_string]; lia).
  change (a ++ "("%char :: inner) with (a ++ T "(" ++ inner). rewrite app_assoc. rewrite skipn_app, skipn_all, Nat.sub_diag. reflexivity.
Qed.

(** The values are found in what follows the geometry. *)
Lemma value_after kw n e1 es tail e : In (kw, n) [(T "u", 0); (T "fill", 1); (T "imp:n", 2)] -> Forall good_entry (e1 :: es) ->
  NoDup (map kind (e1 :: es)) -> spaces tail -> In e (e1 :: es) -> kind e = n ->
  get_keyword_value kw (KeywordModel.spacify (render e1 ++ concat (map entry_text es) ++ tail)) = Some (kvalue (e_kw e)).
Proof.
  intros IK F ND TS IE KE. inversion F as [|? ? (G1 & G2 & G3) F']; subst.
  set (e2 := mkE [newline] (e_kw e1) (e_b1 e1) (e_b2 e1)).
  assert (F2 : Forall good_entry (e2 :: es)) by (constructor; [repeat split; try discriminate; apply G3|exact F']).
  assert (IE2 : exists x, In x (e2 :: es) /\ kind x = kind e /\ kvalue (e_kw x) = kvalue (e_kw e)).
  { destruct IE as [<-|IE]; [exists e2|exists e]; repeat split; try (now left); now right. }
  destruct IE2 as (x & IX & KX & VX).
  assert (V := keyword_value kw (kind e) (e2 :: es) IK F2 ND [] tail eq_refl TS x IX KX). rewrite VX in V. rewrite <- V.
  rewrite spacify_sp. cbn [app map concat]. unfold entry_text at 2. cbn [e_gap e2]. rewrite <- !app_assoc. cbn [app].
  change (sp (newline :: ?y)) with (newline :: sp y). rewrite halve_nonblank by discriminate. unfold get_keyword_value.
  assert (PN : passes kw [newline]).
  { apply (passes_geometric kw (kind e)); [cbn in IK |- *; tauto|reflexivity]. }
  cbn [app]. match goal with |- _ = match kw_search kw (newline :: ?y) with _ => _ end => destruct (PN y) as [_ E] end.
  cbn [app] in E. rewrite E. reflexivity.
Qed.

Lemma find_kw p n geom es tail : In (p, n) searched -> forallb geometric geom = true -> Forall good_entry es -> NoDup (map kind es) -> spaces tail ->
  (find_sub p (kcard geom es tail) = None /\ forall e, In e es -> kind e <> n) \/
  (exists a e b, es = a ++ e :: b /\ kind e = n /\
     find_sub p (kcard geom es tail) = Some (length (geom ++ concat (map entry_text a) ++ e_gap e ++ kstar (e_kw e)))).
Proof.
  intros IS GG F ND TS. destruct (in_dec Nat.eq_dec n (map kind es)) as [I|I].
  - right. apply in_map_iff in I as (e & KE & IE). apply in_split in IE as (a & b & ->). exists a, e, b. repeat split; [exact KE|].
    now apply (find_present p n).
  - left. assert (N : forall e, In e es -> kind e <> n) by (intros e IE E; apply I; rewrite <- E; now apply in_map).
    split; [|exact N]. now apply (find_absent p n).
Qed.

(** ** The main theorem *)

Definition has_kw (k : kwd) (es : list entry) : Prop := In k (map e_kw es).

(** What the fields should be after the keywords [es] were read. *)
Definition transformation_read (star : bool) (tr : option (text * text)) (k : keywords) : Prop :=
  match tr with
  | None => k_trid k = T "0" /\ k_offset k = None /\ k_rot k = None
  | Some (_, inner) =>
      match words inner with
      | [t] => k_trid k = t /\ k_offset k = None /\ k_rot k = None
      | a :: b :: c :: r =>
          k_trid k = T "0" /\ k_offset k = Some (a, b, c) /\
          match r with
          | [] => k_rot k = None
          | _ => exists rot, k_rot k = Some rot /\
                   if star then Forall2 (fun t v => exists q, py_float t = Some q /\ v = RCos q) r rot else rot = map RText r
          end
      | _ => False
      end
  end.

Definition keywords_read (es : list entry) (k : keywords) : Prop :=
  (forall v, has_kw (KU v) es -> k_univ k = Some v) /\
  ((forall v, ~ has_kw (KU v) es) -> k_univ k = None) /\
  (forall star v tr, has_kw (KFill star v tr) es -> k_fill k = Some v /\ transformation_read star tr k) /\
  ((forall star v tr, ~ has_kw (KFill star v tr) es) -> k_fill k = None /\ k_trid k = T "0" /\ k_offset k = None /\ k_rot k = None) /\
  (forall v, has_kw (KImp v) es -> py_float v = Some (k_imp k)) /\
  ((forall v, ~ has_kw (KImp v) es) -> k_imp k = 1%Q).

Lemma number_float v : number v -> exists q, py_float v = Some q.
Proof.
  intros (sg & d & f & -> & SG & D & F & N).
  assert (SGS : exists s, sg = sgn_text s) by (destruct SG as [-> | [-> | ->]]; [exists NoSign|exists Plus|exists Minus]; reflexivity).
  destruct SGS as [s ->]. destruct F as [->|(x & -> & X & XN)].
  - rewrite app_nil_r in *. unfold py_float. rewrite take_sign_sgn.
    + rewrite take_digits_all by exact D. rewrite app_nil_r. destruct d as [|c d]; [tauto|]. cbn [parse_exponent]. eauto.
    + intros _. destruct d as [|c d]; [exact I|]. unfold all_digits in D. cbn [forallb] in D. apply andb_true_iff in D as [D _].
      split; now apply digit_not.
  - destruct (py_float_spelled s d x NoExp D X) as (q & E & _); try easy.
    + destruct d; [exact XN|discriminate].
    + unfold spelled in E. cbn [exp_text] in E. rewrite app_nil_r in E. eauto.
Qed.

Lemma strip_number v : number v -> strip v = v.
Proof.
  intro NV. destruct (number_facts v NV) as (_ & _ & VS & _). unfold strip, rstrip.
  assert (L : forall w, forallb (fun c => negb (is_space c)) w = true -> lstrip w = w).
  { intros [|c w] S; [reflexivity|]. cbn [forallb lstrip] in *. apply andb_true_iff in S as [S _]. now destruct (is_space c). }
  rewrite (L v VS). rewrite L; [apply rev_involutive|]. rewrite forallb_forall in *. intros c I. apply VS. now apply in_rev.
Qed.

Lemma words_again t : words (join_sp (words t)) = words t.
Proof.
  assert (J : forall l, words (join_sp l) = flat_map words l).
  { induction l as [|w [|v l] IH]; [reflexivity|cbn; now rewrite app_nil_r|].
    change (join_sp (w :: v :: l)) with (w ++ blank :: join_sp (v :: l)).
    rewrite words_app_space by reflexivity. rewrite IH. reflexivity. }
  rewrite J. assert (G := words_good t). induction G as [|w l [G1 G2] G IH]; [reflexivity|]. cbn [flat_map].
  rewrite (words_single w G1 G2). cbn [app]. now rewrite IH.
Qed.

Lemma kinds_one es e x : NoDup (map kind es) -> In e es -> In x es -> kind e = kind x -> e = x.
Proof.
  induction es as [|y es IH]; intros ND IE IX K; [destruct IE|]. cbn [map] in ND. inversion ND as [|? ? NI ND']; subst.
  destruct IE as [<-|IE], IX as [<-|IX]; [reflexivity| | |now apply IH].
  - exfalso. apply NI. rewrite K. now apply in_map.
  - exfalso. apply NI. rewrite <- K. now apply in_map.
Qed.

(** The transformation of a fill. *)
Lemma transform_read k star tr inner : (length (words inner) = 1 \/ length (words inner) = 3 \/ length (words inner) = 12) ->
  (star = true -> Forall (fun t => py_float t <> None) (words inner)) -> words tr = words inner ->
  k_trid k = T "0" -> k_offset k = None -> k_rot k = None ->
  exists k2, set_universe_transform k tr star = Some k2 /\ k_univ k2 = k_univ k /\ k_fill k2 = k_fill k /\ k_imp k2 = k_imp k /\
    forall sep, transformation_read star (Some (sep, inner)) k2.
Proof.
  intros LW SF EW K1 K2 K3. unfold set_universe_transform. rewrite EW.
  destruct (words inner) as [|a [|b [|c r]]] eqn:W; cbn [length] in LW; try lia.
  - eexists. split; [reflexivity|]. repeat split; cbn; rewrite ?W; try assumption; repeat split; assumption.
  - destruct (Nat.leb_spec 9 (length r)) as [L|L].
    + assert (LR : length r = 9) by lia. rewrite firstn_all2 by lia. destruct star.
      * specialize (SF eq_refl). cbn [rot_values].
        assert (M : exists rot, mapM (fun t => option_map RCos (py_float t)) r = Some rot /\ Forall2 (fun t v => exists q, py_float t = Some q /\ v = RCos q) r rot).
        { inversion SF as [|? ? _ SF1]; subst. inversion SF1 as [|? ? _ SF2]; subst. inversion SF2 as [|? ? _ SF3]; subst. clear - SF3.
          induction SF3 as [|t r NT SF3 IH]; [exists []; split; constructor|]. destruct IH as (rot & M & R). cbn [mapM].
          destruct (py_float t) as [q|] eqn:P; [|tauto]. cbn [option_map]. rewrite M. exists (RCos q :: rot). split; [reflexivity|].
          constructor; [eauto|exact R]. }
        destruct M as (rot & M & R). rewrite M. eexists. split; [reflexivity|]. repeat split. cbn. rewrite W. repeat split; [assumption|].
        destruct r as [|x r]; [discriminate|]. eauto.
      * cbn [rot_values]. eexists. split; [reflexivity|]. repeat split. cbn. rewrite W. repeat split; [assumption|].
        destruct r as [|x r]; [discriminate|]. eauto.
    + assert (LR : r = []) by (destruct r; cbn [length] in L, LW; [reflexivity|lia]). subst r.
      eexists. split; [reflexivity|]. repeat split. cbn. rewrite W. repeat split; assumption.
Qed.

Theorem C53_keywords_partial geom es tail :
  geom <> [] -> forallb geometric geom = true -> es <> [] -> Forall good_entry es -> NoDup (map kind es) -> spaces tail ->
  exists k w, detect_keywords no_keywords (kcard geom es tail) = Some (k, geom ++ w) /\ spaces w /\ keywords_read es k.
Proof.
  intros GN GG EN F ND TS.
  assert (FK := fun p n IS => find_kw p n geom es tail IS GG F ND TS).
  assert (PU := FK (T "u") 0 ltac:(cbn; tauto)). assert (PF := FK (T "fill") 1 ltac:(cbn; tauto)). assert (PI := FK (T "imp") 2 ltac:(cbn; tauto)).
  assert (PV := FK (T "vol") 3 ltac:(cbn; tauto)). assert (PT := FK (T "tmp") 4 ltac:(cbn; tauto)). clear FK.
  destruct es as [|e1 es]; [tauto|]. clear EN. set (card := kcard geom (e1 :: es) tail) in *.
  assert (G1 : good_entry e1) by now inversion F.
  set (L := length (geom ++ e_gap e1)). assert (LP : 0 < L) by (unfold L; rewrite app_length; destruct geom; [tauto|cbn [length]; lia]).
  assert (GEL : forall a e b x, e1 :: es = a ++ e :: b -> L <= length (geom ++ concat (map entry_text a) ++ e_gap e ++ x)).
  { intros [|y a] e b x E; cbn [app] in E; injection E as E1 E2; subst; unfold L; cbn [map concat]; unfold entry_text; rewrite !app_length; lia. }
  (* the dollar *)
  assert (ND0 : find_sub (T "$") card = None).
  { apply find_sub_no. unfold card, kcard. rewrite !in_app_iff. intros [I|[I|I]].
    - revert I. apply geometric_no; [exact GG|cbn; tauto].
    - revert I. apply entries_no; [exact F|cbn; tauto| |].
      + intros e _. destruct (e_kw e) as [?|[|] ? ?|?|?|?]; try exact Logic.I. discriminate.
      + intros e _. destruct (e_kw e) as [?|? ? [?|]|?|?|?]; try exact Logic.I. split; discriminate.
    - revert I. apply spaces_no; [exact TS|cbn; tauto]. }
  (* some keyword is found *)
  assert (SOME : existsb (fun w => contains w card) cell_keywords = true).
  { assert (C : forall p a e b, find_sub p card = Some (length (geom ++ concat (map entry_text a) ++ e_gap e ++ kstar (e_kw (e : entry)))) /\ e1 :: es = a ++ e :: b ->
        contains p card = true) by (intros p a e b [E _]; unfold contains; now rewrite E).
    apply existsb_exists. destruct (kind e1) as [|[|[|[|[|n]]]]] eqn:K1.
    6: { exfalso. unfold kind in K1. destruct (e_kw e1); discriminate. }
    - exists (T "u"). split; [cbn; tauto|]. destruct PU as [[_ N]|(a & e & b & E & _ & P)]; [exfalso; apply (N e1); [now left|exact K1]|]. now apply (C _ a e b).
    - exists (T "fill"). split; [cbn; tauto|]. destruct PF as [[_ N]|(a & e & b & E & _ & P)]; [exfalso; apply (N e1); [now left|exact K1]|]. now apply (C _ a e b).
    - exists (T "imp"). split; [cbn; tauto|]. destruct PI as [[_ N]|(a & e & b & E & _ & P)]; [exfalso; apply (N e1); [now left|exact K1]|]. now apply (C _ a e b).
    - exists (T "vol"). split; [cbn; tauto|]. destruct PV as [[_ N]|(a & e & b & E & _ & P)]; [exfalso; apply (N e1); [now left|exact K1]|]. now apply (C _ a e b).
    - exists (T "tmp"). split; [cbn; tauto|]. destruct PT as [[_ N]|(a & e & b & E & _ & P)]; [exfalso; apply (N e1); [now left|exact K1]|]. now apply (C _ a e b). }
  (* the star *)
  assert (STAR : forall e, In e (e1 :: es) -> forall st v tr, e_kw e = KFill st v tr -> contains (T "*fill") card = st).
  { intros e IE st v tr EK. destruct st.
    - apply in_split in IE as (a & b & E). unfold card, contains. rewrite E. unfold kcard. rewrite map_app, concat_app. cbn [map concat].
      unfold entry_text at 2, render. rewrite EK. cbn [kstar kname]. 
      match goal with |- match find_sub _ ?s with _ => _ end = _ => assert (H : exists x y, s = x ++ T "*fill" ++ y) end.
      { exists (geom ++ concat (map entry_text a) ++ e_gap e). eexists. rewrite <- !app_assoc. cbn [T list_ascii_of_string app]. reflexivity. }
      destruct H as (x & y & ->). assert (H := find_sub_mid (T "*fill") x y). now destruct (find_sub (T "*fill") (x ++ T "*fill" ++ y)).
    - unfold contains. cbn [T list_ascii_of_string]. rewrite find_sub_no; [reflexivity|]. unfold card, kcard. rewrite !in_app_iff. intros [I|[I|I]].
      + revert I. apply geometric_no; [exact GG|cbn; tauto].
      + revert I. apply entries_no; [exact F|cbn; tauto| |].
        * intros x IX. destruct (e_kw x) as [?|[|] ? ?|?|?|?] eqn:EX; try exact Logic.I. exfalso.
          assert (Q : e = x) by (apply (kinds_one (e1 :: es)); [exact ND|exact IE|exact IX|unfold kind; now rewrite EK, EX]). subst x. congruence.
        * intros x _. destruct (e_kw x) as [?|? ? [?|]|?|?|?]; try exact Logic.I. split; discriminate.
      + revert I. apply spaces_no; [exact TS|cbn; tauto]. }
  (* the position of the fill *)
  set (star := contains (T "*fill") card) in *.
  set (posf := match find_sub (T "fill") card with
               | Some n => if star then match n with S m => Some m | 0 => None end else Some n
               | None => None end).
  assert (PF2 : (posf = None /\ forall e, In e (e1 :: es) -> kind e <> 1) \/
    (exists a e b st v tr, e1 :: es = a ++ e :: b /\ e_kw e = KFill st v tr /\ star = st /\
       posf = Some (length (geom ++ concat (map entry_text a) ++ e_gap e)))).
  { destruct PF as [[P N]|(a & e & b & E & K & P)]; [left; split; [unfold posf; now rewrite P|exact N]|right].
    unfold kind in K. destruct (e_kw e) as [|st v tr| | |] eqn:EK; try discriminate. exists a, e, b, st, v, tr. split; [exact E|]. split; [exact EK|].
    assert (ST : star = st) by (apply (STAR e) with (v := v) (tr := tr); [rewrite E; apply in_elt|exact EK]). split; [exact ST|].
    unfold posf. rewrite P, ST. destruct st; cbn [kstar].
    - rewrite !app_length. cbn [T list_ascii_of_string length]. replace (length geom + (length (concat (map entry_text a)) + (length (e_gap e) + 1)))
        with (S (length geom + (length (concat (map entry_text a)) + length (e_gap e)))) by lia. reflexivity.
    - now rewrite app_nil_r. }
  clear PF STAR.
  set (posu := find_sub (T "u") card) in *. set (posi := find_sub (T "imp") card) in *. set (posv := find_sub (T "vol") card) in *. set (post := find_sub (T "tmp") card) in *.
  assert (FIRST : first_position [posu; posf; posi; posv; post] = Some L).
  { apply first_at; [exact LP| |].
    - assert (NA : forall a e b n, e1 :: es = a ++ e :: b -> kind e = n -> kind e1 = n -> a = [] /\ e = e1).
      { intros a e b n E K K1. assert (Q : e1 = e) by (apply (kinds_one (e1 :: es)); [exact ND|now left|rewrite E; apply in_elt|congruence]).
        destruct a as [|y a]; cbn [app] in E; [now split|]. exfalso. injection E as E1 E2. subst. cbn [map] in ND. inversion ND as [|? ? NI _]; subst.
        apply NI. rewrite map_app. apply in_elt. }
      assert (EX : forall a e b n x, e1 :: es = a ++ e :: b -> kind e = n -> kind e1 = n -> x = [] -> length (geom ++ concat (map entry_text a) ++ e_gap e ++ x) = L).
      { intros a e b n x E K K1 ->. destruct (NA a e b n E K K1) as [-> ->]. cbn [map concat app]. now rewrite app_nil_r. }
      unfold kind in EX, PU, PI, PV, PT, PF2. destruct (e_kw e1) as [v|st v tr|v|v|v] eqn:K1.
      + left. destruct PU as [[_ N]|(a & e & b & E & K & P)]; [exfalso; apply (N e1); [now left|now rewrite K1]|]. rewrite P. f_equal.
        apply (EX a e b 0); try assumption; try reflexivity. unfold kind in K. now destruct (e_kw e).
      + right; left. destruct PF2 as [[_ N]|(a & e & b & st' & v' & tr' & E & K & _ & P)]; [exfalso; apply (N e1); [now left|now rewrite K1]|]. rewrite P. f_equal.
        rewrite <- (app_nil_r (e_gap e)). apply (EX a e b 1); try assumption; try reflexivity. now rewrite K.
      + do 2 right; left. destruct PI as [[_ N]|(a & e & b & E & K & P)]; [exfalso; apply (N e1); [now left|now rewrite K1]|]. rewrite P. f_equal.
        apply (EX a e b 2); try assumption; try reflexivity. unfold kind in K. now destruct (e_kw e).
      + do 3 right; left. destruct PV as [[_ N]|(a & e & b & E & K & P)]; [exfalso; apply (N e1); [now left|now rewrite K1]|]. rewrite P. f_equal.
        apply (EX a e b 3); try assumption; try reflexivity. unfold kind in K. now destruct (e_kw e).
      + do 4 right; left. destruct PT as [[_ N]|(a & e & b & E & K & P)]; [exfalso; apply (N e1); [now left|now rewrite K1]|]. rewrite P. f_equal.
        apply (EX a e b 4); try assumption; try reflexivity. unfold kind in K. now destruct (e_kw e).
    - intros n [I|[I|[I|[I|[I|[]]]]]].
      + destruct PU as [[P _]|(a & e & b & E & _ & P)]; rewrite I in P; [discriminate|]. injection P as ->. now apply (GEL a e b).
      + destruct PF2 as [[P _]|(a & e & b & st & v & tr & E & _ & _ & P)]; rewrite I in P; [discriminate|]. injection P as ->.
        rewrite <- (app_nil_r (e_gap e)). now apply (GEL a e b).
      + destruct PI as [[P _]|(a & e & b & E & _ & P)]; rewrite I in P; [discriminate|]. injection P as ->. now apply (GEL a e b).
      + destruct PV as [[P _]|(a & e & b & E & _ & P)]; rewrite I in P; [discriminate|]. injection P as ->. now apply (GEL a e b).
      + destruct PT as [[P _]|(a & e & b & E & _ & P)]; rewrite I in P; [discriminate|]. injection P as ->. now apply (GEL a e b). }
  assert (SPLIT : card = (geom ++ e_gap e1) ++ render e1 ++ concat (map entry_text es) ++ tail).
  { unfold card, kcard. cbn [map concat]. unfold entry_text at 1. now rewrite <- !app_assoc. }
  assert (SK : skipn L card = render e1 ++ concat (map entry_text es) ++ tail).
  { rewrite SPLIT. unfold L. rewrite skipn_app, skipn_all, Nat.sub_diag. reflexivity. }
  assert (FN : firstn L card = geom ++ e_gap e1).
  { rewrite SPLIT. unfold L. rewrite firstn_app, firstn_all, Nat.sub_diag. cbn [firstn]. apply app_nil_r. }
  assert (VAL := fun kw n e IK IE KE => value_after kw n e1 es tail e IK F ND TS IE KE). rewrite <- SK in VAL.
  (* the universe *)
  assert (UNI : exists univ, (match posu with None => Some None | Some _ => option_map Some (get_keyword_value (T "u") (KeywordModel.spacify (skipn L card))) end) = Some univ /\
    (forall v, has_kw (KU v) (e1 :: es) -> univ = Some v) /\ ((forall v, ~ has_kw (KU v) (e1 :: es)) -> univ = None)).
  { destruct PU as [[P N]|(a & e & b & E & K & P)]; rewrite P.
    - exists None. split; [reflexivity|]. split; [|reflexivity]. intros v H. exfalso. apply in_map_iff in H as (e & KE & IE). apply (N e IE). unfold kind. now rewrite KE.
    - assert (IE : In e (e1 :: es)) by (rewrite E; apply in_elt). rewrite (VAL (T "u") 0 e ltac:(cbn; tauto) IE K). cbn [option_map]. eexists. split; [reflexivity|].
      unfold kind in K. destruct (e_kw e) as [v| | | |] eqn:EK; try discriminate. cbn [kvalue]. split.
      + intros v' H. apply in_map_iff in H as (e' & KE & IE'). assert (Q : e = e') by (apply (kinds_one (e1 :: es)); [exact ND|exact IE|exact IE'|unfold kind; now rewrite EK, KE]).
        subst e'. congruence.
      + intro H. exfalso. apply (H v). unfold has_kw. rewrite <- EK. now apply in_map. }
  destruct UNI as (univ & UE & U1 & U2).
  (* the fill *)
  set (filled := match posf with
                  | None => Some (mkK univ None (k_imp no_keywords) (k_trid no_keywords) (k_offset no_keywords) (k_rot no_keywords))
                  | Some f =>
                      match get_keyword_value (T "fill") (KeywordModel.spacify (skipn L card)) with
                      | None => None
                      | Some v =>
                          let t := skipn f card in
                          set_universe_transform (mkK univ (Some (strip v)) (k_imp no_keywords) (k_trid no_keywords) (k_offset no_keywords) (k_rot no_keywords))
                            (if contains (T "(") t then extract_between t "(" ")" else T "0") star
                      end
                  end).
  assert (FIL : exists k2, filled = Some k2 /\ k_univ k2 = univ /\
    (forall st v tr, has_kw (KFill st v tr) (e1 :: es) -> k_fill k2 = Some v /\ transformation_read st tr k2) /\
    ((forall st v tr, ~ has_kw (KFill st v tr) (e1 :: es)) -> k_fill k2 = None /\ k_trid k2 = T "0" /\ k_offset k2 = None /\ k_rot k2 = None)).
  { unfold filled. destruct PF2 as [[P N]|(a & e & b & st & v & tr & E & K & ST & P)]; rewrite P.
    - eexists. split; [reflexivity|]. split; [reflexivity|]. split; [|now repeat split].
      intros st v tr H. exfalso. apply in_map_iff in H as (e & KE & IE). apply (N e IE). unfold kind. now rewrite KE.
    - assert (IE : In e (e1 :: es)) by (rewrite E; apply in_elt). assert (KE : kind e = 1) by (unfold kind; now rewrite K).
      rewrite (VAL (T "fill") 1 e ltac:(cbn; tauto) IE KE). replace (kvalue (e_kw e)) with v by now rewrite K. cbv zeta.
      assert (GE : good_entry e) by (rewrite Forall_forall in F; now apply F). destruct GE as (GS & GNE & GK). rewrite K in GK.
      destruct GK as [NV GK]. cbn [kvalue] in NV. destruct (number_facts v NV) as (_ & VC & _ & _).
      assert (SKF : skipn (length (geom ++ concat (map entry_text a) ++ e_gap e)) card = render e ++ concat (map entry_text b) ++ tail).
      { unfold card, kcard. rewrite E, map_app, concat_app. cbn [map concat]. unfold entry_text at 3.
        replace (geom ++ (concat (map entry_text a) ++ (e_gap e ++ render e) ++ concat (map entry_text b)) ++ tail)
          with ((geom ++ concat (map entry_text a) ++ e_gap e) ++ render e ++ concat (map entry_text b) ++ tail) by now rewrite <- !app_assoc.
        rewrite skipn_app, skipn_all, Nat.sub_diag. reflexivity. }
      rewrite SKF.
      assert (NB : forall c, c = "("%char \/ c = ")"%char -> ~ In c (concat (map entry_text b) ++ tail)).
      { intros c C. assert (IC : In c (T "$()*")) by (cbn; destruct C as [-> | ->]; tauto). rewrite in_app_iff. intros [I|I].
        - revert I. apply entries_no; [|exact IC| |].
          + rewrite E in F. apply Forall_app in F as [_ F]. now inversion F.
          + intros x _. destruct (e_kw x) as [?|[|] ? ?|?|?|?]; try exact Logic.I. destruct C as [-> | ->]; discriminate.
          + intros x IX. destruct (e_kw x) as [?|st' v' [tr'|]|?|?|?] eqn:KX; try exact Logic.I. exfalso.
            rewrite E, map_app in ND. cbn [map] in ND. apply NoDup_remove_2 in ND. apply ND. apply in_or_app. right. rewrite KE.
            replace 1 with (kind x) by (unfold kind; now rewrite KX). now apply in_map.
        - revert I. now apply spaces_no. }
      assert (NH : forall c, c = "("%char \/ c = ")"%char -> ~ In c (kstar (e_kw e) ++ kname (e_kw e) ++ opt_blank (e_b1 e) ++ T "=" ++ opt_blank (e_b2 e) ++ v)).
      { intros c C. assert (IC : In c (T "ufivt=$()*")) by (cbn; destruct C as [-> | ->]; tauto). rewrite K, !in_app_iff.
        intros [I|[I|[I|[I|[I|I]]]]]; [| | | | |revert I; now apply calm_no].
        - destruct C as [-> | ->]; destruct st; cbn in I; intuition discriminate.
        - destruct C as [-> | ->]; cbn in I; intuition discriminate.
        - destruct C as [-> | ->]; destruct (e_b1 e); cbn in I; intuition discriminate.
        - destruct C as [-> | ->]; cbn in I; intuition discriminate.
        - destruct C as [-> | ->]; destruct (e_b2 e); cbn in I; intuition discriminate. }
      assert (ONE : forall st' v' tr', has_kw (KFill st' v' tr') (e1 :: es) -> KFill st' v' tr' = KFill st v tr).
      { intros st' v' tr' H. apply in_map_iff in H as (x & KX & IX). assert (Q : e = x) by (apply (kinds_one (e1 :: es)); [exact ND|exact IE|exact IX|unfold kind; now rewrite K, KX]).
        subst x. congruence. }
      assert (NONE : ~ (forall st' v' tr', ~ has_kw (KFill st' v' tr') (e1 :: es))).
      { intro H. apply (H st v tr). unfold has_kw. rewrite <- K. now apply in_map. }
      rewrite (strip_number v NV).
      destruct tr as [[sep inner]|].
      + destruct GK as (SS & CI & LI & SF).
        assert (RE : render e ++ concat (map entry_text b) ++ tail =
          ((kstar (e_kw e) ++ kname (e_kw e) ++ opt_blank (e_b1 e) ++ T "=" ++ opt_blank (e_b2 e) ++ v) ++ sep) ++ "("%char :: inner ++ ")"%char :: concat (map entry_text b) ++ tail).
        { unfold render. rewrite K. cbn [kvalue krest]. rewrite <- !app_assoc. reflexivity. }
        rewrite RE.
        assert (NHS : forall c, c = "("%char \/ c = ")"%char -> ~ In c ((kstar (e_kw e) ++ kname (e_kw e) ++ opt_blank (e_b1 e) ++ T "=" ++ opt_blank (e_b2 e) ++ v) ++ sep)).
        { intros c C. rewrite in_app_iff. intros [I|I]; [now apply (NH c C)|]. revert I. apply spaces_no; [exact SS|]. destruct C as [-> | ->]; cbn; tauto. }
        rewrite extract_here; [|apply NHS; tauto|apply NHS; tauto|apply calm_no; [exact CI|cbn; tauto]].
        match goal with |- context [contains (T "(") ?s] => assert (CT : contains (T "(") s = true) end.
        { unfold contains. match goal with |- match find_sub (T "(") (?x ++ "("%char :: ?y) with _ => _ end = _ =>
            assert (H : find_sub (T "(") (x ++ "("%char :: y) <> None) by exact (find_sub_mid (T "(") x y);
            destruct (find_sub (T "(") (x ++ "("%char :: y)); [reflexivity|tauto] end. }
        rewrite CT.
        destruct (transform_read (mkK univ (Some v) (k_imp no_keywords) (k_trid no_keywords) (k_offset no_keywords) (k_rot no_keywords)) star (join_sp (words inner)) inner LI)
          as (k2 & S2 & A1 & A2 & _ & A3); [now rewrite ST|apply words_again|reflexivity|reflexivity|reflexivity|].
        exists k2. split; [exact S2|]. split; [exact A1|]. split; [|tauto]. intros st' v' tr' H. apply ONE in H. injection H as -> -> ->.
        split; [exact A2|]. rewrite <- ST. apply A3.
      + match goal with |- context [contains (T "(") ?s] => assert (CT : contains (T "(") s = false) end.
        { unfold contains. cbn [T list_ascii_of_string]. rewrite find_sub_no; [reflexivity|]. unfold render. rewrite K. cbn [kvalue krest]. rewrite app_nil_r.
          rewrite in_app_iff. intros [I|I]; [|revert I; apply NB; tauto]. rewrite <- K in I. revert I. apply NH. tauto. }
        rewrite CT. eexists. split; [reflexivity|]. split; [reflexivity|]. split; [|tauto]. intros st' v' tr' H. apply ONE in H. injection H as -> -> ->.
        now repeat split. }
  destruct FIL as (k2 & FE & F0 & F1 & F2).
  (* the importance *)
  assert (IMP : exists q, match posi with
                               | None => Some 1%Q
                               | Some _ => match get_keyword_value (T "imp:n") (KeywordModel.spacify (skipn L card)) with
                                           | Some v => py_float v
                                           | None => None end
                               end = Some q /\ (forall v, has_kw (KImp v) (e1 :: es) -> py_float v = Some q) /\ ((forall v, ~ has_kw (KImp v) (e1 :: es)) -> q = 1%Q)).
  { destruct PI as [[P N]|(a & e & b & E & K & P)]; rewrite P.
    - exists 1%Q. split; [reflexivity|]. split; [|reflexivity]. intros v H. exfalso. apply in_map_iff in H as (e & KE & IE). apply (N e IE). unfold kind. now rewrite KE.
    - assert (IE : In e (e1 :: es)) by (rewrite E; apply in_elt). rewrite (VAL (T "imp:n") 2 e ltac:(cbn; tauto) IE K).
      assert (GE : good_entry e) by (rewrite Forall_forall in F; now apply F). destruct GE as (_ & _ & (NV & _)). destruct (number_float _ NV) as [q Q].
      exists q. split; [exact Q|]. unfold kind in K. destruct (e_kw e) as [| |v| |] eqn:EK; try discriminate. cbn [kvalue] in Q. split.
      + intros v' H. apply in_map_iff in H as (e' & KE & IE'). assert (X : e = e') by (apply (kinds_one (e1 :: es)); [exact ND|exact IE|exact IE'|unfold kind; now rewrite EK, KE]).
        subst e'. congruence.
      + intro H. exfalso. apply (H v). unfold has_kw. rewrite <- EK. now apply in_map. }
  destruct IMP as (q & IE & I1 & I2).
  exists (mkK (k_univ k2) (k_fill k2) q (k_trid k2) (k_offset k2) (k_rot k2)), (e_gap e1).
  assert (D : detect_keywords no_keywords card = Some (mkK (k_univ k2) (k_fill k2) q (k_trid k2) (k_offset k2) (k_rot k2), geom ++ e_gap e1)).
  { unfold detect_keywords. rewrite SOME. cbn [negb]. rewrite ND0. cbv zeta. fold star. fold posu posi posv post. fold posf.
    rewrite FIRST, UE, <- FN. fold filled. rewrite FE, IE.
    destruct posu, posf, posi, posv, post; try reflexivity. discriminate FIRST. }
  split; [exact D|]. split; [apply G1|]. unfold keywords_read. cbn [k_univ k_fill k_imp k_trid k_offset k_rot]. rewrite F0.
  repeat split; try (now apply U1); try (now apply U2); try (now apply I1); try (now apply I2).
  - now apply (F1 star0 v tr).
  - apply (F1 star0 v tr) in H. destruct H as [_ H]. exact H.
  - now apply F2.
  - now apply F2.
  - now apply F2.
  - now apply F2.
Qed.

Example keywords_read_ex :
  let es := [mkE (T " ") (KU (T "5")) false false; mkE (T "  ") (KImp (T "2.5")) false true;
             mkE [blank; newline; blank] (KFill true (T "7") (Some (T " ", T " 1 0 0  0 90 90 90 0 90 90 90 0"))) true true;
             mkE (T " ") (KVol (T "3")) false false] in
  let geom := T "12 3 -1.5 -1 (2:-3)" in
  geom <> [] /\ forallb geometric geom = true /\ es <> [] /\ Forall good_entry es /\ NoDup (map kind es) /\ spaces (T " ") /\
  detect_keywords no_keywords (kcard geom es (T " ")) =
    Some (mkK (Some (T "5")) (Some (T "7")) (25 # 10) (T "0") (Some (T "1", T "0", T "0"))
            (Some (map RCos [0; 90; 90; 90; 0; 90; 90; 90; 0]%Q)), geom ++ T " ").
Proof.
  cbv zeta. assert (NU : forall a b, a <> [] -> all_digits a -> (b = [] \/ exists x, b = "."%char :: x /\ all_digits x /\ x <> []) -> number (a ++ b)).
  { intros a b A1 A2 B. exists [], a, b. split; [reflexivity|]. split; [now left|]. split; [exact A2|]. split; [exact B|]. destruct a; [tauto|discriminate]. }
  split; [discriminate|]. split; [reflexivity|]. split; [discriminate|]. split.
  - constructor; [|constructor; [|constructor; [|constructor; [|constructor]]]]; (split; [reflexivity|split; [discriminate|split]]); cbn [e_kw kvalue]; try exact I.
    + apply (NU (T "5") []); [discriminate|reflexivity|now left].
    + apply (NU (T "2") (T ".5")); [discriminate|reflexivity|right; exists (T "5"); repeat split; discriminate].
    + apply (NU (T "7") []); [discriminate|reflexivity|now left].
    + split; [reflexivity|]. split; [reflexivity|]. split; [right; right; reflexivity|]. intros _.
      match goal with |- Forall _ ?l => let l' := eval vm_compute in l in change l with l' end.
      repeat (constructor; [vm_compute; discriminate|]). constructor.
    + apply (NU (T "3") []); [discriminate|reflexivity|now left].
  - split; [|split; [reflexivity|vm_compute; reflexivity]].
    cbn. repeat constructor; cbn; intuition discriminate.
Qed.

(** A card without any of the letters the keywords begin with is left alone. *)
Theorem C53_no_keywords k s : forallb geometric s = true -> detect_keywords k s = Some (k, s).
Proof.
  intro G. unfold detect_keywords.
  assert (E : existsb (fun w => contains w s) cell_keywords = false).
  { unfold cell_keywords. cbn [existsb]. unfold contains. cbn [T list_ascii_of_string].
    rewrite !find_head by (apply geometric_no; [exact G|cbn; tauto]). reflexivity. }
  now rewrite E.
Qed.
Example no_keywords_ex : forallb geometric (T "12 3 -1.5 -1 (2:-3) #4") = true.
Proof. reflexivity. Qed.

(** An importance in scientific notation loses its exponent: 1e-3 is read as 1. *)
Theorem C53_exponent_refuted : exists g v k,
  detect_keywords no_keywords (g ++ T " imp:n=" ++ v) = Some (k, g ++ T " ") /\
  exists q, py_float v = Some q /\ ~ (k_imp k == q)%Q.
Proof.
  exists (T "1 0 -1"), (T "1e-3"), (mkK None None 1 (T "0") None None). split; [vm_compute; reflexivity|].
  exists (1 # 1000)%Q. split; [vm_compute; reflexivity|discriminate].
Qed.

(** More than one blank after the equals sign: the universe is read as the empty text. *)
Theorem C53_blanks_refuted : exists g k, detect_keywords no_keywords (g ++ T " u=   5") = Some (k, g ++ T " ") /\ k_univ k <> Some (T "5").
Proof. exists (T "1 0 -1"), (mkK (Some []) None 1 (T "0") None None). split; [vm_compute; reflexivity|discriminate]. Qed.

(** More than one blank before the equals sign: the conversion stops with an error. *)
Theorem C53_blanks_before_refuted : exists g, detect_keywords no_keywords (g ++ T " u   =5") = None.
Proof. exists (T "1 0 -1"). vm_compute. reflexivity. Qed.

(** An importance for two particles: the conversion stops with an error. *)
Theorem C53_two_particles_refuted : exists g, detect_keywords no_keywords (g ++ T " imp:n,p=1") = None.
Proof. exists (T "1 0 -1"). vm_compute. reflexivity. Qed.

(** Another keyword that ends in u: nonu=1 puts the cell in universe 1, and leaves part of the keyword in the geometry. *)
Theorem C53_other_keyword_refuted : exists g k s, detect_keywords no_keywords (g ++ T " nonu=1") = Some (k, s) /\ k_univ k <> None /\ s <> g ++ T " ".
Proof. exists (T "1 0 -1"), (mkK (Some (T "1")) None 1 (T "0") None None), (T "1 0 -1 non"). split; [vm_compute; reflexivity|]. split; discriminate. Qed.

(** A transformation of the cell is taken for one of the fill. *)
Theorem C53_trcl_refuted : exists g k s, detect_keywords no_keywords (g ++ T " fill=3 trcl=(0 0 5)") = Some (k, s) /\ k_offset k <> None.
Proof.
  exists (T "1 0 -1"), (mkK None (Some (T "3")) 1 (T "0") (Some (T "0", T "0", T "5")) None), (T "1 0 -1 "). split; [vm_compute; reflexivity|discriminate].
Qed.

Print Assumptions C53_keywords_partial.
Print Assumptions C53_no_keywords.
Print Assumptions C53_exponent_refuted.
Print Assumptions C53_blanks_refuted.
Print Assumptions C53_blanks_before_refuted.
Print Assumptions C53_two_particles_refuted.
Print Assumptions C53_other_keyword_refuted.
Print Assumptions C53_trcl_refuted.

(** C53 is false for a value on the next line, which MCNP allows: the search ends at the equals sign and the card raises,
    whatever follows (MCNPCellCard.py 198-202). *)
Lemma C53_next_line kw y : In kw [T "u"; T "fill"; T "imp:n"] -> get_keyword_value kw (kw ++ T " = " ++ newline :: y) = None.
Proof.
  intro I. unfold get_keyword_value. assert (M : kw_match kw (kw ++ T " = " ++ newline :: y) = Some (kw ++ T " =")).
  { unfold kw_match. rewrite after_app. destruct I as [<-|[<-|[<-|[]]]]; reflexivity. }
  rewrite (kw_search_here _ _ _ M). destruct I as [<-|[<-|[<-|[]]]]; reflexivity.
Qed.
Theorem C53_next_line_refuted : exists s v, s = T "2 0 -1 imp:n=1 u=" ++ newline :: T "     5" /\ v = T "5" /\
  detect_keywords no_keywords s = None /\
  exists k r, detect_keywords no_keywords (T "2 0 -1 imp:n=1 u=" ++ v) = Some (k, r) /\ k_univ k = Some v.
Proof. eexists _, _. split; [reflexivity|]. split; [reflexivity|]. split; [vm_compute; reflexivity|]. eexists _, _. split; vm_compute; reflexivity. Qed.
Print Assumptions C53_next_line_refuted.
