(** Properties of the expansion of cell complements (C31, C32). *)
From Verif Require Import PyStr PyStrFacts FortranNumber FortranNumberProofs PyInt PyIntFacts RegionSpec RegionFacts
  CellModel CellProofs NotsModel NotsProofs.

Lemma hash_in s : has_hash s = true <-> In "#"%char s.
Proof.
  unfold has_hash. rewrite existsb_exists. split.
  - intros (c & I & E). apply Ascii.eqb_eq in E. now subst.
  - intro I. exists "#"%char. auto.
Qed.

(** C31.  The deck: positive cell numbers, well-formed descriptions as [generalise] leaves
    them, every word with a hash is "#n" for a cell n of the deck, and [rank] witnesses
    that the references have no cycle.  Then the expansion ends; no hash is left; numbers,
    materials and densities are unchanged; and whatever the sides of the surfaces, the new
    description (which no longer depends on the membership of cells, [other]) holds
    exactly in the cell, where membership of cells is any solution of the deck: [incell]
    agrees with every description when "#n" means "not in cell n".  The new descriptions
    are separated as the writers of cells need it. *)
Theorem C31_complements_expand :
  forall cells rank,
  (forall c, In c cells -> (0 < c_id c)%Z /\ (exists r, expr (toks (c_items c)) r) /\
     spaced false (c_items c) = true /\ tight (c_items c) = true) ->
  (forall c s, In c cells -> In (Str s) (c_items c) -> In "#"%char s ->
     exists d, In d cells /\ s = "#"%char :: str_Z (c_id d) /\ rank (c_id d) < rank (c_id c)) ->
  exists N cells', (forall fuel, N <= fuel -> explode_nots fuel cells = Done cells') /\
    Forall2 (fun c c' =>
      c_id c' = c_id c /\ c_mat c' = c_mat c /\ c_dens c' = c_dens c /\
      (forall s, In (Str s) (c_items c') -> ~ In "#"%char s) /\
      spaced false (c_items c') = true /\ tight (c_items c') = true /\
      (forall s, In (Str s) (c_items c') -> is_word s = true -> exists d, In d cells /\ In (Str s) (c_items d)) /\
      exists r', expr (toks (c_items c')) r' /\
        forall sense incell other,
        (forall d r, In d cells -> expr (toks (c_items d)) r ->
           holds (atom_env sense incell) r = incell (str_Z (c_id d))) ->
        holds (atom_env sense other) r' = incell (str_Z (c_id c))) cells cells'.
Proof.
  intros cells rank H1 H2.
  assert (Lo : forall c, In c cells -> low cells rank (rank (c_id c)) (c_items c)).
  { intros c I s Is Hs. apply hash_in in Hs. destruct (H2 c s I Is Hs) as (d & Id & -> & R). exists (c_id d).
    split; [reflexivity|]. split; [destruct (H1 d Id); lia|]. split; [exact R|]. exists d. auto. }
  assert (K : Forall (fun c => kept cells rank (c_id c) (c_items c)) cells).
  { apply Forall_forall. intros c I. destruct (H1 c I) as (P & (r & E) & Sp & Ti). split; auto.
    - intros s Is _. exists c. auto.
    - exists r. split; [exact E|]. intros sense incell C. exact (C c r I E). }
  assert (F2 : Forall2 same_but_items cells cells).
  { clear. induction cells as [|c l IH]; constructor; [|exact IH]. unfold same_but_items. now destruct c. }
  destruct (explode_cells_ok cells rank cells cells [] [] eq_refl (Forall2_nil _) F2 K (Forall_nil _))
    as (N & cells' & X & Y & Z & W).
  exists N, cells'. split; [exact X|]. clear X H1 H2 F2 K Lo.
  assert (G : forall l l', Forall2 same_but_items l l' ->
     Forall (fun c => kept cells rank (c_id c) (c_items c)) l' -> Forall (fun c => no_hash (c_items c)) l' ->
     Forall2 (fun c c' =>
      c_id c' = c_id c /\ c_mat c' = c_mat c /\ c_dens c' = c_dens c /\
      (forall s, In (Str s) (c_items c') -> ~ In "#"%char s) /\
      spaced false (c_items c') = true /\ tight (c_items c') = true /\
      (forall s, In (Str s) (c_items c') -> is_word s = true -> exists d, In d cells /\ In (Str s) (c_items d)) /\
      exists r', expr (toks (c_items c')) r' /\
        forall sense incell other,
        (forall d r, In d cells -> expr (toks (c_items d)) r ->
           holds (atom_env sense incell) r = incell (str_Z (c_id d))) ->
        holds (atom_env sense other) r' = incell (str_Z (c_id c))) l l').
  2:{ now apply G. }
  induction 1 as [|c c' l l' S F IH]; intros K H; [constructor|]. inversion K as [|? ? Kc K']. inversion H as [|? ? Hc H']. subst.
  constructor; [|auto]. unfold same_but_items in S.
  assert (Eid : c_id c' = c_id c) by (rewrite S; reflexivity).
  split; [exact Eid|]. split; [rewrite S; reflexivity|]. split; [rewrite S; reflexivity|].
  split. { intros s Is Hs. apply hash_in in Hs. rewrite (Hc s Is) in Hs. discriminate. }
  split; [exact (k_spaced _ _ _ _ Kc)|]. split; [exact (k_tight _ _ _ _ Kc)|].
  split; [exact (k_from _ _ _ _ Kc)|].
  destruct (k_den _ _ _ _ Kc) as (r' & E & D). exists r'. split; [exact E|].
  intros sense incell other C. rewrite <- Eid. rewrite <- (D sense incell C).
  apply (holds_atoms_env _ _ _ _ E). intros s Is _. apply atom_env_nonref. exact (Hc s Is).
Qed.
Print Assumptions C31_complements_expand.

(** The meaning used in C31 exists: without cycles, and with distinct cell numbers, some
    membership of cells is a solution of the deck. *)
Theorem C31_meaning_exists :
  forall cells rank sense,
  NoDup (map c_id cells) -> (forall c, In c cells -> (0 < c_id c)%Z) ->
  (forall c s, In c cells -> In (Str s) (c_items c) -> In "#"%char s ->
     exists d, In d cells /\ s = "#"%char :: str_Z (c_id d) /\ rank (c_id d) < rank (c_id c)) ->
  exists incell, forall d r, In d cells -> expr (toks (c_items d)) r ->
    holds (atom_env sense incell) r = incell (str_Z (c_id d)).
Proof.
  intros cells rank sense Nd P H2. apply (consistent_exists cells rank sense Nd).
  intros c I s Is Hs. apply hash_in in Hs. destruct (H2 c s I Is Hs) as (d & Id & -> & R). exists (c_id d).
  split; [reflexivity|]. split; [specialize (P d Id); lia|]. split; [exact R|]. exists d. auto.
Qed.
Print Assumptions C31_meaning_exists.

(** A deck read from text, with complements of complements in both directions. *)
Definition cards_of (l : list text) : list cell :=
  flat_map (fun t => match interpret 1 t with Some c => [c] | None => [] end) l.
Definition nots_deck : list cell :=
  cards_of [T "1 0 -2 #3"; T "2 0 #1 #3 -5"; T "3 0 -1 : 4"].

Ltac pick_cell tac :=
  first [ eexists; split; [left; reflexivity|]; tac
        | eexists; split; [right; left; reflexivity|]; tac
        | eexists; split; [right; right; left; reflexivity|]; tac ].

Example C31_example :
  length nots_deck = 3 /\
  (forall c, In c nots_deck -> (0 < c_id c)%Z /\ (exists r, expr (toks (c_items c)) r) /\
     spaced false (c_items c) = true /\ tight (c_items c) = true) /\
  (forall c s, In c nots_deck -> In (Str s) (c_items c) -> In "#"%char s ->
     exists d, In d nots_deck /\ s = "#"%char :: str_Z (c_id d) /\
       (fun n => Z.to_nat (if n =? 3 then 0 else n)%Z) (c_id d) < (fun n => Z.to_nat (if n =? 3 then 0 else n)%Z) (c_id c)) /\
  NoDup (map c_id nots_deck) /\
  match explode_nots 10 nots_deck with
  | Done cells => map (fun c => toks (c_items c)) cells =
      map mcnp_lex [T "-2 #(-1 : 4)"; T "#(-2 #(-1 : 4)) #(-1 : 4) -5"; T "-1 : 4"]
  | _ => False
  end.
Proof.
  split; [vm_compute; reflexivity|].
  let d := eval vm_compute in nots_deck in change nots_deck with d.
  split.
  { intros c I. repeat (destruct I as [<-|I]; [split; [reflexivity|]; split; [eexists; apply parse_sound; vm_compute; reflexivity|]; split; vm_compute; reflexivity|]).
    destruct I. }
  split.
  { intros c s I Is Hs. apply hash_in in Hs.
    repeat (destruct I as [<-|I]; [cbn [c_items] in Is;
      repeat (destruct Is as [Is|Is]; [first [discriminate Is | injection Is as <-; first [discriminate Hs | pick_cell ltac:(idtac; split; [vm_compute; reflexivity|vm_compute; lia])]]|]); destruct Is|]).
    destruct I. }
  split; [|vm_compute; reflexivity].
  cbn [map c_id]. repeat constructor; cbn; intuition discriminate.
Qed.

(** C32 is false: two cells that refer to each other make the expansion go on for ever,
    although both references exist and every description is well formed. *)
Definition cyclic_deck : list cell := cards_of [T "1 0 -1 #2"; T "2 0 -2 #1"].

Theorem C32_expansion_ends_refuted :
  exists cells,
    (forall c, In c cells -> (0 < c_id c)%Z /\ exists r, expr (toks (c_items c)) r) /\
    (forall c s, In c cells -> In (Str s) (c_items c) -> In "#"%char s ->
       exists d, In d cells /\ s = "#"%char :: str_Z (c_id d)) /\
    forall fuel, explode_nots fuel cells = Running.
Proof.
  exists cyclic_deck. let d := eval vm_compute in cyclic_deck in change cyclic_deck with d.
  split.
  { intros c I. repeat (destruct I as [<-|I]; [split; [reflexivity|]; eexists; apply parse_sound; vm_compute; reflexivity|]).
    destruct I. }
  split.
  { intros c s I Is Hs. apply hash_in in Hs.
    repeat (destruct I as [<-|I]; [cbn [c_items] in Is;
      repeat (destruct Is as [Is|Is]; [first [discriminate Is | injection Is as <-; first [discriminate Hs | pick_cell ltac:(idtac; vm_compute; reflexivity)]]|]); destruct Is|]).
    destruct I. }
  intro fuel. unfold explode_nots. cbn [explode_cells].
  match goal with |- context [not_loop fuel [] ?c0 ?a0] => set (c := c0); set (a := a0) end.
  assert (G : forall f c', c_id c' = 1%Z ->
     (exists p n b, c_items c' = p ++ Str (ref n) :: b /\ no_hash p /\ (n = 1 \/ n = 2)%Z) ->
     not_loop f [] c' a = Running).
  { induction f as [|f IH]; intros c' Hid (p & n & b & E & Hp & Hn); cbn [not_loop];
      rewrite E, nots_mid by (destruct Hn; subst; lia); [reflexivity|].
    destruct Hn as [->| ->].
    - rewrite (split_mid _ p 1 b (c_items c')).
      + apply IH; [exact Hid|]. exists (p ++ [Op NOT; Str (T "(")] ++ p), 1%Z, (b ++ Str (T ")") :: b).
        split; [|split; [|auto]].
        * cbn [with_items c_items]. rewrite E. unfold enclosed. rewrite <- !app_assoc. cbn [app].
          rewrite <- app_assoc. cbn [app]. rewrite <- !app_assoc. reflexivity.
        * apply no_hash_app; [exact Hp|]. intros s [I|[I|I]]; [discriminate|injection I as <-; reflexivity|auto].
      + exact Hp.
      + lia.
      + unfold find_cell. cbn [app List.find]. rewrite Hid.
        destruct (text_eqb_spec (str_Z 1) (str_Z 1)); [reflexivity|contradiction].
    - rewrite (split_mid _ p 2 b [Op AND; Str (T "-2"); Op AND; Str (ref 1)]).
      + apply IH; [exact Hid|]. exists (p ++ [Op NOT; Str (T "("); Op AND; Str (T "-2"); Op AND]), 1%Z, (Str (T ")") :: b).
        split; [|split; [|auto]].
        * cbn [with_items c_items]. unfold enclosed. rewrite <- !app_assoc. reflexivity.
        * apply no_hash_app; [exact Hp|]. intros s I.
          repeat (destruct I as [I|I]; [first [discriminate I|injection I as <-; reflexivity]|]). destruct I.
      + exact Hp.
      + lia.
      + unfold find_cell. cbn [app List.find]. rewrite Hid. reflexivity. }
  rewrite G; [reflexivity|reflexivity|].
  exists [Op AND; Str (T "-1"); Op AND], 2%Z, []. split; [reflexivity|]. split; [|auto].
  intros s I. repeat (destruct I as [I|I]; [first [discriminate I|injection I as <-; reflexivity]|]). destruct I.
Qed.
Print Assumptions C32_expansion_ends_refuted.

(** A reference to a cell that does not exist is an exception ([AttributeError]), if the
    cells before have no complements. *)
Theorem C32_missing_cell_raises :
  forall before c after a n b fuel,
  (forall d s, In d before -> In (Str s) (c_items d) -> ~ In "#"%char s) ->
  c_items c = a ++ Str ("#"%char :: str_Z n) :: b -> (forall s, In (Str s) a -> ~ In "#"%char s) ->
  (0 <= n)%Z -> (forall d, In d (before ++ c :: after) -> c_id d <> n) -> 0 < fuel ->
  explode_nots fuel (before ++ c :: after) = Raised.
Proof.
  intros before c after a n b fuel Hb E Ha Hn Hm Hf.
  assert (NH : forall l, (forall s, In (Str s) l -> ~ In "#"%char s) -> no_hash l).
  { intros l H s I. destruct (has_hash s) eqn:X; [|reflexivity]. apply hash_in in X. exfalso. exact (H s I X). }
  unfold explode_nots.
  assert (G : forall l done, (forall d, In d l -> no_hash (c_items d)) ->
    explode_cells fuel done (l ++ c :: after) = explode_cells fuel (done ++ l) (c :: after)).
  { induction l as [|x l IH]; intros done Hl; [now rewrite app_nil_r|]. cbn [app explode_cells].
    assert (Hx : forall f p q, not_loop f p x q = Done x).
    { intros f p q. destruct f; cbn [not_loop]; rewrite (no_hash_done _ (Hl x (or_introl eq_refl))); reflexivity. }
    rewrite Hx. rewrite IH by (intros d I; apply Hl; now right). rewrite <- app_assoc. reflexivity. }
  rewrite G by (intros d I; apply NH; intros s; apply Hb; exact I). cbn [app explode_cells].
  destruct fuel as [|f]; [lia|]. cbn [not_loop]. fold (ref n) in E. rewrite E, nots_mid by exact Hn.
  unfold split_nots. rewrite first_hash_mid by (auto || reflexivity). rewrite hash_ref by exact Hn.
  assert (F : find_cell (before ++ c :: after) (str_Z n) = None).
  { unfold find_cell. destruct (List.find _ _) as [d|] eqn:X; [|reflexivity]. exfalso. apply find_some in X as [I Eq].
    destruct (text_eqb_spec (str_Z (c_id d)) (str_Z n)) as [Y|]; [|discriminate]. apply str_Z_inj in Y. exact (Hm d I Y). }
  now rewrite F.
Qed.
Print Assumptions C32_missing_cell_raises.

Example C32_missing_example :
  exists c a b, cards_of [T "1 0 -1 #2"] = [] ++ c :: [] /\
  c_items c = a ++ Str ("#"%char :: str_Z 2) :: b /\ (forall s, In (Str s) a -> ~ In "#"%char s) /\
  (forall d, In d ([] ++ c :: []) -> c_id d <> 2%Z).
Proof.
  eexists _, [Op AND; Str (T "-1"); Op AND], []. split; [vm_compute; reflexivity|]. split; [reflexivity|]. split.
  - intros s I Hs. apply hash_in in Hs. repeat (destruct I as [I|I]; [first [discriminate I|injection I as <-; discriminate Hs]|]). destruct I.
  - intros d [<-|[]]. discriminate.
Qed.

(** The reference in a word: the digits, as many as there are, after the first hash with a digit behind it, wherever in the
    word that hash is; there is none exactly if no hash has a digit behind it. *)
Definition digit_next (s : text) : Prop := exists c r, s = c :: r /\ is_digit c = true.
Definition referred (s d : text) : Prop := exists a b, s = a ++ "#"%char :: d ++ b /\ d <> [] /\ (forall c, In c d -> is_digit c = true) /\ ~ digit_next b /\
  forall a' r, s = a' ++ "#"%char :: r -> length a' < length a -> ~ digit_next r.
Lemma span_spec s : exists b, s = span_digits s ++ b /\ (forall c, In c (span_digits s) -> is_digit c = true) /\ ~ digit_next b /\ (span_digits s = [] <-> ~ digit_next s).
Proof.
  induction s as [|c s IH]; cbn [span_digits].
  - exists []. split; [reflexivity|]. split; [intros c []|]. split; [intros (c & r & E & _); discriminate|]. split; [intros _ (c & r & E & _); discriminate|reflexivity].
  - destruct (is_digit c) eqn:D.
    + destruct IH as (b & E & H & N & _). exists b. cbn [app]. split; [now rewrite <- E|]. split; [intros x [<-|I]; [exact D|now apply H]|]. split; [exact N|].
      split; [discriminate|]. intro X. elim X. exists c, s. now split.
    + exists (c :: s). split; [reflexivity|]. split; [intros x []|]. assert (N : ~ digit_next (c :: s)) by (intros (x & r & E & X); injection E as <- _; congruence).
      split; [exact N|]. split; [intros _; exact N|reflexivity].
Qed.
Theorem C31_reference_found s : (forall d, hash_digits s = Some d <-> referred s d) /\
  (hash_digits s = None <-> forall a r, s = a ++ "#"%char :: r -> ~ digit_next r).
Proof.
  assert (F : match hash_digits s with Some d => referred s d | None => forall a r, s = a ++ "#"%char :: r -> ~ digit_next r end).
  { induction s as [|c s IH]; [intros [|? ?] r E; discriminate|]. cbn [hash_digits].
    assert (SH : ~ (c = "#"%char /\ digit_next s) -> match hash_digits s with Some d => referred (c :: s) d | None => forall a r, c :: s = a ++ "#"%char :: r -> ~ digit_next r end).
    { intro NC. destruct (hash_digits s) as [d|].
      - destruct IH as (a & b & E & ND & DG & NB & FI). exists (c :: a), b. split; [cbn [app]; now rewrite <- E|]. split; [exact ND|]. split; [exact DG|]. split; [exact NB|].
        intros [|x a'] r E' L; cbn [app] in E'; [injection E' as Q1 Q2; subst; intro D; now apply NC|]. injection E' as _ E'. apply (FI a' r E'). cbn [length] in L. lia.
      - intros [|x a] r E; cbn [app] in E; [injection E as Q1 Q2; subst; intro D; now apply NC|]. injection E as _ E. now apply (IH a r). }
    destruct (Ascii.eqb c "#") eqn:E0; [apply Ascii.eqb_eq in E0|apply Ascii.eqb_neq in E0; apply SH; tauto].
    destruct (span_spec s) as (b & E & DG & NB & EM). destruct (span_digits s) as [|d ds] eqn:SD.
    - apply SH. intros [_ D]. now apply EM.
    - exists [], b. split; [cbn [app] in *; congruence|]. split; [discriminate|]. split; [exact DG|]. split; [exact NB|]. intros a' r _ L. cbn [length] in L. lia. }
  assert (U : forall d d', referred s d -> referred s d' -> d = d').
  { intros d d' (a & b & E & ND & DG & NB & FI) (a' & b' & E' & ND' & DG' & NB' & FI').
    assert (DN : forall d b, d <> [] -> (forall c, In c d -> is_digit c = true) -> digit_next (d ++ b)) by (intros [|c x] y X Y; [now elim X|]; exists c, (x ++ y); split; [reflexivity|apply Y; now left]).
    assert (LA : length a = length a').
    { destruct (Nat.lt_trichotomy (length a) (length a')) as [L|[L|L]]; [|exact L|]; exfalso; [apply (FI' a (d ++ b) E L)|apply (FI a' (d' ++ b') E' L)]; now apply DN. }
    rewrite E in E'. clear - E' LA DG NB DG' NB'. revert a' E' LA. induction a as [|x a IH]; intros [|y a'] E LA; try discriminate LA.
    - cbn [app] in E. injection E as E. clear LA. revert d' E DG'. induction d as [|c d IH]; intros [|c' d'] E DG'; [reflexivity| | |].
      + exfalso. apply NB. cbn [app] in E. exists c', (d' ++ b'). split; [exact E|apply DG'; now left].
      + exfalso. apply NB'. cbn [app] in E. exists c, (d ++ b). split; [now symmetry|apply DG; now left].
      + cbn [app] in E. injection E as -> E. f_equal. apply IH; [intros z I; apply DG; now right|exact E|intros z I; apply DG'; now right].
    - cbn [app] in E. injection E as _ E. apply (IH a' E). now injection LA. }
  assert (X : forall d, referred s d -> exists a r, s = a ++ "#"%char :: r /\ digit_next r).
  { intros d (a & b & E & ND & DG & _). exists a, (d ++ b). split; [exact E|]. destruct d as [|c d]; [now elim ND|]. exists c, (d ++ b). split; [reflexivity|apply DG; now left]. }
  destruct (hash_digits s) as [d|]; split.
  - intro d'. split; [intro Q; injection Q as <-; exact F|intro R; now rewrite (U d d')].
  - split; [discriminate|]. intro N. destruct (X d F) as (a & r & E & D). now elim (N a r E).
  - intro d'. split; [discriminate|]. intro R. destruct (X d' R) as (a & r & E & D). now elim (F a r E).
  - tauto.
Qed.
Print Assumptions C31_reference_found.
(** "##12#3" refers to cell 12. *)
Example C31_reference_example : referred (T "##12#3") (T "12") /\ ~ exists d, referred (T "#(4)") d.
Proof.
  split; [apply C31_reference_found; reflexivity|]. intros (d & R). apply C31_reference_found in R. discriminate R.
Qed.
