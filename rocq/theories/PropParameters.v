(** Property theorem C98: cell cards with parameters that the program does not know (csg2csg/MCNPCellCard.py 194-333,
    csg2csg/__main__.py 74-134). *)
From Coq Require Import QArith Reals List Lia.
From Verif Require Import PyStr PyStrFacts PyInt FortranNumber FortranNumberProofs CellModel CellText CellWriters FlattenModel KeywordModel FileModel SurfWriters ProcessModel ConvertModel MainModel PropFlukaFile.
From Verif Require NotsModel.
Import ListNotations.
Open Scope nat_scope.
Open Scope list_scope.

(** Two texts that differ at a place that both have. *)
Fixpoint differ (p x : text) : bool :=
  match p, x with a :: p', b :: x' => if Ascii.eqb a b then differ p' x' else true | _, _ => false end.
Lemma differ_after p : forall x r, differ p x = true -> after p (x ++ r) = None.
Proof.
  induction p as [|a p IH]; intros x r H; [discriminate|]. destruct x as [|b x]; [discriminate|]. cbn [differ] in H. cbn [app after].
  destruct (Ascii.eqb a b); auto.
Qed.

Lemma find_sub_ge p pre r : (forall a b, pre = a ++ b -> b <> [] -> differ p b = true) -> forall n, find_sub p (pre ++ r) = Some n -> length pre <= n.
Proof.
  induction pre as [|c pre IH]; intros H n F; [cbn [length]; lia|]. change ((c :: pre) ++ r) with (c :: (pre ++ r)) in F. cbn [find_sub] in F.
  assert (N : after p (c :: pre ++ r) = None) by (apply (differ_after p (c :: pre) r), (H [] (c :: pre)); [reflexivity|discriminate]).
  rewrite N in F. destruct (find_sub p (pre ++ r)) as [m|] eqn:E; [|discriminate]. injection F as <-.
  assert (length pre <= m); [|cbn [length]; lia]. apply IH; [|reflexivity]. intros a b -> B. apply (H (c :: a) b); [reflexivity|exact B].
Qed.

Lemma firstn_keeps (pre s : text) n : length pre <= n -> (exists r, s = pre ++ r) -> exists r, firstn n s = pre ++ r.
Proof. intros L (r & ->). exists (firstn (n - length pre) r). rewrite firstn_app. now rewrite firstn_all2 by exact L. Qed.

(** The words the program searches for. *)
Definition sought : list text := [T "$"; T "u"; T "fill"; T "imp"; T "vol"; T "tmp"].

Lemma differ_head h p c x : h <> c -> differ (h :: p) (c :: x) = true.
Proof. intro N. cbn [differ]. destruct (Ascii.eqb_spec h c); [tauto|reflexivity]. Qed.

Lemma no_letter w g p pre : all_digits w -> forallb is_space g = true -> In p sought -> pre = T "lik" \/ pre = T "like" ->
  forall a b, w ++ g ++ pre = a ++ b -> b <> [] -> differ p b = true.
Proof.
  intros D G I P a b E B.
  assert (X : forall c x, (is_digit c = true \/ is_space c = true) -> differ p (c :: x) = true).
  { clear - I. intros c x H. cbn [sought In] in I.
    repeat (destruct I as [<-|I]; [apply differ_head; intro Z; subst c; destruct H as [H|H]; vm_compute in H; discriminate|]). destruct I. }
  assert (Y : forall a b, pre = a ++ b -> b <> [] -> differ p b = true).
  { clear - I P. intros a b E B. cbn [sought In] in I.
    destruct P as [-> | ->]; do 5 (destruct a as [|? a]; [cbn [app] in E; subst b; try (now elim B); repeat (destruct I as [<-|I]; [reflexivity|]); destruct I|]; injection E as _ E || discriminate). }
  revert a E. induction w as [|c w IH]; intros a E.
  - cbn [app] in E. clear D. revert a E. induction g as [|c g IH]; intros a E; [eauto|].
    cbn [forallb] in G. apply andb_true_iff in G as [G1 G2]. destruct a as [|d a].
    + cbn [app] in E. subst b. apply X. auto.
    + injection E as _ E. eapply IH; eauto.
  - unfold all_digits in *. cbn [forallb] in D. apply andb_true_iff in D as [D1 D2]. destruct a as [|d a].
    + cbn [app] in E. subst b. apply X. auto.
    + injection E as _ E. eapply IH; eauto.
Qed.

Lemma first_position_ge n : forall l m, (forall i, In (Some i) l -> n <= i) -> first_position l = Some m -> n <= m.
Proof.
  induction l as [|p l IH]; intros m H F; [discriminate|]. cbn [first_position] in F.
  destruct p as [[|i]|].
  - apply IH; [intros; apply H; now right|]. destruct (first_position l); exact F.
  - assert (n <= S i) by (apply H; now left). destruct (first_position l) as [j|] eqn:E.
    + assert (M : m = Nat.min (S i) j) by congruence. rewrite M. assert (n <= j) by (apply IH; [intros; apply H; now right|reflexivity]). lia.
    + injection F as <-. lia.
  - apply IH; [intros; apply H; now right|]. destruct (first_position l); exact F.
Qed.

(** What is left of the card when the parameters are cut off still begins with its number and the first letters of the word. *)
Lemma detect_like w g rest k k' s' : all_digits w -> forallb is_space g = true ->
  detect_keywords k (w ++ g ++ T "like" ++ rest) = Some (k', s') -> exists r, s' = (w ++ g ++ T "lik") ++ r.
Proof.
  intros D G H. unfold detect_keywords in H.
  assert (W : forall r, exists r', w ++ g ++ T "like" ++ r = (w ++ g ++ T "lik") ++ r').
  { intro r. exists ("e"%char :: r). now rewrite <- !app_assoc. }
  destruct (negb (existsb _ cell_keywords)); [injection H as _ <-; apply W|]. cbv zeta in H.
  assert (S1 : exists r, match find_sub (T "$") (w ++ g ++ T "like" ++ rest) with Some n => firstn n (w ++ g ++ T "like" ++ rest) | None => w ++ g ++ T "like" ++ rest end = w ++ g ++ T "like" ++ r).
  { destruct (find_sub (T "$") _) as [n|] eqn:F; [|eauto].
    destruct (firstn_keeps (w ++ g ++ T "like") (w ++ g ++ T "like" ++ rest) n) as (r & E).
    - apply (find_sub_ge (T "$") (w ++ g ++ T "like") rest); [|now rewrite <- !app_assoc]. intros a b. apply no_letter; auto. now left.
    - exists rest. now rewrite <- !app_assoc.
    - exists r. now rewrite E, <- !app_assoc. }
  destruct S1 as (r & S1). rewrite S1 in H. clear S1 rest.
  assert (L : forall p n, In p sought -> find_sub p (w ++ g ++ T "like" ++ r) = Some n -> S (length (w ++ g ++ T "lik")) <= n).
  { intros p n I F. assert (length (w ++ g ++ T "like") <= n).
    - apply (find_sub_ge p (w ++ g ++ T "like") r); [|now rewrite <- !app_assoc]. intros a b. apply no_letter; auto.
    - rewrite !app_length in *. cbn [T length String.list_ascii_of_string] in *. lia. }
  remember (match find_sub (T "fill") (w ++ g ++ T "like" ++ r) with Some n => if contains (T "*fill") (w ++ g ++ T "like" ++ r) then match n with S m => Some m | 0 => None end else Some n | None => None end) as posf eqn:EF.
  assert (LF : forall n, posf = Some n -> length (w ++ g ++ T "lik") <= n).
  { clear H. intros n ->. destruct (find_sub (T "fill") _) as [m|] eqn:F; [|discriminate]. apply L in F; [|right; right; now left].
    destruct (contains _ _); [|injection EF as ->; lia]. destruct m; [discriminate|]. injection EF as ->. lia. }
  assert (E : s' = w ++ g ++ T "like" ++ r \/ exists m, first_position [find_sub (T "u") (w ++ g ++ T "like" ++ r); posf; find_sub (T "imp") (w ++ g ++ T "like" ++ r); find_sub (T "vol") (w ++ g ++ T "like" ++ r); find_sub (T "tmp") (w ++ g ++ T "like" ++ r)] = Some m /\ s' = firstn m (w ++ g ++ T "like" ++ r)).
  { clear - H. destruct (find_sub (T "u") _) as [?|], posf as [?|], (find_sub (T "imp") _) as [?|], (find_sub (T "vol") _) as [?|], (find_sub (T "tmp") _) as [?|];
      try (left; injection H as _ <-; reflexivity); right;
      (match type of H with match ?x with _ => _ end = _ => destruct x as [m|]; [|discriminate] end; exists m; split; [reflexivity|]);
      repeat match type of H with match ?x with _ => _ end = _ => destruct x; try discriminate end; injection H as _ <-; reflexivity. }
  destruct E as [->|(m & FP & ->)]; [apply W|]. apply firstn_keeps; [|apply W].
  revert FP. apply first_position_ge. intros i I.
  destruct I as [I|[I|[I|[I|[I|[]]]]]]; [apply L in I; [lia|right; now left]|now apply LF|apply L in I; [lia|cbn; tauto]|apply L in I; [lia|cbn; tauto]|apply L in I; [lia|cbn; tauto]].
Qed.

Lemma find_keeps d pre : ~ In d pre -> forall r, (find d (pre ++ r) < 0)%Z \/ (Z.of_nat (length pre) <= find d (pre ++ r))%Z.
Proof.
  intros N r. induction pre as [|c pre IH]; [destruct (Z.lt_ge_cases (find d r) 0); [left; exact H|right; cbn [length app]; lia]|].
  cbn [app]. cbn [find]. destruct (Ascii.eqb_spec d c) as [->|_]; [elim N; now left|].
  destruct IH as [H|H]; [intro; apply N; now right| |].
  - left. destruct (Z.ltb_spec (find d (pre ++ r)) 0); lia.
  - right. destruct (Z.ltb_spec (find d (pre ++ r)) 0); cbn [length]; lia.
Qed.

Lemma dollars_like pre : ~ In "$"%char pre -> forall fuel r t, drop_dollars fuel (pre ++ r) = Some t -> exists r', t = pre ++ r'.
Proof.
  intros N. induction fuel as [|f IH]; intros r t H; [discriminate|]. cbn [drop_dollars] in H. destruct (Z.ltb_spec (find "$" (pre ++ r)) 0) as [L|L].
  - injection H as <-. eauto.
  - destruct (find_keeps "$" pre N r) as [L2|L2]; [lia|]. unfold slice_to in H. destruct (Z.ltb_spec (find "$" (pre ++ r)) 0); [lia|].
    destruct (firstn_keeps pre (pre ++ r) (Z.to_nat (find "$" (pre ++ r)))) as (r' & E); [lia|eauto|]. rewrite E, <- app_assoc in H. eapply IH; eauto.
Qed.

Lemma spacify_like w g r : all_digits w -> forallb is_space g = true -> exists r', CellModel.spacify ((w ++ g ++ T "lik") ++ r) = (w ++ g ++ T "lik") ++ r'.
Proof.
  intros D G. unfold CellModel.spacify. rewrite !replace_char_app. eexists. f_equal.
  assert (P : forall c t, is_space c = false -> replace_char c t g = g).
  { clear - G. intros c t N. induction g as [|d g IH]; [reflexivity|]. cbn [forallb] in G. apply andb_true_iff in G as [G1 G2].
    change (d :: g) with ([d] ++ g). rewrite replace_char_app, IH by exact G2. f_equal. cbn. destruct (Ascii.eqb_spec c d) as [->|_]; [congruence|reflexivity]. }
  rewrite !(replace_char_digits _ _ w D), !P by reflexivity. reflexivity.
Qed.

(** C98 for cards that take their description from another cell: "n like m but ...", in whatever way the rest is written, is
    refused with an exception. *)
Theorem C98_like fuel w g rest : w <> [] -> all_digits w -> g <> [] -> forallb is_space g = true ->
  read_cell_card fuel (w ++ g ++ T "like" ++ rest) = None.
Proof.
  intros W D GN G. unfold read_cell_card. destruct (detect_keywords _ _) as [[k s']|] eqn:E; [|reflexivity].
  apply detect_like in E as (r & ->); [|exact D|exact G]. unfold interpret. destruct (spacify_like w g r D G) as (r' & ->).
  destruct (drop_dollars fuel _) as [t|] eqn:F; [|reflexivity]. apply dollars_like in F as (r2 & ->).
  - destruct g as [|c g]; [tauto|]. cbn [forallb] in G. apply andb_true_iff in G as [G1 G2].
    assert (DS : forallb (fun c => negb (is_space c)) w = true).
    { clear - D. unfold all_digits in D. induction w as [|d w IH]; [reflexivity|]. cbn [forallb] in *. apply andb_true_iff in D as [D1 D2]. rewrite IH by exact D2.
      rewrite andb_true_r. destruct (is_space d) eqn:S; [|reflexivity]. exfalso.
      clear - D1 S. destruct d as [b0 b1 b2 b3 b4 b5 b6 b7]; destruct b0, b1, b2, b3, b4, b5, b6, b7; vm_compute in D1, S; discriminate. }
    assert (E : words ((w ++ (c :: g) ++ T "lik") ++ r2) = w :: words (T "lik" ++ r2)).
    { rewrite <- !app_assoc. cbn [app]. rewrite words_word_space by assumption. f_equal. rewrite words_app_space_l by exact G2. reflexivity. }
    rewrite E. destruct (words_first "l" (T "ik" ++ r2)) as (v & vs & Ev); [reflexivity|].
    change (T "lik" ++ r2) with ("l"%char :: T "ik" ++ r2). rewrite Ev. cbn [cell_of_words].
    assert (N : py_int ("l"%char :: v) = None) by reflexivity. rewrite N. destruct (py_int w); reflexivity.
  - clear - D G. rewrite !in_app_iff. intros [I|[I|I]].
    + unfold all_digits in D. rewrite forallb_forall in D. apply D in I. discriminate.
    + rewrite forallb_forall in G. apply G in I. discriminate.
    + cbn in I. intuition discriminate.
Qed.
Print Assumptions C98_like.

(** Cards of this kind. *)
Example C98_like_example : read_cell_card 100 (T "3  like 1 but mat=2 imp:n=1") = None /\ read_cell_card 100 (T "3 like 1 but trcl=5 u=2 $ a copy") = None /\
  (exists c, read_cell_card 100 (T "3 0 -1 imp:n=1") = Some c).
Proof.
  split; [|split]; [apply (C98_like 100 (T "3") (T "  ") (T " 1 but mat=2 imp:n=1"))|apply (C98_like 100 (T "3") (T " ") (T " 1 but trcl=5 u=2 $ a copy"))|eexists; vm_compute; reflexivity];
    try reflexivity; discriminate.
Qed.

(** ** The whole program *)

Definition uline (s : String.string) : text := T s ++ [newline].
Definition file98 (a b : String.string) : text :=
  uline "title" ++ uline a ++ uline b ++ uline "" ++ uline "5 so 9" ++ uline "6 px -1" ++ uline "7 px 1" ++ uline "" ++ uline "nps 10".

(** A slab that is repeated without end inside a sphere, and one slab inside the sphere. *)
Definition lattice98 : text := file98 "1 0 -5 fill=2 imp:n=1" "2 0 6 -7 u=2 lat=1 imp:n=1".
Definition single98 : text := file98 "1 0 -5 fill=2 imp:n=1" "2 0 6 -7 u=2 imp:n=1".
(** A cell with an exponential transform, which changes no region. *)
Definition stretched98 : text := file98 "1 0 -5 ext:n=0 imp:n=1" "2 0 5 imp:n=1".

(** C98 is refuted: the lattice is read without an exception, and whatever is written, in every format and mode, is what is written
    for the file with a single slab. *)
Theorem C98_refuted : exists s s', s <> s' /\ (exists p, read_file 100 s = Some p) /\ forall str show nuclides universes quick cs,
  program str show 100 nuclides universes quick cs s = program str show 100 nuclides universes quick cs s'.
Proof.
  exists lattice98, single98. split; [vm_compute; discriminate|]. split; [eexists; vm_compute; reflexivity|]. intros.
  assert (E : read_file 100 lattice98 = read_file 100 single98) by (vm_compute; reflexivity). unfold program, load. now rewrite E.
Qed.
Print Assumptions C98_refuted.

(** An unknown parameter before a known one becomes part of the region: the cell that is written is no cell of MCNP. *)
Theorem C98_region_refuted : exists s p, read_file 100 s = Some p /\ map (fun c => c_text (fst c)) (f_cells p) = [[T "-5"; T "ext"; T ":"; T "n=0"]; [T "5"]] /\
  map (fun c => c_items (fst c)) (f_cells p) = [[Op AND; Str (T "-5"); Op AND; Str (T "ext"); Op UNION; Op AND; Str (T "n=0")]; [Op AND; Str (T "5")]].
Proof. exists stretched98. eexists. split; [vm_compute; reflexivity|]. split; vm_compute; reflexivity. Qed.
Print Assumptions C98_region_refuted.

(* ---------------------------------------------------------------- C53 *)
From Verif Require Import PropKeyword.

Lemma halve_back u : forall x c y, halve u = x ++ c :: y -> c <> blank -> exists u1 u2, u = u1 ++ c :: u2 /\ y = halve u2.
Proof.
  assert (H : forall n u, length u <= n -> forall x c y, halve u = x ++ c :: y -> c <> blank -> exists u1 u2, u = u1 ++ c :: u2 /\ y = halve u2).
  { intro n. induction n as [|n IH]; intros [|a [|b r]] L x c y E N; try (cbn in L; lia); try (now destruct x).
    - destruct x as [|? [|]]; try discriminate E. injection E as <- <-. now exists [], [].
    - cbn [halve length] in *. destruct (Ascii.eqb a blank && Ascii.eqb b blank) eqn:B.
      + destruct x as [|a' x]; [injection E as <- _; now elim N|]. injection E as <- E. apply IH in E as (u1 & u2 & -> & ->); [|lia|exact N]. now exists (a :: b :: u1), u2.
      + destruct x as [|a' x].
        * injection E as <- <-. now exists [], (b :: r).
        * injection E as <- E. apply (IH (b :: r)) in E as (u1 & u2 & EU & ->); [|cbn [length]; lia|exact N]. exists (a :: u1), u2. now rewrite EU. }
  apply (H (length u)). lia.
Qed.
Lemma sp_cons c s : sp (c :: s) = (if Ascii.eqb "=" c then T " = " else [c]) ++ sp s.
Proof. change (c :: s) with ([c] ++ s). rewrite sp_app. f_equal. unfold sp, replace_char. cbn [flat_map]. destruct (Ascii.eqb_spec "=" c) as [<-|N]; [reflexivity|]. cbn [app flat_map]. destruct (Ascii.eqb_spec "=" c); [tauto|reflexivity]. Qed.
Lemma sp_back s : forall u1 c u2, sp s = u1 ++ c :: u2 -> c <> blank -> c <> "="%char -> exists s1 s2, s = s1 ++ c :: s2 /\ u2 = sp s2.
Proof.
  induction s as [|d s IH]; intros u1 c u2 E N1 N2; [now destruct u1|]. rewrite sp_cons in E. destruct (Ascii.eqb "=" d).
  - destruct u1 as [|? [|? [|? u1]]]; try (injection E as <- E; tauto); try (injection E; intros; subst; tauto).
    injection E as _ _ _ E. apply IH in E as (s1 & s2 & -> & ->); [|exact N1|exact N2]. now exists (d :: s1), s2.
  - destruct u1 as [|d' u1]; cbn [app] in E.
    + injection E as <- <-. now exists [], s.
    + injection E as <- E. apply IH in E as (s1 & s2 & -> & ->); [|exact N1|exact N2]. now exists (d :: s1), s2.
Qed.
Lemma head_back s c y : halve (sp s) = c :: y -> c <> blank -> c <> "="%char -> exists s2, s = c :: s2 /\ y = halve (sp s2).
Proof.
  intros E N1 N2. assert (D := halve_hd (sp s)). rewrite E in D. cbn [hd] in D. destruct s as [|d s]; [discriminate E|]. rewrite sp_cons in D, E.
  destruct (Ascii.eqb "=" d); [elim N1; rewrite D; reflexivity|]. cbn [app hd] in *. subst d. rewrite halve_nonblank in E by exact N1. injection E as <-. now exists s.
Qed.

(** C53: a card with the letters imp and without an importance of the neutrons, be it because there is only one of another particle or because there is one for several
    particles together, raises an exception, whatever else it has. *)
Theorem C53_no_neutrons k s : ~ In "$"%char s -> (exists a b, s = a ++ T "imp" ++ b) ->
  (forall a c b, s = a ++ T "imp:n" ++ c :: b -> c <> blank /\ c <> "="%char) -> detect_keywords k s = None.
Proof.
  intros ND (a & b & ES) NO.
  assert (FI : find_sub (T "imp") s <> None) by (rewrite ES; apply find_sub_mid).
  assert (FD : find_sub (T "$") s = None) by (apply find_sub_no; exact ND).
  unfold detect_keywords. assert (C : existsb (fun w => contains w s) cell_keywords = true).
  { cbn [cell_keywords existsb]. unfold contains at 1. destruct (find_sub (T "imp") s); [reflexivity|tauto]. }
  rewrite C, FD. cbn [negb]. cbv zeta. destruct (find_sub (T "imp") s) as [i|]; [|tauto].
  assert (G : forall m, get_keyword_value (T "imp:n") (spacify (skipn m s)) = None).
  { intro m. unfold get_keyword_value. assert (K : kw_search (T "imp:n") (spacify (skipn m s)) = None); [|now rewrite K].
    rewrite spacify_sp. assert (NO' : forall a c b, skipn m s = a ++ T "imp:n" ++ c :: b -> c <> blank /\ c <> "="%char).
    { intros x c y E. apply (NO (firstn m s ++ x) c y). rewrite <- app_assoc, <- E. symmetry. apply firstn_skipn. }
    assert (M : forall x y, halve (sp (skipn m s)) = x ++ y -> kw_match (T "imp:n") (y ++ [blank]) = None).
    { intros x y E. unfold kw_match. destruct (after (T "imp:n") (y ++ [blank])) as [r|] eqn:A; [|reflexivity].
      change (T "imp:n") with ("i"%char :: T "mp:n") in A. destruct y as [|c1 y]; [discriminate A|]. cbn [app after] in A.
      destruct (Ascii.eqb_spec "i" c1) as [<-|]; [|discriminate A]. 
      apply halve_back in E as (u1 & u2 & E & ->); [|discriminate]. apply sp_back in E as (s1 & s2 & E & ->); [|discriminate|discriminate].
      assert (STEP : forall c p z r, c <> blank -> c <> "="%char -> after (c :: p) (halve (sp z) ++ [blank]) = Some r -> exists z', z = c :: z' /\ after p (halve (sp z') ++ [blank]) = Some r).
      { intros c p z r' N1 N2 A'. destruct (halve (sp z)) as [|h t] eqn:H.
        - cbn [app after] in A'. destruct (Ascii.eqb_spec c blank); [tauto|discriminate A'].
        - cbn [app after] in A'. destruct (Ascii.eqb_spec c h) as [<-|]; [|discriminate A']. apply head_back in H as (z' & -> & ->); [|exact N1|exact N2]. now exists z'. }
      change (after (T "mp:n") (halve (sp s2) ++ [blank]) = Some r) in A.
      apply STEP in A as (z1 & -> & A); [|discriminate|discriminate]. apply STEP in A as (z2 & -> & A); [|discriminate|discriminate].
      apply STEP in A as (z3 & -> & A); [|discriminate|discriminate]. apply STEP in A as (z4 & -> & A); [|discriminate|discriminate].
      injection A as <-. destruct z4 as [|d z4]; [reflexivity|]. destruct (NO' s1 d z4 E) as [N1 N2]. rewrite sp_cons.
      destruct (Ascii.eqb_spec "=" d); [congruence|]. cbn [app]. rewrite halve_nonblank by exact N1. cbn [app].
      destruct (Ascii.eqb_spec d blank); [tauto|]. destruct (Ascii.eqb_spec d "="); [tauto|reflexivity]. }
    clear -M. remember (halve (sp (skipn m s))) as t eqn:E. clear E. induction t as [|c t IH].
    - reflexivity.
    - change ((c :: t) ++ [blank]) with (c :: (t ++ [blank])). cbn [kw_search]. assert (M0 := M [] (c :: t) eq_refl). cbn [app] in M0. rewrite M0.
      apply IH. intros x y E. apply (M (c :: x) y). now rewrite E. }
  destruct (find_sub (T "u") s), (match find_sub (T "fill") s with Some n => _ | None => None end), (find_sub (T "vol") s), (find_sub (T "tmp") s);
    (destruct (first_position _) as [m|]; [|reflexivity]); rewrite (G m);
    repeat (match goal with |- match ?o with _ => _ end = None => destruct o; try reflexivity end); reflexivity.
Qed.
Print Assumptions C53_no_neutrons.
Example C53_no_neutrons_example : detect_keywords no_keywords (T "1 0 -1 u=2 imp:p=1") = None /\ detect_keywords no_keywords (T "1 0 -1 imp:n,p=1 vol=3") = None /\
  (exists k s, detect_keywords no_keywords (T "1 0 -1 u=2 imp:p=1 imp:n=3") = Some (k, s)).
Proof.
  split; [|split; [vm_compute; reflexivity|eexists _, _; vm_compute; reflexivity]]. apply C53_no_neutrons.
  - vm_compute. intuition discriminate.
  - exists (T "1 0 -1 u=2 "), (T ":p=1"). reflexivity.
  - intros a c b E. exfalso. assert (F : find_sub (T "imp:n") (T "1 0 -1 u=2 imp:p=1") = None) by (vm_compute; reflexivity).
    rewrite E in F. now apply find_sub_mid in F.
Qed.


(** A number that ends in a dot is read without the dot, so that [u=2.] is the universe 2 (MCNPCellCard.py 198-200). *)
Theorem C53_dot kw v c r : v <> [] -> all_digits v -> is_digit c = false ->
  kw_search kw (kw ++ T " = " ++ v ++ T "." ++ c :: r) = Some (kw ++ T " = " ++ v).
Proof.
  intros VN VD C. apply kw_search_here. unfold kw_match. rewrite after_app. cbn [T list_ascii_of_string app].
  change (" "%char) with blank. rewrite Ascii.eqb_refl. change (Ascii.eqb "=" "=") with true. cbn iota. rewrite Ascii.eqb_refl.
  destruct v as [|v0 v]; [tauto|]. assert (D0 : is_digit v0 = true) by (unfold all_digits in VD; cbn [forallb] in VD; now apply andb_true_iff in VD as [D _]).
  cbn [app]. rewrite (digit_not v0 newline D0) by reflexivity. unfold take_number, lead_sign. rewrite (digit_not v0 "+" D0), (digit_not v0 "-" D0) by reflexivity. cbn [orb].
  change (v0 :: v ++ "."%char :: c :: r) with ((v0 :: v) ++ "."%char :: c :: r). rewrite take_digits_app; [|exact VD|reflexivity]. rewrite Ascii.eqb_refl.
  change (c :: r) with ([] ++ c :: r). rewrite take_digits_app; [|reflexivity|exact C]. cbn [app]. now rewrite app_nil_r.
Qed.
Print Assumptions C53_dot.

Example C53_dot_example : option_map (fun x => (c_items (fst x), k_univ (snd x), k_fill (snd x))) (read_cell_card 100 (T "1 0 -1 u=2. fill=3. imp:n=1.")) =
  Some ([Op AND; Str (T "-1")], Some (T "2"), Some (T "3")).
Proof. vm_compute. reflexivity. Qed.

Lemma spacify_no d s : ~ In d (T "():") -> d <> blank -> ~ In d s -> ~ In d (CellModel.spacify s).
Proof.
  intros D B N I. rewrite CellText.spacify_flat in I. apply in_flat_map in I as (x & IX & I). unfold CellText.sp1 in I.
  repeat match type of I with context [if ?b then _ else _] => destruct b end; cbn [T list_ascii_of_string In] in I, D; fold blank in I; intuition (subst; tauto).
Qed.

(** A comment from a dollar sign to the end of its line is left out of the card, whatever is in it (MCNPCellCard.py 308-312). *)
Theorem C05_comment fuel a c b : ~ In "$"%char a -> ~ In newline c ->
  CellModel.interpret (S fuel) (a ++ T "$" ++ c ++ newline :: b) = CellModel.interpret fuel (a ++ newline :: b).
Proof.
  intros A C. unfold CellModel.interpret. rewrite !CellText.spacify_app. change (CellModel.spacify (T "$")) with (T "$").
  change (CellModel.spacify (newline :: b)) with (newline :: CellModel.spacify b).
  assert (A' := spacify_no "$" a ltac:(cbn; intuition discriminate) ltac:(discriminate) A). assert (C' := spacify_no newline c ltac:(cbn; intuition discriminate) ltac:(discriminate) C).
  revert A' C'. generalize (CellModel.spacify a) (CellModel.spacify b) (CellModel.spacify c). clear. intros a b c A C.
  cbn [drop_dollars T list_ascii_of_string app]. rewrite find_char by exact A. destruct (Z.ltb_spec (Z.of_nat (length a)) 0); [lia|].
  assert (F : find_from newline (a ++ "$"%char :: c ++ newline :: b) (Z.of_nat (length a)) = Z.of_nat (length (a ++ "$"%char :: c))).
  { unfold find_from, slice_from. destruct (Z.ltb_spec (Z.of_nat (length a)) 0); [lia|]. rewrite Nat2Z.id, skipn_app, skipn_all, Nat.sub_diag. cbn [skipn app].
    change ("$"%char :: c ++ newline :: b) with (("$"%char :: c) ++ newline :: b). rewrite find_char by (intros [E|E]; [discriminate E|now apply C]).
    destruct (Z.ltb_spec (Z.of_nat (length ("$"%char :: c))) 0); [lia|]. rewrite app_length. lia. }
  rewrite F. unfold slice_to, slice_from. destruct (Z.ltb_spec (Z.of_nat (length a)) 0); [lia|]. destruct (Z.ltb_spec (Z.of_nat (length (a ++ "$"%char :: c))) 0); [lia|].
  rewrite !Nat2Z.id. rewrite firstn_app, firstn_all, Nat.sub_diag. cbn [firstn]. rewrite app_nil_r.
  change (a ++ "$"%char :: c ++ newline :: b) with (a ++ ("$"%char :: c) ++ newline :: b). rewrite app_assoc, skipn_app, skipn_all, Nat.sub_diag. reflexivity.
Qed.
Print Assumptions C05_comment.
Example C05_comment_example : let nl := [newline] in
  CellModel.interpret 100 (T "1 0 -1 $ (inner) : part" ++ nl ++ T "     2 $ and more" ++ nl ++ T "     3") = CellModel.interpret 98 (T "1 0 -1 " ++ nl ++ T "     2 " ++ nl ++ T "     3") /\
  option_map c_surfs (CellModel.interpret 98 (T "1 0 -1 " ++ nl ++ T "     2 " ++ nl ++ T "     3")) = Some [1; 2; 3]%Z.
Proof. split; vm_compute; reflexivity. Qed.
