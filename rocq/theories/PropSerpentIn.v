(** Reading the materials of a Serpent file (csg2csg/SerpentInput.py 20-104): C74. *)
From Coq Require Import QArith.
From Verif Require Import PyStr PyStrFacts PyDict FortranNumber FortranNumberProofs MaterialModel MaterialProofs MaterialWriters DeckScan PropDeck PropMaterial PropMaterialOut WrapProofs.
Open Scope nat_scope.
Open Scope list_scope.

(** A line of a Serpent file: what it says, and the comment after a percent sign. *)
Definition sline : Type := text * option text.
Definition shown (l : sline) : text := fst l ++ match snd l with Some c => "%"%char :: c | None => [] end.
(** The comment does not touch the word before it. *)
Definition good_line (l : sline) : Prop :=
  ~ In newline (shown l) /\ ~ In "%"%char (fst l) /\
  (snd l <> None -> fst l = [] \/ exists a c, fst l = a ++ [c] /\ is_space c = true).
Definition line_words (l : sline) : list text := words (lower (fst l)).

(** A material: its first line with name, density and options, and the lines with the nuclides. *)
Record smat := mkSM {
  sm_head : sline;
  sm_lines : list sline;
  sm_name : text;
  sm_dens : text;
  sm_opts : list text;
  sm_entries : list entry }.

Definition no_mat (l : sline) : Prop := hd [] (line_words l) <> T "mat".
Definition good_smat (m : smat) : Prop :=
  good_line (sm_head m) /\ Forall good_line (sm_lines m) /\
  (exists a r, forallb (Ascii.eqb blank) a = true /\ lower (fst (sm_head m)) = a ++ T "mat" ++ blank :: r) /\
  line_words (sm_head m) = T "mat" :: sm_name m :: sm_dens m :: sm_opts m /\
  py_float (sm_dens m) <> None /\
  Forall no_mat (sm_lines m) /\ flat_map line_words (sm_lines m) = flat_map entry_words (sm_entries m) /\
  Forall entry_ok (sm_entries m) /\ Forall is_nuclide (sm_entries m) /\ NoDup (nuclides_of (sm_entries m)).

(** What is read for it. *)
Definition smat_read (m : smat) (r : text * Q * dict Q) : Prop :=
  fst (fst r) = sm_name m /\ py_float (sm_dens m) = Some (snd (fst r)) /\ NoDup (keys (snd r)) /\
  forall n, (In n (keys (snd r)) <-> lists n (sm_entries m)) /\
    forall v, dget n (snd r) = Some v -> (v == total (map (listed n) (sm_entries m)))%Q.

(** The line as it is read. *)
Definition as_read (l : sline) : text := lower (shown l) ++ [newline].

Lemma lower_space c : is_space (lower_char c) = is_space c.
Proof. destruct c as [[] [] [] [] [] [] [] []]; reflexivity. Qed.
Lemma lower_percent c : lower_char c = "%"%char -> c = "%"%char.
Proof. destruct c as [[] [] [] [] [] [] [] []]; intro H; try discriminate H; reflexivity. Qed.
Lemma lower_newline c : lower_char c = newline -> c = newline.
Proof. destruct c as [[] [] [] [] [] [] [] []]; intro H; try discriminate H; reflexivity. Qed.
Lemma lower_not_in d s : (forall c, lower_char c = d -> c = d) -> ~ In d s -> ~ In d (lower s).
Proof. intros H N I. apply in_map_iff in I as (c & E & I). apply H in E. now subst c. Qed.
Lemma lower_spaces s : forallb is_space (lower s) = forallb is_space s.
Proof. induction s as [|c s IH]; [reflexivity|]. cbn [lower map forallb]. rewrite lower_space. f_equal. exact IH. Qed.

Lemma first_seen s : forallb is_space s = true \/ exists a c b, s = a ++ c :: b /\ forallb is_space a = true /\ is_space c = false.
Proof.
  induction s as [|c s IH]; [now left|]. cbn [forallb]. destruct (is_space c) eqn:S.
  - destruct IH as [IH|(a & d & b & E & A & D)]; [now left|right]. exists (c :: a), d, b. rewrite E. split; [reflexivity|]. cbn [forallb]. now rewrite S.
  - right. now exists [], c, s.
Qed.
Lemma lstrip_skip a s : forallb is_space a = true -> lstrip (a ++ s) = lstrip s.
Proof. induction a as [|c a IH]; intro H; [reflexivity|]. cbn [forallb] in H. apply andb_prop in H as [H1 H2]. cbn [app lstrip]. rewrite H1. now apply IH. Qed.
Lemma strip_skip a c b : forallb is_space a = true -> is_space c = false -> exists r, strip (a ++ c :: b) = c :: r.
Proof. intros A C. unfold strip. rewrite lstrip_skip by exact A. apply (strip_first c b C). Qed.

Lemma as_read_eq l : as_read l = lower (fst l) ++ match snd l with Some c => "%"%char :: lower c | None => [] end ++ [newline].
Proof. unfold as_read, shown. rewrite lower_app, <- app_assoc. destruct (snd l); reflexivity. Qed.

(** The lines that are left out are those that say nothing. *)
Lemma skips_iff l : good_line l -> serpent_skips (as_read l) = match line_words l with [] => true | _ => false end.
Proof.
  intros (NL & NP & _). rewrite as_read_eq. unfold line_words, serpent_skips.
  destruct (first_seen (lower (fst l))) as [S|(a & c & b & E & A & C)].
  - rewrite (proj2 (words_nil_inv _) S). destruct (snd l) as [x|].
    + cbn [app]. destruct (strip_skip (lower (fst l)) "%" (lower x ++ [newline]) S eq_refl) as (r & ->). apply orb_true_r.
    + cbn [app]. unfold isspace. rewrite forallb_app, S. cbn [forallb andb]. destruct (lower (fst l)); reflexivity.
  - rewrite E, <- app_assoc. cbn [app]. destruct (strip_skip a c (b ++ match snd l with Some c => "%"%char :: lower c | None => [] end ++ [newline]) A C) as (r & ->).
    assert (CP : c <> "%"%char).
    { intros ->. apply (lower_not_in _ _ lower_percent NP). rewrite E. apply in_elt. }
    assert (W : words (a ++ c :: b) <> []).
    { intro W. apply words_nil_inv in W. rewrite forallb_app in W. cbn [forallb] in W. rewrite C in W. now rewrite andb_false_r in W. }
    destruct (words (a ++ c :: b)); [tauto|]. unfold isspace. rewrite forallb_app. cbn [forallb]. rewrite C. rewrite andb_false_r.
    destruct (Ascii.eqb_spec c "%"); [tauto|]. rewrite orb_false_r. destruct a; reflexivity.
Qed.

Lemma words_space_end a c b : is_space c = true -> words ((a ++ [c]) ++ b) = words (a ++ [c]) ++ words b.
Proof. intro S. rewrite <- app_assoc. cbn [app]. rewrite (words_app_space a c b), (words_app_space a c []) by exact S. now rewrite app_nil_r. Qed.

(** The words of a line that has a comment begin with those of the code. *)
Lemma as_read_words l : good_line l -> exists r, words (as_read l) = line_words l ++ r.
Proof.
  intros (_ & _ & CM). rewrite as_read_eq. unfold line_words. destruct (snd l) as [x|].
  - destruct (CM ltac:(discriminate)) as [E|(a & c & E & S)].
    + rewrite E. now eexists.
    + rewrite E. rewrite lower_app. change (lower [c]) with [lower_char c]. rewrite (words_space_end (lower a)) by (rewrite lower_space; exact S). now eexists.
  - cbn [app]. exists []. rewrite (words_app_space _ newline []) by reflexivity. reflexivity.
Qed.

Lemma find_first d a b : ~ In d a -> find d (a ++ d :: b) = Z.of_nat (length a).
Proof.
  induction a as [|x a IH]; intro N; cbn [app find length].
  - now rewrite Ascii.eqb_refl.
  - cbn [In] in N. destruct (Ascii.eqb_spec d x) as [E|E]; [subst; tauto|]. rewrite IH by tauto. cbv zeta.
    destruct (Z.ltb_spec (Z.of_nat (length a)) 0); lia.
Qed.
Lemma slice_to_find d a b : ~ In d a -> slice_to (a ++ d :: b) (find d (a ++ d :: b)) = a.
Proof.
  intro N. rewrite find_first by exact N. unfold slice_to. destruct (Z.ltb_spec (Z.of_nat (length a)) 0); [lia|]. rewrite Nat2Z.id.
  rewrite firstn_app, Nat.sub_diag, firstn_all. cbn [firstn]. apply app_nil_r.
Qed.

Lemma cut_read l : good_line l -> cut_percent (as_read l) = lower (fst l) ++ match snd l with Some _ => [] | None => [newline] end.
Proof.
  intros (_ & NP & _). assert (N := lower_not_in _ _ lower_percent NP). rewrite as_read_eq. unfold cut_percent. destruct (snd l) as [x|].
  - cbn [app]. assert (E : existsb (Ascii.eqb "%") (lower (fst l) ++ "%"%char :: lower x ++ [newline]) = true).
    { apply existsb_exists. exists "%"%char. split; [apply in_elt|reflexivity]. }
    rewrite E. rewrite slice_to_find by exact N. now rewrite app_nil_r.
  - cbn [app]. destruct (existsb _ _) eqn:E; [|reflexivity]. apply existsb_exists in E as (c & I & C). apply Ascii.eqb_eq in C. subst c.
    apply in_app_iff in I as [I|[I|[]]]; [tauto|discriminate].
Qed.

(** The text that is put together has the words of the lines. *)
Lemma cut_words l s : good_line l ->
  words (replace_char newline [blank] (cut_percent (as_read l) ++ s)) = line_words l ++ words (replace_char newline [blank] s).
Proof.
  intro G. rewrite (cut_read l G). destruct G as (NL & NP & CM). unfold line_words. rewrite !replace_char_app.
  rewrite replace_none.
  2:{ apply lower_not_in; [exact lower_newline|]. intro I. apply NL. unfold shown. apply in_app_iff. now left. }
  destruct (snd l) as [x|].
  - destruct (CM ltac:(discriminate)) as [E|(a & c & E & S)].
    + rewrite E. reflexivity.
    + rewrite E, lower_app. change (lower [c]) with [lower_char c]. change (replace_char newline [blank] []) with (@nil ascii). rewrite app_nil_r. apply words_space_end. rewrite lower_space. exact S.
  - change (replace_char newline [blank] [newline]) with [blank]. rewrite <- app_assoc. cbn [app]. now apply words_app_space.
Qed.

Definition says (l : sline) : bool := match line_words l with [] => false | _ => true end.
Lemma lines_kept L : Forall good_line L -> serpent_lines (map as_read L) = map as_read (filter says L).
Proof.
  intro F. induction F as [|l L G F IH]; [reflexivity|]. unfold serpent_lines in *. cbn [map filter]. rewrite (skips_iff l G). unfold says at 1.
  destruct (line_words l); cbn [negb map]; now rewrite IH.
Qed.
Lemma says_words L : flat_map line_words (filter says L) = flat_map line_words L.
Proof. induction L as [|l L IH]; [reflexivity|]. cbn [filter flat_map]. unfold says at 1. destruct (line_words l) eqn:W; cbn [flat_map app]; rewrite IH, ?W; reflexivity. Qed.

Lemma mat_line_words x : is_mat_line x = true -> hd [] (words x) = T "mat".
Proof.
  induction x as [|c x IH]; intro H; [discriminate|]. cbn [is_mat_line] in H. apply orb_prop in H as [H|H].
  - destruct (text_eqb_spec (firstn 4 (c :: x)) (T "mat ")) as [E|]; [|discriminate].
    rewrite <- (firstn_skipn 4 (c :: x)), E. change (T "mat " ++ skipn 4 (c :: x)) with (T "mat" ++ blank :: skipn 4 (c :: x)).
    now rewrite words_app_space by reflexivity.
  - apply andb_prop in H as [H1 H2]. apply Ascii.eqb_eq in H1. subst c. rewrite words_cons_space by reflexivity. now apply IH.
Qed.
Lemma mat_line_blanks a r : forallb (Ascii.eqb blank) a = true -> is_mat_line (a ++ T "mat" ++ blank :: r) = true.
Proof.
  induction a as [|c a IH]; intro H; [reflexivity|]. cbn [forallb] in H. apply andb_prop in H as [H1 H2]. apply Ascii.eqb_eq in H1. subst c.
  cbn [app is_mat_line]. rewrite IH by exact H2. rewrite Ascii.eqb_refl. apply orb_true_r.
Qed.

Lemma no_mat_line l : good_line l -> says l = true -> no_mat l -> is_mat_line (as_read l) = false.
Proof.
  intros G S N. destruct (is_mat_line (as_read l)) eqn:E; [|reflexivity]. exfalso. apply mat_line_words in E.
  destruct (as_read_words l G) as (r & W). unfold no_mat, says in *. rewrite W in E. destruct (line_words l); [discriminate|]. now apply N.
Qed.

Lemma cards_skip L rest : Forall good_line L -> Forall no_mat L -> serpent_cards (map as_read (filter says L) ++ rest) = serpent_cards rest.
Proof.
  intros F N. induction F as [|l L G F IH]; [reflexivity|]. inversion N as [|? ? N1 N2]. subst. cbn [filter]. destruct (says l) eqn:S; [|now apply IH].
  cbn [map app serpent_cards]. rewrite (no_mat_line l G S N1). now apply IH.
Qed.

Lemma text_read L rest : Forall good_line L -> Forall no_mat L ->
  (rest = [] \/ exists x r, rest = x :: r /\ hd [] (words x) = T "mat") ->
  exists t, serpent_text (map as_read (filter says L) ++ rest) = Some t /\ words (replace_char newline [blank] t) = flat_map line_words L.
Proof.
  intros F N R. induction F as [|l L G F IH].
  - cbn [filter map app flat_map]. exists []. split; [|reflexivity]. destruct R as [->|(x & r & -> & W)]; [reflexivity|]. cbn [serpent_text].
    destruct (words x) as [|w ws]; [discriminate|]. cbn [hd] in W. rewrite W. reflexivity.
  - inversion N as [|? ? N1 N2]. subst. destruct (IH N2) as (t & E & W). cbn [filter flat_map]. destruct (says l) eqn:S.
    + cbn [map app serpent_text]. destruct (as_read_words l G) as (r & WR). rewrite WR. unfold no_mat in N1. unfold says in S.
      destruct (line_words l) as [|w ws] eqn:LW; [discriminate|]. cbn [app hd] in *. destruct (text_eqb_spec w (T "mat")); [tauto|]. rewrite E. cbn [option_map].
      eexists. split; [reflexivity|]. rewrite cut_words by exact G. now rewrite LW, W.
    + unfold says in S. destruct (line_words l); [|discriminate]. now exists t.
Qed.

Definition all_lines (ms : list smat) : list sline := flat_map (fun m => sm_head m :: sm_lines m) ms.

Lemma smats_read ms : Forall good_smat ms ->
  exists rs, serpent_cards (map as_read (filter says (all_lines ms))) = Some rs /\ Forall2 smat_read ms rs.
Proof.
  intro F. induction F as [|m ms G F (rs & E & R)]; [now exists []|].
  destruct G as (GH & GL & (a & r & A & HD) & WH & D & NM & WL & EO & EN & ND). unfold all_lines. cbn [flat_map filter app]. fold (all_lines ms).
  assert (S : says (sm_head m) = true) by (unfold says; now rewrite WH). rewrite S. cbn [map serpent_cards].
  assert (ML : is_mat_line (as_read (sm_head m)) = true).
  { rewrite as_read_eq, HD, <- !app_assoc. apply (mat_line_blanks a _ A). }
  rewrite ML. rewrite filter_app, map_app. rewrite cards_skip by assumption. rewrite E.
  destruct (text_read (sm_lines m) (map as_read (filter says (all_lines ms))) GL NM) as (t & TX & TW).
  { destruct F as [|m2 ms2 G2 F2]; [now left|right]. destruct G2 as (GH2 & _ & _ & WH2 & _). unfold all_lines. cbn [flat_map filter app].
    assert (S2 : says (sm_head m2) = true) by (unfold says; now rewrite WH2). rewrite S2. cbn [map]. do 2 eexists. split; [reflexivity|].
    destruct (as_read_words _ GH2) as (r2 & ->). now rewrite WH2. }
  unfold serpent_card. destruct (as_read_words _ GH) as (r1 & ->). rewrite WH. cbn [app]. rewrite TX.
  destruct (py_float (sm_dens m)) as [q|] eqn:Q; [|tauto].
  destruct (C37_serpent_sums_partial (T " " ++ t) (sm_entries m)) as (c & x & SC & NK & H); [|assumption..|].
  { rewrite replace_char_app. change (replace_char newline [blank] (T " ")) with (T " "). rewrite words_app_space_l by reflexivity. now rewrite TW. }
  rewrite SC. eexists. split; [reflexivity|]. constructor; [|exact R]. unfold smat_read. cbn [fst snd]. split; [reflexivity|]. split; [exact Q|]. split; [exact NK|exact H].
Qed.

(** C74: the materials of a Serpent file are read with their names, densities, nuclides and fractions, whatever the comments,
    blank lines and the places where lines are broken.  Missing for the full statement: see the theorems below. *)
Theorem C74_serpent_input_partial pre ms : Forall good_line pre -> Forall no_mat pre -> Forall good_smat ms ->
  exists rs, read_serpent (with_ends (map shown (pre ++ all_lines ms))) = Some rs /\ Forall2 smat_read ms rs.
Proof.
  intros GP NP F. destruct (smats_read ms F) as (rs & E & R). exists rs. split; [|exact R].
  assert (GA : Forall good_line (all_lines ms)).
  { unfold all_lines. apply Forall_flat_map. apply (Forall_impl _) with (2 := F). intros m (A & B & _). now constructor. }
  assert (G : Forall good_line (pre ++ all_lines ms)) by now apply Forall_app.
  unfold read_serpent, read_lines, with_ends. rewrite readlines_lines.
  2:{ apply Forall_map. apply (Forall_impl _) with (2 := G). now intros l (N & _). }
  assert (M : map lower (map (fun x => x ++ [newline]) (map shown (pre ++ all_lines ms))) = map as_read (pre ++ all_lines ms)).
  { rewrite !map_map. apply map_ext. intro l. apply lower_app. }
  rewrite M, lines_kept by exact G. rewrite filter_app, map_app, cards_skip by assumption. exact E.
Qed.
Print Assumptions C74_serpent_input_partial.

Definition fuel_lines : list sline :=
  [(T "92235.09c 0.04 ", Some (T " enriched")); (T "  ", None); ([], Some (T " the rest")); (T "92238.09c", None); (T "   0.96 8016.09c 2.0-0", None)].
Definition fuel_mat : smat :=
  mkSM (T "  mat UO2 -10.2 rgb 1 2 3 ", Some (T " fuel")) fuel_lines (T "uo2") (T "-10.2") [T "rgb"; T "1"; T "2"; T "3"]
    [Nuclide (T "92235.09c") (T "0.04"); Nuclide (T "92238.09c") (T "0.96"); Nuclide (T "8016.09c") (T "2.0-0")].
Example C74_example : Forall good_line [(T "set title a", None)] /\ Forall no_mat [(T "set title a", None)] /\ Forall good_smat [fuel_mat] /\
  exists d, read_serpent (with_ends (map shown ((T "set title a", None) :: all_lines [fuel_mat]))) = Some [(T "uo2", d, [(T "92235", 4 # 100); (T "92238", 96 # 100); (T "8016", 20 # 10)]%Q)].
Proof.
  assert (GL : forall a o, ~ In newline (shown (a, o)) -> ~ In "%"%char a -> (o <> None -> a = [] \/ is_space (last a "a"%char) = true) -> good_line (a, o)).
  { intros a o A B C. split; [exact A|]. split; [exact B|]. cbn [fst snd]. intro N. destruct (C N) as [E|E]; [now left|right].
    destruct a as [|x a] using rev_ind; [discriminate|]. exists a, x. split; [reflexivity|]. now rewrite last_last in E. }
  split; [|split; [|split]].
  - constructor; [|constructor]. apply GL; [vm_compute; intuition discriminate|vm_compute; intuition discriminate|intro H; now elim H].
  - constructor; [|constructor]. vm_compute. discriminate.
  - constructor; [|constructor]. unfold good_smat. cbn [fuel_mat sm_head sm_lines sm_name sm_dens sm_opts sm_entries].
    split; [apply GL; [vm_compute; intuition discriminate|vm_compute; intuition discriminate|now right]|].
    split; [repeat apply Forall_cons; try apply Forall_nil; (apply GL; [vm_compute; intuition discriminate|vm_compute; intuition discriminate|try (now right); try (now left); intro H; now elim H])|].
    split; [exists (T "  "), (T "uo2 -10.2 rgb 1 2 3 "); split; reflexivity|].
    split; [vm_compute; reflexivity|]. split; [vm_compute; discriminate|].
    split; [repeat apply Forall_cons; try apply Forall_nil; vm_compute; discriminate|]. split; [vm_compute; reflexivity|].
    split; [|split].
    + assert (H : forall w n, no_eq w -> no_eq n -> get_fortran_formatted_number n <> None -> entry_ok (Nuclide w n)) by (intros; split; [|split]; assumption).
      repeat apply Forall_cons; try apply Forall_nil; (apply H; [apply no_eq_test; vm_compute; reflexivity|apply no_eq_test; vm_compute; reflexivity|vm_compute; discriminate]).
    + repeat constructor.
    + vm_compute. repeat constructor; cbn; intuition discriminate.
  - eexists. vm_compute. reflexivity.
Qed.

(** A comment that touches the last word of a line: the next line is glued to that word, and nuclides and fractions get mixed up. *)
Theorem C74_comment_refuted : exists a b d c, 
  read_serpent (with_ends [T "mat w -1.0"; a; b; d]) = Some [(T "w", -10 # 10, [(T "1001", 2 # 1); (T "8016", 1 # 1); (T "6012", 3 # 1)])%Q] /\
  read_serpent (with_ends [T "mat w -1.0"; a ++ "%"%char :: c; b ++ "%"%char :: c; d]) = Some [(T "w", -10 # 10, [(T "1001", 28016 # 1); (T "16012", 3 # 1)])%Q].
Proof. exists (T "1001 2"), (T "8016 1"), (T "6012 3"), (T " comment"). split; vm_compute; reflexivity. Qed.
Print Assumptions C74_comment_refuted.

(** Any other card after a material is read as nuclides of it. *)
Theorem C74_other_card_refuted : exists mat other c d,
  read_serpent (with_ends mat) = Some [(T "w", -10 # 10, c)%Q] /\ read_serpent (with_ends (mat ++ [other])) = Some [(T "w", -10 # 10, d)%Q] /\
  hd [] (words other) = T "surf" /\ keys c = [T "1001"; T "8016"] /\ keys d = [T "1001"; T "8016"; T "surf"; T "pz"].
Proof.
  exists [T "mat w -1.0"; T "1001 2"; T "8016 1"], (T "surf 1 pz 5"). do 2 eexists.
  split; [vm_compute; reflexivity|]. split; [vm_compute; reflexivity|]. vm_compute. now repeat split.
Qed.
Print Assumptions C74_other_card_refuted.

(** The density sum, by which Serpent takes the density from the nuclides, is an error. *)
Theorem C74_sum_refuted : exists lines, read_serpent (with_ends (T "mat w sum" :: lines)) = None /\ read_serpent (with_ends (T "mat w -1.0" :: lines)) <> None.
Proof. exists [T "1001 2"; T "8016 1"]. split; vm_compute; [reflexivity|discriminate]. Qed.
Print Assumptions C74_sum_refuted.
