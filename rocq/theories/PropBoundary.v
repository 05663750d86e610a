(** Properties of importances, boundary conditions and bounding coordinates: C38 to C41. *)
From Coq Require Import QArith Reals Lra Psatz.
From Verif Require Import PyStr PyStrFacts FortranNumber FortranNumberProofs PyInt PyIntFacts CellModel CellProofs CellText SurfModel GeomSpec SurfSpec
  FlattenModel FlattenProofs NotsModel NamesModel BoundaryModel.
Open Scope nat_scope.
Open Scope list_scope.

(* ------------------------------------------------------------------ *)
(** ** C38 *)

(** An importance card: values, each with an optional repeat count. *)
Definition entry := (text * option nat)%type.
Definition entry_ok (e : entry) : Prop :=
  fst e <> [] /\ nonspace (fst e) /\ has "r" (fst e) = false /\ snd e <> Some 0.
Definition entry_words (e : entry) : list text :=
  match snd e with
  | None => [fst e]
  | Some n => [fst e; str_N (N.of_nat n) ++ T "r"]
  end.
Definition card_text (l : list entry) : text := join_sp (flat_map entry_words l).

(** The MCNP manual: nR repeats the value before n times more. *)
Definition entry_means (e : entry) : list text :=
  match snd e with None => [fst e] | Some n => fst e :: repeat (fst e) n end.

(** What the code makes of it. *)
Definition entry_gives (e : entry) : list text :=
  match snd e with None => [fst e] | Some n => fst e :: repeat (fst e) (n - 1) end.

Lemma words_join_sp l : words (join_sp l) = flat_map words l.
Proof.
  induction l as [|w [|v l] IH]; [reflexivity|cbn; now rewrite app_nil_r|].
  change (join_sp (w :: v :: l)) with (w ++ blank :: join_sp (v :: l)).
  rewrite words_app_space by reflexivity. rewrite IH. reflexivity.
Qed.

Lemma flat_words_id l : Forall (fun w => w <> [] /\ nonspace w) l -> flat_map words l = l.
Proof.
  induction 1 as [|w l [N S] F IH]; [reflexivity|]. cbn [flat_map]. rewrite IH, words_single by assumption. reflexivity.
Qed.

Lemma str_N_nonspace n : str_N n <> [] /\ nonspace (str_N n) /\ has "r" (str_N n) = false.
Proof.
  destruct (str_N_ok n) as (N & D & _). split; [exact N|]. unfold all_digits in D.
  assert (G : forall l, forallb is_digit l = true -> nonspace l /\ has "r" l = false).
  { clear. induction l as [|c l IH]; intro H; [split; [reflexivity|reflexivity]|].
    cbn [forallb] in H. apply andb_prop in H as [H1 H2]. destruct (IH H2) as [A B]. split.
    - unfold nonspace in *. cbn [forallb]. rewrite A, andb_true_r. unfold is_digit in H1. unfold is_space. lia.
    - unfold has in *. cbn [existsb]. rewrite B, orb_false_r. destruct (Ascii.eqb_spec "r" c) as [E|E]; [|reflexivity].
      subst c. discriminate. }
  now apply G.
Qed.

Lemma entry_words_ok e : entry_ok e -> Forall (fun w => w <> [] /\ nonspace w) (entry_words e).
Proof.
  intros (N & S & _ & _). unfold entry_words. destruct (snd e) as [n|]; repeat (apply Forall_cons; [|]); auto.
  destruct (str_N_nonspace (N.of_nat n)) as (A & B & _). split.
  - intro E. apply app_eq_nil in E as [E _]. congruence.
  - unfold nonspace in *. rewrite forallb_app, B. reflexivity.
Qed.

Lemma card_words l : Forall entry_ok l -> words (card_text l) = flat_map entry_words l.
Proof.
  intro F. unfold card_text. rewrite words_join_sp. apply flat_words_id. apply Forall_flat_map.
  apply (Forall_impl _) with (2 := F). intros e. apply entry_words_ok.
Qed.

Lemma replace_none c s : has c s = false -> replace_char c [] s = s.
Proof.
  unfold has, replace_char. induction s as [|d s IH]; intro H; [reflexivity|]. cbn [existsb] in H. apply orb_false_iff in H as [A B].
  cbn [flat_map]. rewrite A, IH by assumption. reflexivity.
Qed.

Lemma has_app c a b : has c (a ++ b) = has c a || has c b.
Proof. apply existsb_app. Qed.

Lemma expand_loop_entries l : Forall entry_ok l -> forall prev,
  exists o, expand_loop prev (flat_map entry_words l) = Some o /\ flat_map words o = flat_map entry_gives l.
Proof.
  induction 1 as [|[v [n|]] l (N & S & R & Z0) F IH]; intro prev; cbn [flat_map].
  - exists []. split; reflexivity.
  - change (entry_words (v, Some n)) with [v; str_N (N.of_nat n) ++ T "r"]. change (entry_gives (v, Some n)) with (v :: repeat v (n - 1)).
    cbn [fst snd app] in *. cbn [expand_loop]. rewrite R.
    destruct (str_N_nonspace (N.of_nat n)) as (A & B & C).
    assert (HR : has "r" (str_N (N.of_nat n) ++ T "r") = true) by (rewrite has_app, C; reflexivity). rewrite HR.
    assert (E : replace_char "r" [] (str_N (N.of_nat n) ++ T "r") = str_N (N.of_nat n)).
    { unfold replace_char. rewrite flat_map_app. fold (replace_char "r" [] (str_N (N.of_nat n))). rewrite replace_none by assumption.
      cbn. apply app_nil_r. }
    rewrite E. destruct (str_N_ok (N.of_nat n)) as (_ & D & V). rewrite py_int_digits by assumption. rewrite V.
    destruct (IH (join_sp (repeat v (Z.to_nat (Z.of_N (N.of_nat n) - 1))))) as (o & Eo & Wo).
    rewrite Eo. eexists. split; [reflexivity|]. cbn [flat_map]. rewrite Wo, words_single, words_join_sp by assumption.
    cbn [app]. do 2 f_equal. replace (Z.to_nat (Z.of_N (N.of_nat n) - 1)) with (n - 1) by lia.
    apply flat_words_id. apply Forall_forall. intros x I. apply repeat_spec in I. subst x. auto.
  - change (entry_words (v, None)) with [v]. change (entry_gives (v, None)) with [v].
    cbn [fst snd app] in *. cbn [expand_loop]. rewrite R.
    destruct (IH v) as (o & Eo & Wo). rewrite Eo. eexists. split; [reflexivity|]. cbn [flat_map]. rewrite Wo, words_single by assumption. reflexivity.
Qed.

(** What a card with repeats becomes, whatever its entries: one value too few for each repeat. *)
Theorem C38_repeats_lose_one l : Forall entry_ok l ->
  exists t, expand (card_text l) = Some t /\ words t = flat_map entry_gives l /\
    length (words t) + length (filter (fun e => match snd e with Some _ => true | None => false end) l) =
      length (flat_map entry_means l).
Proof.
  intro F. unfold expand. rewrite card_words by assumption.
  destruct (expand_loop_entries l F (last (flat_map entry_words l) [])) as (o & Eo & Wo). rewrite Eo.
  exists (join_sp o). split; [reflexivity|]. rewrite words_join_sp, Wo. split; [reflexivity|].
  clear - F. induction F as [|[v [n|]] l (_ & _ & _ & Z0) F IH]; [reflexivity| |]; cbn [flat_map filter snd].
  - change (entry_gives (v, Some n)) with (v :: repeat v (n - 1)). change (entry_means (v, Some n)) with (v :: repeat v n).
    cbn [snd] in Z0. rewrite !app_length. cbn [length]. rewrite !repeat_length. destruct n; [congruence|]. lia.
  - change (entry_gives (v, None)) with [v]. change (entry_means (v, None)) with [v]. rewrite !app_length. cbn [length]. lia.
Qed.
Print Assumptions C38_repeats_lose_one.

(** Without repeats the k-th entry is the importance of the k-th cell, and the cells after the last entry keep
    theirs.  Missing: repeats, see [C38_repeat_refuted]. *)
Theorem C38_plain_card_partial rest l cells qs :
  Forall entry_ok l -> (forall e, In e l -> snd e = None /\ has "i" (fst e) = false) -> Forall2 (fun e q => py_float (fst e) = Some q) l qs ->
  length l <= length cells ->
  exists d cells', process_importances ((NEUTRON, card_text l) :: rest) = Some d /\ apply_importances d cells = Some cells' /\
    map fst cells' = map fst cells /\
    (forall k e q, nth_error l k = Some e -> nth_error qs k = Some q -> option_map snd (nth_error cells' k) = Some q) /\
    (forall k, length l <= k -> nth_error cells' k = nth_error cells k).
Proof.
  intros F P Q L.
  assert (W : flat_map entry_words l = map fst l).
  { clear - P. induction l as [|[v o] l IH]; [reflexivity|]. cbn [flat_map map fst]. rewrite IH by (intros e I; apply P; now right).
    destruct (P (v, o) (or_introl eq_refl)) as [H _]. cbn in H. subst o. reflexivity. }
  assert (NO : forall c, (c = "r" \/ c = "i")%char -> has c (card_text l) = false).
  { intros c Hc. unfold card_text. rewrite W. clear - F P Hc.
    assert (G : forall e, In e l -> has c (fst e) = false).
    { intros e I. destruct Hc; subst c; [|apply P; assumption]. apply (proj1 (Forall_forall _ _) F) in I. apply I. }
    clear - G Hc. induction l as [|e [|e' l] IH]; [destruct Hc; subst; reflexivity|apply G; now left|].
    cbn [map]. change (join_sp (fst e :: fst e' :: map fst l)) with (fst e ++ blank :: join_sp (fst e' :: map fst l)).
    rewrite has_app, G by now left. change (has c (blank :: join_sp (fst e' :: map fst l)) = false).
    unfold has. cbn [existsb]. change (existsb (Ascii.eqb c) (join_sp (fst e' :: map fst l))) with (has c (join_sp (map fst (e' :: l)))).
    rewrite IH by (intros x I; apply G; now right). destruct Hc; subst; reflexivity. }
  exists ((NEUTRON, card_text l) :: rest). cbn [process_importances]. rewrite !NO by auto. cbn [negb andb].
  unfold apply_importances. cbn [neutrons]. rewrite card_words, W by assumption.
  clear - Q L. revert cells L. induction Q as [|e q l qs H Q IH]; intros cells L; cbn [map set_importances].
  - exists cells. repeat split; auto. intros [|k] e q; discriminate.
  - destruct cells as [|[c q0] cells]; [cbn in L; lia|]. rewrite H.
    destruct (IH cells) as (cells' & _ & E & M & A & B); [cbn in L; lia|]. rewrite E. exists ((c, q) :: cells').
    split; [reflexivity|]. split; [reflexivity|]. split; [cbn [map fst]; now rewrite M|]. split.
    + intros [|k] e' q' E1 E2; cbn in *; [congruence|]. now apply (A k e').
    + intros [|k] K; cbn in *; [lia|]. apply B. lia.
Qed.
Print Assumptions C38_plain_card_partial.

(** "1 2r 0" is for four cells; the last gets no importance and the third that of the fourth. *)
Theorem C38_repeat_refuted : exists t ws, process_importances [(NEUTRON, T "1 2r 0")] = Some [(NEUTRON, t)] /\ words t = ws /\
  ws = [T "1"; T "1"; T "0"] /\ flat_map entry_means [(T "1", Some 2); (T "0", None)] = [T "1"; T "1"; T "1"; T "0"].
Proof. eexists _, _. split; [vm_compute; reflexivity|]. repeat split; vm_compute; reflexivity. Qed.
Print Assumptions C38_repeat_refuted.

(** A photon card without repeats before the neutron card stops the expansion, and reading "2r" as a number fails. *)
Theorem C38_second_card_refuted : exists d cells, process_importances [(PHOTON, T "1 1 1 0"); (NEUTRON, T "1 2r 0")] = Some d /\
  length cells = 4 /\ apply_importances d cells = None.
Proof.
  exists [(PHOTON, T "1 1 1 0"); (NEUTRON, T "1 2r 0")], (repeat (Cell 1 0 0%Q [] [] [], 1%Q) 4).
  repeat split; vm_compute; reflexivity.
Qed.
Print Assumptions C38_second_card_refuted.

(** A card with intervals or repeats does not end the loop: the first card with neither is reached, the cards before it
    are expanded, and those from it on are as they were. *)
Theorem C38_cards_in_order pre post d : Forall (fun e => In "i"%char (snd e) \/ In "r"%char (snd e)) pre ->
  match post with [] => True | e :: _ => ~ In "i"%char (snd e) /\ ~ In "r"%char (snd e) end ->
  process_importances (pre ++ post) = Some d <->
  exists pre', d = pre' ++ post /\ Forall2 (fun e e' => fst e' = fst e /\ expand (snd e) = Some (snd e')) pre pre'.
Proof.
  assert (HI : forall c s, has c s = true <-> In c s).
  { intros c s. unfold has. rewrite existsb_exists. split; [intros (x & I & E); apply Ascii.eqb_eq in E as ->; exact I|intro I; exists c; split; [exact I|apply Ascii.eqb_refl]]. }
  intros F P. revert d. induction F as [|[p t] pre H F IH]; intro d; cbn [app process_importances].
  - assert (E : process_importances post = Some post).
    { destruct post as [|[p t] post]; [reflexivity|]. cbn [snd] in P. cbn [process_importances]. destruct P as [P1 P2].
      assert (E1 : has "i" t = false) by (apply not_true_iff_false; rewrite HI; exact P1). assert (E2 : has "r" t = false) by (apply not_true_iff_false; rewrite HI; exact P2).
      rewrite E1, E2. reflexivity. }
    rewrite E. split; [injection 1 as <-; exists []; split; [reflexivity|constructor]|]. intros (pre' & -> & F2). inversion F2; subst. reflexivity.
  - cbn [snd] in H. assert (E : negb (has "i" t) && negb (has "r" t) = false).
    { apply andb_false_iff. destruct H as [H|H]; apply HI in H; rewrite H; auto. }
    rewrite E. split.
    + destruct (expand t) as [t'|] eqn:ET; [|discriminate]. destruct (process_importances (pre ++ post)) as [r'|]; [|discriminate]. injection 1 as <-.
      destruct (proj1 (IH r') eq_refl) as (pre' & -> & F2). exists ((p, t') :: pre'). split; [reflexivity|]. constructor; [split; [reflexivity|exact ET]|exact F2].
    + intros (pre' & -> & F2). inversion F2 as [|? [p' t'] ? l' [E1 E2] F3]; subst. cbn [fst snd] in E1, E2. subst p'. rewrite E2.
      rewrite (proj2 (IH (l' ++ post))); [reflexivity|]. now exists l'.
Qed.
Print Assumptions C38_cards_in_order.
Example C38_order_example : process_importances [(PHOTON, T "1 2i 4"); (NEUTRON, T "1 2r 0"); (ELECTRON, T "1 1  0")] =
  Some [(PHOTON, T "1 2i 4"); (NEUTRON, T "1 1 0"); (ELECTRON, T "1 1  0")].
Proof. vm_compute. reflexivity. Qed.

(** C38 is false of intervals: they are left in the text, and the entry is no number when the cells get their values. *)
Theorem C38_interval_refuted : exists t, process_importances [(NEUTRON, T "1 2i 4")] = Some [(NEUTRON, t)] /\
  forall cells, 2 <= length cells -> set_importances (words t) cells = None.
Proof.
  exists (T "1 2i 4"). split; [vm_compute; reflexivity|]. intros [|[c1 q1] [|[c2 q2] cells]] H; cbn [length] in H; try lia.
  set (w := words _). vm_compute in w. subst w. cbn [set_importances]. destruct (py_float [_]); [|reflexivity].
  match goal with |- context [py_float ?x] => assert (E : py_float x = None) by (vm_compute; reflexivity) end. now rewrite E.
Qed.
Print Assumptions C38_interval_refuted.

Example C38_example : card_text [(T "1", Some 2); (T "0.5", None)] = T "1 2r 0.5" /\ expand (T "1 2r 0.5") = Some (T "1 1 0.5").
Proof. split; vm_compute; reflexivity. Qed.

(* ------------------------------------------------------------------ *)
(** ** C39 *)

(** The description of a cell, as read, mentions the surface [n]. *)
Definition mentions (ws : list text) (n : Z) : Prop := exists w z, In w ws /\ py_int w = Some z /\ Z.abs z = n.

(** The cell was read from the words [ws], which hold no complement and no surface right after a parenthesis. *)
Definition read_from (c : cell) (ws : list text) : Prop :=
  CellModel.generalise ws = Some (c_items c, c_surfs c) /\ (forall w, In w ws -> ~ In "#"%char w) /\
  last ws [] <> T "(" /\ (forall a w b, ws = a ++ T "(" :: w :: b -> py_int w = None).

Lemma recorded_mentions ws : forall ao, (forall a w b, ws = a ++ T "(" :: w :: b -> py_int w = None) ->
  (ao = true -> match ws with w :: _ => py_int w = None | [] => True end) ->
  forall n, In n (recorded ao ws) <-> mentions ws n.
Proof.
  induction ws as [|s ws IH]; intros ao O A n.
  - split; [intros []|intros (w & z & [] & _)].
  - assert (O' : forall a w b, ws = a ++ T "(" :: w :: b -> py_int w = None).
    { intros a w b E. apply (O (s :: a) w b). rewrite E. reflexivity. }
    assert (C : mentions (s :: ws) n <-> (exists z, py_int s = Some z /\ Z.abs z = n) \/ mentions ws n).
    { split.
      - intros (w & z & [<-|I] & E & Z); [left; eauto|right; exists w, z; auto].
      - intros [(z & E & Z)|(w & z & I & E & Z)]; [exists s, z|exists w, z]; (split; [|split; auto]); [now left|now right]. }
    rewrite C. cbn [recorded]. destruct (text_eqb s (T "(")) eqn:P.
    + apply text_eqb_eq in P. subst s. rewrite IH; [|assumption|].
      * split; [auto|]. intros [(z & E & _)|M]; [discriminate|assumption].
      * intros _. destruct ws as [|w ws]; [trivial|]. apply (O [] w ws). reflexivity.
    + destruct ao.
      * rewrite IH; [|assumption|discriminate]. specialize (A eq_refl). cbn in A. split; [auto|].
        intros [(z & E & _)|M]; [congruence|assumption].
      * rewrite in_app_iff, IH; [|assumption|discriminate]. apply or_iff_compat_r. unfold surf_of.
        destruct (py_int s) as [z|]; cbn [In].
        -- split; [intros [<-|[]]; eauto|]. intros (z' & E & Z). injection E as ->. auto.
        -- split; [intros []|]. intros (z' & E & Z). discriminate.
Qed.

Lemma read_from_surfs c ws n : read_from c ws -> (In n (c_surfs c) <-> mentions ws n).
Proof.
  intros (G & _ & L & O). unfold CellModel.generalise in G. apply gen_loop_surfs in G. rewrite G.
  apply recorded_mentions; [assumption|]. cbn [item_is]. intro E. apply text_eqb_eq in E. congruence.
Qed.

Lemma existsb_ext' {A} (f g : A -> bool) l : (forall x, f x = g x) -> existsb f l = existsb g l.
Proof. intro H. induction l as [|x l IH]; [reflexivity|]. cbn [existsb]. now rewrite H, IH. Qed.

Definition vacuum_if (b : bool) (s : surface) : surface := if b then with_bc VACUUM s else s.
Definition marked (ids : list Z) (s : surface) : bool := existsb (Z.eqb (s_id s)) ids.

Lemma vacuum_ids b s : s_id (vacuum_if b s) = s_id s.
Proof. destruct b; reflexivity. Qed.

Lemma map_vacuum_ids f l : map s_id (map (fun s => vacuum_if (f s) s) l) = map s_id l.
Proof. rewrite map_map. apply map_ext. intro. apply vacuum_ids. Qed.

Lemma set_vacuum_eq id l : NoDup (map s_id l) -> In id (map s_id l) ->
  set_vacuum id l = Some (map (fun s => vacuum_if (marked [id] s) s) l).
Proof.
  induction l as [|s l IH]; intros N I; [destruct I|]. cbn [map] in N. inversion N as [|? ? N1 N2]; subst. cbn [set_vacuum map].
  unfold marked at 1. cbn [existsb]. rewrite orb_false_r. destruct (Z.eqb_spec (s_id s) id) as [E|E].
  - cbn [vacuum_if]. do 2 f_equal. rewrite <- (map_id l) at 1. apply map_ext_in. intros t It. unfold marked. cbn [existsb].
    rewrite orb_false_r. destruct (Z.eqb_spec (s_id t) id) as [E'|E']; [|reflexivity]. exfalso. apply N1. rewrite E, <- E'.
    now apply in_map.
  - destruct I as [I|I]; [contradiction|]. rewrite IH by assumption. reflexivity.
Qed.

Lemma vacuum_twice a b s : vacuum_if a (vacuum_if b s) = vacuum_if (a || b) s.
Proof. destruct a, b; reflexivity. Qed.

Lemma marked_vacuum ids b s : marked ids (vacuum_if b s) = marked ids s.
Proof. unfold marked. now rewrite vacuum_ids. Qed.

Lemma set_vacuums_eq ids : forall l, NoDup (map s_id l) -> (forall i, In i ids -> In i (map s_id l)) ->
  set_vacuums ids l = Some (map (fun s => vacuum_if (marked ids s) s) l).
Proof.
  induction ids as [|i ids IH]; intros l N I; cbn [set_vacuums].
  - f_equal. rewrite <- (map_id l) at 1. apply map_ext. reflexivity.
  - rewrite set_vacuum_eq by (auto; apply I; now left). rewrite IH.
    + rewrite map_map. f_equal. apply map_ext. intro s. rewrite marked_vacuum, vacuum_twice. f_equal.
      unfold marked. cbn [existsb]. rewrite orb_false_r. apply orb_comm.
    + now rewrite map_vacuum_ids.
    + intros j J. rewrite map_vacuum_ids. apply I. now right.
Qed.

Definition dead (cells : list icell) (s : surface) : bool :=
  existsb (fun x => Qeq_bool (snd x) 0 && marked (c_surfs (fst x)) s) cells.

Lemma graveyards_eq cells : forall l, NoDup (map s_id l) ->
  (forall c q i, In (c, q) cells -> Qeq_bool q 0 = true -> In i (c_surfs c) -> In i (map s_id l)) ->
  graveyards cells l = Some (map (fun s => vacuum_if (dead cells s) s) l).
Proof.
  induction cells as [|[c q] cells IH]; intros l N I; cbn [graveyards].
  - f_equal. rewrite <- (map_id l) at 1. apply map_ext. reflexivity.
  - destruct (Qeq_bool q 0) eqn:E.
    + rewrite set_vacuums_eq; [|assumption|intros i J; now apply (I c q i); [left|..]]. rewrite IH.
      * rewrite map_map. f_equal. apply map_ext. intro s. rewrite vacuum_twice. f_equal. unfold dead. cbn [existsb fst snd].
        rewrite E. cbn [andb]. rewrite orb_comm. f_equal. apply existsb_ext'. intros x. now rewrite marked_vacuum.
      * now rewrite map_vacuum_ids.
      * intros c' q' i J Q K. rewrite map_vacuum_ids. apply (I c' q' i); auto. now right.
    + rewrite IH; [|assumption|intros c' q' i J; apply (I c' q' i); now right]. f_equal. apply map_ext. intro s.
      unfold dead. cbn [existsb fst snd]. rewrite E. reflexivity.
Qed.

(** The cells of zero importance that mention a surface. *)
Definition in_graveyard (cells : list icell) (n : Z) : Prop :=
  exists c q ws, In (c, q) cells /\ (q == 0)%Q /\ read_from c ws /\ mentions ws n.

(** Cells without complements and without a surface right after a parenthesis, not using numbers that are no
    longer there: exactly the surfaces mentioned by a cell of zero importance become vacuum boundaries, and
    nothing fails.  Missing: the other cells, see the refutations below. *)
Theorem C39_graveyard_partial d cells cells' l :
  NoDup (map s_id l) -> apply_importances d cells = Some cells' ->
  (forall c q, In (c, q) cells' -> (q == 0)%Q -> exists ws, read_from c ws /\ forall n, mentions ws n -> In n (map s_id l)) ->
  exists l', apply_boundary_conditions d cells l = Some (cells', l') /\
    Forall2 (fun s s' => (in_graveyard cells' (s_id s) -> s' = with_bc VACUUM s) /\ (~ in_graveyard cells' (s_id s) -> s' = s)) l l'.
Proof.
  intros N A R. unfold apply_boundary_conditions. rewrite A.
  assert (S : forall c q ws i, In (c, q) cells' -> (q == 0)%Q -> read_from c ws -> (In i (c_surfs c) <-> mentions ws i)).
  { intros c q ws i _ _ F. now apply read_from_surfs. }
  rewrite graveyards_eq; [|assumption|].
  2: { intros c q i I Q J. apply Qeq_bool_iff in Q. destruct (R c q I Q) as (ws & F & M). apply M. now apply (S c q ws). }
  eexists. split; [reflexivity|].
  assert (D : forall s, dead cells' s = true <-> in_graveyard cells' (s_id s)).
  { intro s. unfold dead. rewrite existsb_exists. split.
    - intros ([c q] & I & H). apply andb_prop in H as [Q M]. cbn [fst snd] in *. apply Qeq_bool_iff in Q.
      destruct (R c q I Q) as (ws & F & _). exists c, q, ws. repeat split; auto; try apply F. apply (S c q ws); auto.
      unfold marked in M. apply existsb_exists in M as (j & J & E). apply Z.eqb_eq in E. congruence.
    - intros (c & q & ws & I & Q & F & M). exists (c, q). split; [assumption|]. cbn [fst snd]. rewrite (proj2 (Qeq_bool_iff q 0) Q).
      cbn [andb]. unfold marked. apply existsb_exists. exists (s_id s). split; [now apply (S c q ws)|apply Z.eqb_refl]. }
  clear - D. induction l as [|s l IH]; constructor; [|exact IH]. split; intro H.
  - apply D in H. now rewrite H.
  - destruct (dead cells' s) eqn:E; [exfalso; now apply H, D|reflexivity].
Qed.
Print Assumptions C39_graveyard_partial.

(** It fails exactly if a number recorded by such a cell is not that of a surface. *)
Theorem C39_fails_iff cells l : graveyards cells l = None <->
  exists c q i, In (c, q) cells /\ (q == 0)%Q /\ In i (c_surfs c) /\ ~ In i (map s_id l).
Proof.
  assert (V1 : forall i k, set_vacuum i k = None <-> ~ In i (map s_id k)).
  { intros i. induction k as [|s k IH]; cbn [set_vacuum map In]; [tauto|]. destruct (Z.eqb_spec (s_id s) i) as [E|E].
    - split; [discriminate|]. intro H. exfalso. apply H. now left.
    - destruct (set_vacuum i k) as [k'|]; cbn [option_map].
      + split; [discriminate|]. intro H. exfalso. assert (X : ~ In i (map s_id k)) by tauto. apply IH in X. discriminate.
      + split; [|reflexivity]. intros _ [H|H]; [contradiction|]. now apply (proj1 IH). }
  assert (V2 : forall i k k', set_vacuum i k = Some k' -> map s_id k' = map s_id k).
  { intros i. induction k as [|s k IH]; intros k' H; cbn [set_vacuum] in H; [discriminate|].
    destruct (s_id s =? i)%Z; [injection H as <-; reflexivity|]. destruct (set_vacuum i k) as [k0|]; [|discriminate].
    injection H as <-. cbn [map]. f_equal. now apply IH. }
  assert (W : forall ids k, match set_vacuums ids k with
     | None => exists i, In i ids /\ ~ In i (map s_id k)
     | Some k' => map s_id k' = map s_id k /\ forall i, In i ids -> In i (map s_id k) end).
  { induction ids as [|i ids IH]; intro k; cbn [set_vacuums]; [split; [reflexivity|intros i []]|].
    destruct (set_vacuum i k) as [k'|] eqn:E.
    - assert (M := V2 i k k' E). specialize (IH k'). destruct (set_vacuums ids k') as [k2|].
      + destruct IH as [E2 H2]. split; [congruence|]. intros j [<-|J]; [|rewrite <- M; auto].
        destruct (in_dec Z.eq_dec i (map s_id k)) as [Y|Y]; [exact Y|]. apply V1 in Y. congruence.
      + destruct IH as (j & J & K). exists j. split; [now right|congruence].
    - exists i. split; [now left|now apply V1]. }
  revert l. induction cells as [|[c q] cells IH]; intro l; cbn [graveyards].
  - split; [discriminate|]. intros (c & q & i & [] & _).
  - destruct (Qeq_bool q 0) eqn:E.
    + specialize (W (c_surfs c) l). destruct (set_vacuums (c_surfs c) l) as [l'|].
      * destruct W as [W1 W2]. rewrite IH. split; intros (c' & q' & i & I & Q & J & K); exists c', q', i.
        -- repeat split; auto; [now right|congruence].
        -- destruct I as [I|I]; [injection I as -> ->; exfalso; auto|]. repeat split; auto. congruence.
      * split; [|reflexivity]. intros _. destruct W as (i & I & J). apply Qeq_bool_iff in E. exists c, q, i. repeat split; auto. now left.
    + rewrite IH. split; intros (c' & q' & i & I & Q & J & K); exists c', q', i; repeat split; auto; [now right|].
      destruct I as [I|I]; [|assumption]. injection I as -> ->. apply Qeq_bool_iff in Q. congruence.
Qed.
Print Assumptions C39_fails_iff.

Definition gcell (s : text) : cell :=
  match interpret 9 s with Some c => c | None => Cell 0 0 0%Q [] [] [] end.
Definition ball (n : Z) (r : R) : surface := mkS n None SPHERE_GENERAL [0; 0; 0; r]%R TRANSMISSION.

Example C39_example :
  NoDup (map s_id [ball 1 1; ball 2 2; ball 3 3]) /\
  (forall c q, In (c, q) [(gcell (T "1 0 -1"), 1%Q); (gcell (T "2 0 2 : -3"), 0%Q)] -> (q == 0)%Q ->
     exists ws, read_from c ws /\ forall n, mentions ws n -> In n (map s_id [ball 1 1; ball 2 2; ball 3 3])) /\
  option_map snd (apply_boundary_conditions [(NEUTRON, T "1 0")] [(gcell (T "1 0 -1"), 1%Q); (gcell (T "2 0 2 : -3"), 1%Q)]
    [ball 1 1; ball 2 2; ball 3 3]) = Some [ball 1 1; with_bc VACUUM (ball 2 2); with_bc VACUUM (ball 3 3)].
Proof.
  split; [cbn; repeat constructor; cbn; intuition discriminate|]. split; [|lazy; reflexivity].
  intros c q [I|[I|[]]] Q; injection I as <- <-; [discriminate Q|].
  exists [T "2"; T ":"; T "-3"]. split; [split; [reflexivity|split; [|split]]|].
  - intros w I. cbn [In] in I. destruct I as [<-|[<-|[<-|[]]]]; vm_compute; intuition discriminate.
  - discriminate.
  - intros a w b E. exfalso. assert (X : In (T "(") [T "2"; T ":"; T "-3"]) by (rewrite E; apply in_elt).
    cbn [In] in X. destruct X as [X|[X|[X|[]]]]; discriminate.
  - intros n (w & z & I & E & Z). cbn [In] in I. destruct I as [<-|[<-|[<-|[]]]]; vm_compute in E; try discriminate;
      injection E as <-; cbn in Z; subst n; cbn; auto.
Qed.

(** (a) The number of a macrobody stays recorded after the macrobody is gone: a graveyard outside an RPP fails. *)
Theorem C39_macrobody_refuted : exists d d', flatten_macrobodies d = Some d' /\
  map c_text (d_cells d) = [[T "-3"]; [T "3"]] /\ map s_id (d_surfs d) = [3%Z] /\
  apply_boundary_conditions [(NEUTRON, T "1 0")] (map (fun c => (c, 1%Q)) (d_cells d')) (d_surfs d') = None.
Proof.
  exists (mkDeck [mkS 3 None MACRO_RPP [-1; 1; -2; 2; 0; 5]%R TRANSMISSION] [gcell (T "1 0 -3"); gcell (T "2 0 3")] 3).
  eexists. split; [lazy; reflexivity|]. split; [reflexivity|]. split; [reflexivity|]. lazy. reflexivity.
Qed.
Print Assumptions C39_macrobody_refuted.

(** (b) A graveyard that is the complement of a cell leaves every surface as it was. *)
Theorem C39_complement_refuted : exists cells l,
  explode_nots 9 [gcell (T "1 0 -1"); gcell (T "2 0 #1")] = Done cells /\ l = [ball 1 1] /\
  option_map snd (apply_boundary_conditions [(NEUTRON, T "1 0")] (map (fun c => (c, 1%Q)) cells) l) = Some l /\
  (exists c, nth_error cells 1 = Some c /\ In (Str (T "-1")) (c_items c)).
Proof.
  eexists _, _. split; [vm_compute; reflexivity|]. split; [reflexivity|]. split; [lazy; reflexivity|].
  eexists. split; [reflexivity|]. cbn. tauto.
Qed.
Print Assumptions C39_complement_refuted.

(** (c) A surface right after an opening parenthesis is left as it was. *)
Theorem C39_parenthesis_refuted : exists c l, c = gcell (T "2 0 (1 : 2)") /\ l = [ball 1 1; ball 2 2] /\
  option_map snd (apply_boundary_conditions [(NEUTRON, T "0")] [(c, 1%Q)] l) = Some [ball 1 1; with_bc VACUUM (ball 2 2)].
Proof. eexists _, _. split; [reflexivity|]. split; [reflexivity|]. lazy. reflexivity. Qed.
Print Assumptions C39_parenthesis_refuted.

(** (d) A deck with importances for photons only fails. *)
Theorem C39_photons_refuted : exists d cells l, d = [(PHOTON, T "1")] /\ cells = [(gcell (T "1 0 -1"), 1%Q)] /\
  apply_boundary_conditions d cells l = None.
Proof. eexists _, _, [ball 1 1]. split; [reflexivity|]. split; [reflexivity|]. reflexivity. Qed.
Print Assumptions C39_photons_refuted.

(* ------------------------------------------------------------------ *)
(** ** C40 *)

Lemma set_type_bc s i tr t c : s_bc (set_type s i tr t c) = s_bc s.
Proof. reflexivity. Qed.

Lemma reading_bc k s n t f s' : reading k s n t f = Some s' -> s_bc s' = s_bc s.
Proof. unfold reading. destruct (floats n (k_coef k)); [|discriminate]. intro H. injection H as <-. reflexivity. Qed.

(** Whatever the card, the surface read is an ordinary one. *)
Theorem C40_always_transmission t s : read_surface t = Some s -> s_bc s = TRANSMISSION.
Proof.
  unfold read_surface. destruct (card_of_text t) as [k|]; [|discriminate]. unfold classify_card.
  assert (F : s_bc fresh = TRANSMISSION) by reflexivity. revert F. generalize fresh. intros f F.
  enough (G : forall s', classify_surface_types k f = Some s' \/ classify_macrobody_types k f = Some s' -> s_bc s' = s_bc f).
  { destruct (existsb _ _); [intro H; rewrite (G s); auto|]. destruct (existsb _ _); [intro H; rewrite (G s); auto|].
    intro H. injection H as <-. exact F. }
  intros s' H. clear F.
  unfold classify_surface_types, classify_macrobody_types, classify_xyz_planes, classify_general_planes, classify_general_sphere,
    classify_origin_sphere, classify_xyz_sphere, classify_cylinder_parallel, classify_cylinder_on_axis, classify_cone_parallel,
    classify_cone_on_axis, classify_gq, classify_torus, classify_box, classify_rpp, classify_rcc, classify_edp, define_edp_2coord in H.
  repeat match type of H with
  | _ \/ _ => destruct H as [H|H]
  | context [if ?b then _ else _] => destruct b
  | context [match ?b with _ => _ end] => destruct b
  | reading _ _ _ _ _ = Some _ => apply reading_bc in H; assumption
  | Some _ = Some _ => injection H as <-
  | None = Some _ => discriminate H
  end; try reflexivity.
Qed.
Print Assumptions C40_always_transmission.

Theorem C40_star_refuted : exists s, read_surface (T "*1 px 0") = Some s /\ s_bc s <> REFLECTING.
Proof.
  destruct (read_surface (T "*1 px 0")) as [s|] eqn:E.
  - exists s. split; [reflexivity|]. apply C40_always_transmission in E. rewrite E. discriminate.
  - exfalso. lazy in E. discriminate.
Qed.
Print Assumptions C40_star_refuted.

(* ------------------------------------------------------------------ *)
(** ** C41 *)
Open Scope R_scope.

(** The part of a surface that the property is about: its points, and for each axis whether it is bounded. *)
Definition within (bc : list R) (i : nat) (x : R) : Prop := nth (2 * i) bc 0 <= x <= nth (2 * i + 1) bc 0.

Definition bounded_by (bc : list R) (s : surface) : Prop :=
  match s_type s, s_coef s with
  | SPHERE_GENERAL, [x; y; z; r] => 0 <= r -> forall p, sphere x y z r p = 0 -> within bc 0 (px p) /\ within bc 1 (py p) /\ within bc 2 (pz p)
  | CYLINDER_X, [y; z; r] => 0 <= r -> forall p, cyl_x y z r p = 0 -> within bc 1 (py p) /\ within bc 2 (pz p)
  | CYLINDER_Y, [x; z; r] => 0 <= r -> forall p, cyl_y x z r p = 0 -> within bc 0 (px p) /\ within bc 2 (pz p)
  | CYLINDER_Z, [x; y; r] => 0 <= r -> forall p, cyl_z x y r p = 0 -> within bc 0 (px p) /\ within bc 1 (py p)
  | PLANE_X, [_; _; _; d] => forall p, plane 1 0 0 d p = 0 -> within bc 0 (px p)
  | PLANE_Y, [_; _; _; d] => forall p, plane 0 1 0 d p = 0 -> within bc 1 (py p)
  | PLANE_Z, [_; _; _; d] => forall p, plane 0 0 1 d p = 0 -> within bc 2 (pz p)
  | _, _ => True
  end.

(** The coordinates only ever grow. *)
Definition wider (a b : list R) : Prop :=
  match a, b with
  | [a0; a1; a2; a3; a4; a5], [b0; b1; b2; b3; b4; b5] =>
      b0 <= a0 /\ a1 <= b1 /\ b2 <= a2 /\ a3 <= b3 /\ b4 <= a4 /\ a5 <= b5
  | _, _ => False
  end.

Lemma grow_wider box bc bc' : grow box bc = Some bc' -> wider bc bc' /\ wider box bc'.
Proof.
  unfold grow. destruct box as [|b0 [|b1 [|b2 [|b3 [|b4 [|b5 [|]]]]]]]; try discriminate.
  destruct bc as [|x0 [|x1 [|x2 [|x3 [|x4 [|x5 [|]]]]]]]; try discriminate. intro H. injection H as <-.
  unfold wider, keep_low, keep_high.
  destruct (Rlt_dec b0 x0), (Rgt_dec b1 x1), (Rlt_dec b2 x2), (Rgt_dec b3 x3), (Rlt_dec b4 x4), (Rgt_dec b5 x5); lra.
Qed.

Lemma wider_trans a b c : wider a b -> wider b c -> wider a c.
Proof.
  destruct a as [|? [|? [|? [|? [|? [|? [|]]]]]]]; try contradiction.
  destruct b as [|? [|? [|? [|? [|? [|? [|]]]]]]]; try contradiction.
  destruct c as [|? [|? [|? [|? [|? [|? [|]]]]]]]; try contradiction. unfold wider. lra.
Qed.

Lemma wider_refl6 b : length b = 6%nat -> wider b b.
Proof. destruct b as [|? [|? [|? [|? [|? [|? [|]]]]]]]; try discriminate. intros _. cbn. lra. Qed.

Lemma bounding_wider l : forall bc bc', length bc = 6%nat -> bounding_coordinates l bc = Some bc' ->
  wider bc bc' /\ forall s, In s l -> exists box, bounding_box s = Some box /\ wider box bc'.
Proof.
  induction l as [|s l IH]; intros bc bc' L H; cbn [bounding_coordinates] in H.
  - injection H as <-. split; [now apply wider_refl6|]. intros s [].
  - destruct (bounding_box s) as [box|] eqn:B; [|discriminate]. destruct (grow box bc) as [b1|] eqn:G; [|discriminate].
    destruct (grow_wider _ _ _ G) as [G1 G2].
    assert (L1 : length b1 = 6%nat).
    { clear - G1. destruct bc as [|? [|? [|? [|? [|? [|? [|]]]]]]]; try contradiction.
      destruct b1 as [|? [|? [|? [|? [|? [|? [|]]]]]]]; try contradiction. reflexivity. }
    destruct (IH b1 bc' L1 H) as [W F]. split; [eapply wider_trans; eassumption|].
    intros t [<-|I]; [|now apply F]. exists box. split; [assumption|]. eapply wider_trans; eassumption.
Qed.

Lemma sq_bound a r : 0 <= r -> a ^ 2 <= r ^ 2 -> - r <= a <= r.
Proof. intros. split; nra. Qed.

Lemma sum2_bound a b r : 0 <= r -> a ^ 2 + b ^ 2 - r ^ 2 = 0 -> (- r <= a <= r) /\ (- r <= b <= r).
Proof. intros P E. assert (A := pow2_ge_0 a). assert (B := pow2_ge_0 b). split; apply sq_bound; lra. Qed.

Lemma sum3_bound a b c r : 0 <= r -> a ^ 2 + b ^ 2 + c ^ 2 - r ^ 2 = 0 -> (- r <= a <= r) /\ (- r <= b <= r) /\ (- r <= c <= r).
Proof.
  intros P E. assert (A := pow2_ge_0 a). assert (B := pow2_ge_0 b). assert (C := pow2_ge_0 c).
  split; [|split]; apply sq_bound; lra.
Qed.

Theorem C41_bounding_coordinates l bc : bounding_coordinates l [0; 0; 0; 0; 0; 0] = Some bc ->
  forall s, In s l -> bounded_by bc s.
Proof.
  intros H s I. destruct (bounding_wider l [0; 0; 0; 0; 0; 0] bc eq_refl H) as [_ F]. destruct (F s I) as (box & B & W).
  unfold bounded_by. unfold bounding_box in B.
  destruct (s_type s) eqn:T; try exact Logic.I; destruct (s_coef s) as [|c0 [|c1 [|c2 [|c3 [|]]]]]; try exact Logic.I;
    try discriminate B; injection B as <-; unfold wider in W;
    destruct bc as [|b0 [|b1 [|b2 [|b3 [|b4 [|b5 [|]]]]]]]; try contradiction; cbv beta iota in W; unfold within; cbn [nth Nat.mul Nat.add];
    unfold sphere, cyl_x, cyl_y, cyl_z, plane.
  all: try (intros p E; lra).
  all: intros P p E.
  1: assert (X := sum2_bound (py p - c0) (pz p - c1) c2 P ltac:(lra)); lra.
  1: assert (X := sum2_bound (px p - c0) (pz p - c1) c2 P ltac:(lra)); lra.
  1: assert (X := sum2_bound (px p - c0) (py p - c1) c2 P ltac:(lra)); lra.
  assert (X := sum3_bound (px p - c0) (py p - c1) (pz p - c2) c3 P ltac:(lra)). lra.
Qed.
Print Assumptions C41_bounding_coordinates.

(** Every deck whose surfaces have all their coefficients has bounding coordinates. *)
Theorem C41_total l : (forall s, In s l -> surf_sense s <> None) -> exists bc, bounding_coordinates l [0; 0; 0; 0; 0; 0] = Some bc.
Proof.
  intro H. assert (G : forall l bc, length bc = 6%nat -> (forall s, In s l -> surf_sense s <> None) -> exists bc', bounding_coordinates l bc = Some bc').
  { clear. induction l as [|s l IH]; intros bc L H; cbn [bounding_coordinates]; [eauto|].
    assert (B : exists b0 b1 b2 b3 b4 b5, bounding_box s = Some [b0; b1; b2; b3; b4; b5]).
    { assert (S := H s (or_introl eq_refl)). unfold surf_sense, sem in S. unfold bounding_box.
      destruct (s_type s); try (now destruct S); try (do 6 eexists; reflexivity);
        destruct (s_coef s) as [|? [|? [|? [|? [|]]]]]; try (now destruct S); do 6 eexists; reflexivity. }
    destruct B as (b0 & b1 & b2 & b3 & b4 & b5 & B). rewrite B.
    destruct bc as [|? [|? [|? [|? [|? [|? [|]]]]]]]; try discriminate. cbn [grow]. apply IH; [reflexivity|].
    intros t I. apply H. now right. }
  now apply G.
Qed.
Print Assumptions C41_total.

Example C41_example : exists bc, bounding_coordinates [mkS 1 None SPHERE_GENERAL [1; 2; 3; 5] TRANSMISSION; mkS 2 None PLANE_X [1; 0; 0; -7] TRANSMISSION]
    [0; 0; 0; 0; 0; 0] = Some bc /\ nth 0 bc 0 = -7 /\ nth 1 bc 0 = 6 /\ nth 4 bc 0 = -2.
Proof.
  eexists. split; [reflexivity|]. cbn [nth]. unfold keep_low, keep_high.
  repeat match goal with
  | |- context [Rlt_dec ?a ?b] => lazymatch b with context [Rlt_dec] => fail | _ => destruct (Rlt_dec a b) end
  | |- context [Rgt_dec ?a ?b] => lazymatch b with context [Rgt_dec] => fail | _ => destruct (Rgt_dec a b) end
  end; lra.
Qed.
