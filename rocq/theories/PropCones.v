(** C93 for all cones and all cells: csg2csg/MCNPInput.py 633-703, which is switched off. *)
From Coq Require Import Reals List Lra Psatz QArith.
From Verif Require Import PyStr PyStrFacts PyInt PyIntFacts RegionSpec RegionFacts GeomSpec SurfModel SurfSpec SurfProofs
  MacroModel MacroSpec MacroProofs MacroText CellModel CellProofs CellText PropMacro FlattenModel FlattenProofs ProcessSpec UnusedModel PropUnused ConesModel.
From Verif Require NotsModel.
From Verif Require Import FortranNumberProofs.
Import ListNotations.
Open Scope R_scope.
Open Scope list_scope.

(** ** Specification *)

(** A word of a cell: a delimiter or the number of a surface, up to [n], with or without a minus sign. *)
Definition plain_word (n : Z) (w : text) : Prop :=
  w = T "(" \/ w = T ")" \/ w = T ":" \/ exists i, (1 <= i <= n)%Z /\ (w = sid i \/ w = minus (sid i)).
(** A cell with the region [r]. *)
Definition of_region (n : Z) (c : cell) (r : region) : Prop :=
  Forall (plain_word n) (c_text c) /\ expr (map word_tok (c_text c)) r /\ expr (toks (c_items c)) r.
(** One sheet of a cone. *)
Definition one_sheeted (s : surface) : Prop := length (s_coef s) = 5%nat /\ (nth 4 (s_coef s) 0 = 1 \/ nth 4 (s_coef s) 0 = -1).
(** The sides of the surfaces after the loop: a cone has both sheets. *)
Definition after_sense (s : surface) : option sense := if is_cone s then both_sheets s else surf_sense s.

(** ** Proof *)

Lemma plain_token n w : plain_word n w -> token w /\ ~ In "."%char w.
Proof.
  intros [->|[->|[->|(i & P & [->| ->])]]]; try (split; [|vm_compute; intuition discriminate]); try (unfold token; tauto).
  - destruct (sid_digits i) as [N D]; [lia|]. split.
    + left. split; [exact N|]. unfold all_digits in D. rewrite forallb_forall in *. intros c I. specialize (D c I). destruct c as [[] [] [] [] [] [] [] []]; try discriminate D; reflexivity.
    + unfold all_digits in D. rewrite forallb_forall in D. intro I. specialize (D _ I). discriminate D.
  - destruct (sid_digits i) as [N D]; [lia|]. unfold all_digits in D. rewrite forallb_forall in D. split.
    + left. split; [discriminate|]. rewrite forallb_forall. intros c [<-|I]; [reflexivity|]. specialize (D c I). destruct c as [[] [] [] [] [] [] [] []]; try discriminate D; reflexivity.
    + intros [E|I]; [discriminate E|]. specialize (D _ I). discriminate D.
Qed.
Lemma plain_le n m w : (n <= m)%Z -> plain_word n w -> plain_word m w.
Proof. intros L [H|[H|[H|(i & P & H)]]]; unfold plain_word; auto. right; right; right. exists i. split; [lia|exact H]. Qed.

Lemma csub_plain n a sg w : (1 <= a <= n)%Z -> plain_word n w -> Forall (plain_word (n + 1)) (csub a (n + 1) sg w).
Proof.
  intros P H. assert (S : forall b, plain_word (n + 1) (signed_word b (n + 1))).
  { intros b. right; right; right. exists (n + 1)%Z. split; [lia|]. destruct b; [now right|now left]. }
  assert (A : plain_word (n + 1) (sid a)) by (right; right; right; exists a; split; [lia|now left]).
  assert (B : plain_word (n + 1) (minus (sid a))) by (right; right; right; exists a; split; [lia|now right]).
  assert (D1 : plain_word (n + 1) (T "(")) by (unfold plain_word; auto). assert (D2 : plain_word (n + 1) (T ")")) by (unfold plain_word; auto).
  assert (D3 : plain_word (n + 1) (T ":")) by (unfold plain_word; auto).
  unfold csub. destruct (text_eqb (sid a) w); [repeat (constructor; auto)|]. destruct (text_eqb (minus (sid a)) w); [repeat (constructor; auto)|].
  constructor; [|constructor]. apply (plain_le n); [lia|exact H].
Qed.

(** One cone and one cell. *)
Lemma one_cell fuel n s x s' c r : (0 <= n)%Z -> (0 < s_id s <= n)%Z -> length (s_coef s) = 5%nat -> simplify_cone n s = Some (x, s') -> of_region n c r ->
  exists c' r' sg, (sg = true /\ nth 4 (s_coef s) 0 = -1 \/ sg = false /\ nth 4 (s_coef s) 0 = 1) /\ cone_cell (S (S fuel)) (sid (s_id s)) x c = NotsModel.Done c' /\
    c_id c' = c_id c /\ c_mat c' = c_mat c /\ c_dens c' = c_dens c /\ of_region (n + 1) c' r' /\
    forall env env', env (minus (sid (s_id s))) = holds env' (cone_in (s_id s) (n + 1) sg) -> env (sid (s_id s)) = holds env' (cone_out (s_id s) (n + 1) sg) ->
      (forall w, In w (c_text c) -> word_tok w = TAtom w -> w <> sid (s_id s) -> w <> minus (sid (s_id s)) -> env w = env' w) -> holds env r = holds env' r'.
Proof.
  intros P Q0 L E (PW & EX & _). assert (Q : (0 < s_id s)%Z) by lia.
  assert (TK : Forall token (c_text c)) by (apply (Forall_impl _) with (2 := PW); intros w H; now apply (plain_token n)).
  assert (ND : forall w, In w (c_text c) -> ~ In "."%char w) by (intros w I; rewrite Forall_forall in PW; now apply (plain_token n), PW).
  destruct (simplify_shape _ _ _ _ L E) as (sg & pl & SG & W1 & W2 & H1 & H2 & D1 & D2 & _ & _ & _ & _ & _ & M1 & M2).
  set (a := s_id s) in *. set (b := (n + 1)%Z) in *. destruct (cone_factors a b sg) as [F1 F2].
  (* the words after the loop *)
  assert (CW : exists desc, cone_words (S (S fuel)) (sid a) x (c_text c) = NotsModel.Done desc /\
     flat_map (fun w => words (spacify w)) desc = flat_map (csub a b sg) (c_text c) /\ Forall (fun w => ~ In "$"%char w) desc).
  { cbn [cone_words].
    assert (ONE : forall w, token w -> ~ In "."%char w -> words (spacify (cone_word (sid a) x w)) = csub a b sg w /\ ~ In "$"%char (cone_word (sid a) x w) /\
       macro_match (sid a) (cone_word (sid a) x w) = false /\ (macro_match (sid a) w = false -> csub a b sg w = [w])).
    { intros w TW NW. unfold cone_word, csub. change (T "-" ++ sid a) with (minus (sid a)).
      assert (SELF : macro_match (sid a) (sid a) = true /\ macro_match (sid a) (minus (sid a)) = true).
      { assert (A : after (sid a) (sid a) = Some []) by (rewrite <- (app_nil_r (sid a)) at 2; apply app_after).
        unfold macro_match. split; [|change (tail_ok (after (sid a) (sid a)) = true); now rewrite A]. destruct (sid a) as [|q t] eqn:ES; [reflexivity|]. 
        destruct (Ascii.eqb_spec q "-") as [->|]; [|now rewrite A]. exfalso. destruct (sid_digits a ltac:(lia)) as [_ D]. rewrite ES in D. discriminate D. }
      destruct (text_eqb_spec (sid a) w) as [EW|NE]; [subst w; split; [exact W2|]; split; [exact D2|]; split; [exact M2|]; intro K; destruct SELF; congruence|].
      destruct (text_eqb_spec (minus (sid a)) w) as [EW|NE2]; [subst w; split; [exact W1|]; split; [exact D1|]; split; [exact M1|]; intro K; destruct SELF; congruence|].
      split; [now apply token_words|]. split; [now apply token_nodollar|]. split; [|reflexivity].
      destruct (macro_match (sid a) w) eqn:MW; [|reflexivity]. exfalso. apply match_shape in MW as [MW|[MW|MW]]; [congruence|congruence|].
      rewrite nodot_sub in MW by exact NW. discriminate. }
    assert (ALL : flat_map (fun w => words (spacify w)) (map (cone_word (sid a) x) (c_text c)) = flat_map (csub a b sg) (c_text c) /\
       Forall (fun w => ~ In "$"%char w) (map (cone_word (sid a) x) (c_text c)) /\ existsb (macro_match (sid a)) (map (cone_word (sid a) x) (c_text c)) = false /\
       (existsb (macro_match (sid a)) (c_text c) = false -> flat_map (csub a b sg) (c_text c) = c_text c)).
    { clear EX PW. induction TK as [|w l TW TK IH]; [repeat split; constructor|].
      destruct IH as (I1 & I2 & I3 & I4); [intros v I; apply ND; now right|]. destruct (ONE w TW (ND w (or_introl eq_refl))) as (O1 & O2 & O3 & O4).
      cbn [map flat_map existsb]. rewrite O1, I1, O3, I3. split; [reflexivity|]. split; [now constructor|]. split; [reflexivity|].
      intro K. apply orb_false_iff in K as [K1 K2]. rewrite (O4 K1), (I4 K2). reflexivity. }
    destruct ALL as (A1 & A2 & A3 & A4). destruct (existsb (macro_match (sid a)) (c_text c)) eqn:EB.
    - rewrite A3. eexists. split; [reflexivity|]. now split.
    - eexists. split; [reflexivity|]. rewrite A4 by reflexivity. split.
      + clear -TK. induction TK as [|w l TW TK IH]; [reflexivity|]. cbn [flat_map]. rewrite IH, token_words by exact TW. reflexivity.
      + apply (Forall_impl _) with (2 := TK). intros w TW. now apply token_nodollar. }
  destruct CW as (desc & CW & FW & DW).
  set (g := fun w => if text_eqb (sid a) w then cone_out a b sg else if text_eqb (minus (sid a)) w then cone_in a b sg else RAtom w).
  assert (AT : forall w, In w (atoms r) -> In w (c_text c) /\ word_tok w = TAtom w).
  { intros w I. rewrite <- (proj1 expr_atoms _ _ EX) in I. unfold tok_atoms in I. apply in_flat_map in I as (tk & IT & I).
    destruct tk; try (now destruct I). destruct I as [->|[]]. apply in_map_iff in IT as (v & EV & IV).
    assert (v = w); [|now subst v]. destruct (word_tok_cases v) as [[-> K]|[[-> K]|[[-> K]|(_ & _ & _ & K)]]]; rewrite K in EV; try discriminate EV.
    destruct (text_eqb_spec v (T ")")); [discriminate EV|now injection EV]. }
  assert (TOK : map word_tok (flat_map (csub a b sg) (c_text c)) = flat_map (subst_tok (fun w => map word_tok (csub a b sg w))) (map word_tok (c_text c))).
  { clear. induction (c_text c) as [|w l IH]; [reflexivity|]. cbn [flat_map map]. rewrite map_app, IH. f_equal.
    assert (K : word_tok w = TAtom w \/ word_tok w <> TAtom w /\ forall v, word_tok w <> TAtom v).
    { destruct (word_tok_cases w) as [[-> J]|[[-> J]|[[-> J]|(_ & _ & _ & J)]]]; rewrite J; try (right; split; discriminate).
      destruct (text_eqb w (T ")")); [right; split; discriminate|now left]. }
    destruct K as [K|[K1 K2]]; [now rewrite K|]. rewrite csub_delim by exact K1. cbn [map]. destruct (word_tok w); try reflexivity. exfalso. eapply K2. reflexivity. }
  assert (EX' : expr (map word_tok (flat_map (csub a b sg) (c_text c))) (subst_region g r)).
  { rewrite TOK. apply (proj1 (subst_tok_expr _ g)); [exact EX|]. intros w I. destruct (AT w I) as [_ K]. unfold csub, g.
    destruct (text_eqb (sid a) w); [exact F2|]. destruct (text_eqb (minus (sid a)) w); [exact F1|]. cbn [map]. rewrite K. constructor. }
  destruct (generalise_toks _ _ EX') as (o & z & GE & TO).
  assert (NDL : ~ In "$"%char (spacify (join_sp desc))).
  { intros I. apply in_spacify in I as [I|[I|I]]; try discriminate. revert I. now apply join_nodollar. }
  unfold cone_cell. rewrite CW. unfold update. rewrite drop_dollars_none by exact NDL. rewrite words_join, FW, GE.
  eexists. exists (subst_region g r), sg. split; [exact SG|]. split; [reflexivity|]. cbn [c_id c_mat c_dens c_items c_text].
  split; [reflexivity|]. split; [reflexivity|]. split; [reflexivity|]. split.
  { split; [|split; [exact EX'|cbn [c_items]; rewrite TO; exact EX']]. cbn [c_text]. clear -PW Q0. induction PW as [|w l H PW IH]; [constructor|]. cbn [flat_map].
    apply Forall_app. split; [|exact IH]. apply csub_plain; [lia|exact H]. }
  intros env env' E1 E2 E3. rewrite holds_subst. apply holds_ext_atoms. intros w I. destruct (AT w I) as [IW TW]. unfold g.
  destruct (text_eqb_spec (sid a) w) as [EW|N1]; [subst w; exact E2|]. destruct (text_eqb_spec (minus (sid a)) w) as [EW|N2]; [subst w; exact E1|].
  cbn [holds]. apply E3; congruence || assumption.
Qed.

(** The sides of the sheet. *)
Lemma sheet_sides n s x s' : (0 <= n)%Z -> (0 < s_id s)%Z -> length (s_coef s) = 5%nat -> simplify_cone n s = Some (x, s') ->
  exists sn whole ap pl, surf_sense s = Some sn /\ both_sheets s' = Some whole /\ x_surfs x = [pl] /\ surf_sense pl = Some ap /\ s_id s' = s_id s /\ s_tr s' = s_tr s /\
    s_type s' = s_type s /\ s_id pl = (n + 1)%Z /\ s_tr pl = None /\ is_cone pl = false /\
    forall sg, (sg = true /\ nth 4 (s_coef s) 0 = -1 \/ sg = false /\ nth 4 (s_coef s) 0 = 1) ->
    forall sense p, side whole p (sense (s_id s)) -> side ap p (sense (n + 1)%Z) ->
      (holds (zenv sense) (cone_in (s_id s) (n + 1) sg) = true <-> neg sn p) /\ (holds (zenv sense) (cone_out (s_id s) (n + 1) sg) = true <-> pos sn p).
Proof.
  intros P Q L E. destruct (simplify_shape _ _ _ _ L E) as (sg & pl & SG & _ & _ & _ & _ & _ & _ & XS & IP & TP & (ap & sn & EA & (ap' & EP & SA) & ES) & -> & _).
  assert (PC : is_cone pl = false).
  { clear -E XS. unfold simplify_cone in E. destruct (s_coef s) as [|a [|b [|c [|d [|e [|]]]]]]; try (injection E as <- _; discriminate XS).
    destruct (s_type s); try discriminate E; (destruct (Req_EM_T e (-1)); [|destruct (Req_EM_T e 1); [|discriminate E]]);
      (match type of E with Some (?u, ?v) = _ => assert (EX : x = u) by congruence end); rewrite EX in XS; cbn [x_surfs] in XS; injection XS as <-; reflexivity. }
  destruct (s_coef s) as [|a [|b [|c [|d [|e [|]]]]]] eqn:EC; try discriminate L. cbn [nth firstn] in *.
  assert (W : exists whole, sem (s_type s) [a; b; c; d; 0] = Some whole /\ forall p, 
     (neg sn p <-> neg whole p /\ (if sg then neg ap p else pos ap p)) /\
     (pos sn p <-> pos whole p \/ (if sg then pos ap p else neg ap p)) /\ ~ (neg whole p /\ pos whole p) /\ ~ (neg ap p /\ pos ap p)).
  { unfold surf_sense in ES. unfold apex_plane in EA. rewrite EC in ES, EA. destruct (s_type s); try discriminate EA; cbn [sem] in ES; injection ES as <-; injection EA as <-;
      (eexists; split; [reflexivity|]); intro p; unfold one_sheet, of_fun; cbn [neg pos];
      destruct SG as [[-> ->]|[-> ->]]; repeat split; try (intros; lra); try (intros [? ?]; lra);
      try (intros [K1 K2]; assert (K3 := K2 ltac:(lra)); lra); try (intros [K|[_ K]]; lra); try (intros [[K|[K _]]|K]; lra). }
  destruct W as (whole & EW & SEM). exists sn, whole, ap', pl.
  split; [exact ES|]. split; [exact EW|]. split; [exact XS|]. split; [exact EP|]. split; [reflexivity|]. split; [reflexivity|]. split; [reflexivity|].
  split; [exact IP|]. split; [exact TP|]. split; [exact PC|].
  intros sg' SG'. assert (sg' = sg) as -> by (destruct SG as [[-> K]|[-> K]], SG' as [[-> K']|[-> K']]; try reflexivity; exfalso; lra).
  intros sense p S1 S2. unfold cone_in, cone_out. cbn [holds]. rewrite !zenv_signed, zenv_minus, zenv_sid by lia.
  destruct (SEM p) as (N1 & N2 & X1 & X2). destruct (SA p) as [A1 A2]. unfold side in S1, S2. rewrite N1, N2.
  destruct (sense (s_id s)), (sense (n + 1)%Z), sg; cbn [andb orb negb]; split; split; intro K; try discriminate K; try reflexivity; try tauto.
Qed.

Lemma in_out env a b sg : (0 < a)%Z -> (0 < b)%Z -> holds (zenv env) (cone_in a b sg) = negb (holds (zenv env) (cone_out a b sg)).
Proof.
  intros A B. unfold cone_in, cone_out. cbn [holds]. rewrite !zenv_signed, zenv_minus, zenv_sid by lia. destruct (env a), (env b), sg; reflexivity.
Qed.

(** The atoms of a region are words of the cell. *)
Lemma atoms_words ws r w : expr (map word_tok ws) r -> In w (atoms r) -> In w ws /\ word_tok w = TAtom w.
Proof.
  intros EX I. rewrite <- (proj1 expr_atoms _ _ EX) in I. unfold tok_atoms in I. apply in_flat_map in I as (tk & IT & I).
  destruct tk; try (now destruct I). destruct I as [->|[]]. apply in_map_iff in IT as (v & EV & IV).
  assert (v = w); [|now subst v]. destruct (word_tok_cases v) as [[-> K]|[[-> K]|[[-> K]|(_ & _ & _ & K)]]]; rewrite K in EV; try discriminate EV.
  destruct (text_eqb_spec v (T ")")); [discriminate EV|now injection EV].
Qed.

(** What does not change of a cell. *)
Definition same_contents (c c' : cell) : Prop := c_id c' = c_id c /\ c_mat c' = c_mat c /\ c_dens c' = c_dens c.

(** One cone and all cells. *)
Lemma one_cone fuel n s x s' cells rs : (0 <= n)%Z -> (0 < s_id s <= n)%Z -> length (s_coef s) = 5%nat -> simplify_cone n s = Some (x, s') -> Forall2 (of_region n) cells rs ->
  exists cells' rs', all_cells (cone_cell (S (S fuel)) (sid (s_id s)) x) cells = NotsModel.Done cells' /\ Forall2 same_contents cells cells' /\ Forall2 (of_region (n + 1)) cells' rs' /\
    forall sense m, (forall sg, (sg = true /\ nth 4 (s_coef s) 0 = -1 \/ sg = false /\ nth 4 (s_coef s) 0 = 1) -> sense (s_id s) = holds (zenv m) (cone_out (s_id s) (n + 1) sg)) ->
      (forall i, (1 <= i <= n)%Z -> i <> s_id s -> sense i = m i) -> Forall2 (fun r r' => holds (zenv sense) r = holds (zenv m) r') rs rs'.
Proof.
  intros P Q L E F. induction F as [|c r cells rs O F (cells' & rs' & A & B & C & D)].
  - exists [], []. repeat split; constructor.
  - destruct (one_cell fuel n s x s' c r P Q L E O) as (c' & r' & sg & SG & CC & K1 & K2 & K3 & O' & H). exists (c' :: cells'), (r' :: rs').
    cbn [all_cells]. rewrite CC, A. split; [reflexivity|]. split; [constructor; [now repeat split|exact B]|]. split; [now constructor|].
    intros sense m S1 S2. constructor; [|now apply D]. apply H.
    + rewrite zenv_minus, in_out by lia. f_equal. now apply S1.
    + rewrite zenv_sid by lia. now apply S1.
    + destruct O as (PW & _ & _). rewrite Forall_forall in PW. intros w I TW N1 N2. destruct (PW w I) as [->|[->|[->|(i & R & [->| ->])]]]; try discriminate TW.
      * rewrite !zenv_sid by lia. apply S2; [lia|]. intros ->. now apply N1.
      * rewrite !zenv_minus by lia. f_equal. apply S2; [lia|]. intros ->. now apply N2.
Qed.

Lemma forall2_trans {A} (R : A -> A -> Prop) : (forall a b c, R a b -> R b c -> R a c) -> forall x y z, Forall2 R x y -> Forall2 R y z -> Forall2 R x z.
Proof. intros H x y z F. revert z. induction F; intros z G; inversion G; subst; constructor; eauto. Qed.

(** C93 for the whole deck: if every cone has one sheet, the loop ends without an exception; the surfaces keep their numbers, the new
    planes have new ones, and at every point on no cone and no new plane every cell is the region that it was.  [at_] gives the point in the coordinates of each
    transform. *)
Theorem C93_all fuel n surfs cells rs : (0 <= n)%Z -> Forall (fun s => 0 < s_id s <= n)%Z surfs -> NoDup (map s_id surfs) ->
  (forall s, In s surfs -> is_cone s = true -> one_sheeted s) -> Forall2 (of_region n) cells rs ->
  exists n' old new cells' rs', simplify_cones (S (S fuel)) n surfs cells = NotsModel.Done (n', old, new, cells') /\ map s_id old = map s_id surfs /\
    Forall (fun s => n < s_id s <= n')%Z new /\ NoDup (map s_id new) /\ Forall2 same_contents cells cells' /\ Forall2 (of_region n') cells' rs' /\
    forall (at_ : option text -> pt) sense sense',
      (forall s, In s surfs -> is_cone s = true -> exists sn, surf_sense s = Some sn /\ side sn (at_ (s_tr s)) (sense (s_id s))) ->
      (forall i, (1 <= i <= n)%Z -> (forall s, In s surfs -> is_cone s = true -> s_id s <> i) -> sense i = sense' i) ->
      (forall s, In s (filter is_cone old ++ new) -> exists sn, after_sense s = Some sn /\ side sn (at_ (s_tr s)) (sense' (s_id s))) ->
      Forall2 (fun r r' => holds (zenv sense) r = holds (zenv sense') r') rs rs'.
Proof.
  revert n cells rs. induction surfs as [|s surfs IH]; intros n cells rs P F ND ON G.
  - exists n, [], [], cells, rs. split; [reflexivity|]. split; [reflexivity|]. split; [constructor|]. split; [constructor|].
    split; [clear; induction cells; constructor; [now repeat split|assumption]|]. split; [exact G|].
    intros at_ sense sense' _ A _. clear -G A. induction G as [|c r cells rs (PW & EX & _) G IH]; constructor; [|exact IH].
    apply holds_ext_atoms. intros w I. destruct (atoms_words _ _ _ EX I) as [IW TW].
    rewrite Forall_forall in PW. destruct (PW w IW) as [->|[->|[->|(i & R & [->| ->])]]]; try discriminate TW.
    + rewrite !zenv_sid by lia. apply A; [lia|intros ? []].
    + rewrite !zenv_minus by lia. f_equal. apply A; [lia|intros ? []].
  - inversion F as [|? ? F1 F2]; subst. inversion ND as [|? ? N1 N2]; subst. cbn [simplify_cones]. destruct (is_cone s) eqn:CO.
    + assert (HA : (0 < s_id s)%Z) by lia. assert (HB : (0 < n + 1)%Z) by lia. destruct (ON s (or_introl eq_refl) CO) as [L SH]. destruct (simplify_cone n s) as [[x s']|] eqn:E.
      2:{ exfalso. apply C93_fails_iff in E as [_ [K|[K1 K2]]]; [|tauto]. apply K. unfold is_cone in CO. destruct (s_type s); try discriminate CO; cbn; auto. }
      destruct (one_cone fuel n s x s' cells rs P F1 L E G) as (c1 & r1 & A1 & A2 & A3 & A4).
      destruct (sheet_sides n s x s' P (proj1 F1) L E) as (sn & whole & ap & pl & B1 & B2 & B3 & B4 & B5 & B6 & B7 & B8 & B9 & B10 & B11).
      destruct (IH (n + 1)%Z c1 r1) as (n' & old & new & cells' & rs' & I1 & I2 & I3 & I4 & I5 & I6 & I7); [lia|apply (Forall_impl _) with (2 := F2); intros; lia|exact N2|intros; apply ON; [now right|assumption]|exact A3|].
      rewrite L. change (5 =? 5)%nat with true. cbv iota. rewrite A1, I1, B3. cbn [map].
      exists n', (s' :: old), (with_transform s pl :: new), cells', rs'.
      assert (WI : s_id (with_transform s pl) = (n + 1)%Z) by (unfold with_transform; destruct (s_tr s); exact B8).
      assert (WT : s_tr (with_transform s pl) = s_tr s) by (unfold with_transform; destruct (s_tr s); [reflexivity|exact B9]).
      assert (WS : after_sense (with_transform s pl) = Some ap) by (unfold after_sense, with_transform, surf_sense, is_cone in *; destruct (s_tr s); cbn [s_type s_coef]; rewrite B10; exact B4).
      assert (LE : (n + 1 <= n')%Z).
      { clear -I1. revert I1. generalize (n + 1)%Z, c1, n', old, new, cells'. induction surfs as [|u l IH]; intros n0 cs m o w cs' H; cbn [simplify_cones] in H; [injection H; lia|].
        destruct (is_cone u).
        - destruct (simplify_cone n0 u) as [[y u']|]; [|discriminate]. destruct (all_cells _ cs) as [cs1| |]; try discriminate.
          destruct (simplify_cones (S (S fuel)) _ l cs1) as [[[[m1 o1] w1] k1]| |] eqn:EE; try discriminate. injection H as <- _ _ _. apply IH in EE. destruct (_ =? 5)%nat; lia.
        - destruct (simplify_cones (S (S fuel)) n0 l cs) as [[[[m1 o1] w1] k1]| |] eqn:EE; try discriminate. injection H as <- _ _ _. now apply IH in EE. }
      split; [reflexivity|]. split; [cbn [map]; now rewrite I2, B5|]. split; [constructor; [rewrite WI; lia|apply (Forall_impl _) with (2 := I3); intros; lia]|].
      split. { cbn [map]. constructor; [|exact I4]. rewrite WI. intro J. apply in_map_iff in J as (u & EU & IU). rewrite Forall_forall in I3. specialize (I3 u IU). lia. }
      split. { apply (forall2_trans same_contents) with c1; [|exact A2|exact I5]. intros a b c (X1 & X2 & X3) (Y1 & Y2 & Y3). unfold same_contents. rewrite Y1, Y2, Y3. auto. }
      split; [exact I6|]. intros at_ sense sense' S1 S2 S3.
      assert (C' : is_cone s' = true) by (unfold is_cone in *; rewrite B7; exact CO).
      set (m := fun i => if Z.eq_dec i (s_id s) then sense' i else if Z.eq_dec i (n + 1) then sense' i else sense i).
      assert (MA : m (s_id s) = sense' (s_id s)) by (unfold m; destruct (Z.eq_dec (s_id s) (s_id s)); [reflexivity|tauto]).
      assert (MB : m (n + 1)%Z = sense' (n + 1)%Z) by (unfold m; destruct (Z.eq_dec (n + 1) (s_id s)); [reflexivity|]; destruct (Z.eq_dec (n + 1) (n + 1)); [reflexivity|tauto]).
      assert (MO : forall i, i <> s_id s -> (i <= n)%Z -> m i = sense i).
      { intros i Y1 Y2. unfold m. destruct (Z.eq_dec i (s_id s)); [tauto|]. destruct (Z.eq_dec i (n + 1)); [clear -Y2 e; lia|reflexivity]. }
      clearbody m.
      destruct (S3 s') as (w' & V1 & V2); [cbn [filter]; rewrite C'; now left|]. unfold after_sense in V1. rewrite C', B2 in V1. injection V1 as <-.
      destruct (S3 (with_transform s pl)) as (a' & U1 & U2); [apply in_or_app; right; now left|]. rewrite WS in U1. injection U1 as <-.
      rewrite B5, B6 in V2. rewrite WI, WT in U2. rewrite <- MA in V2. rewrite <- MB in U2.
      destruct (S1 s (or_introl eq_refl) CO) as (sn' & T1 & T2). rewrite B1 in T1. injection T1 as <-.
      assert (H1 : Forall2 (fun r r' => holds (zenv sense) r = holds (zenv m) r') rs r1).
      { apply A4; [|intros i Y1 Y2; symmetry; apply MO; [exact Y2|exact (proj2 Y1)]]. intros sg SG. destruct (B11 sg SG m _ V2 U2) as [X1 X2]. unfold side in T2.
        destruct (sense (s_id s)); [symmetry; now apply X2|]. apply X1 in T2. rewrite in_out in T2 by assumption. apply negb_true_iff in T2. now symmetry. }
      assert (H2 : Forall2 (fun r r' => holds (zenv m) r = holds (zenv sense') r') r1 rs').
      { apply (I7 at_).
        - intros u IU CU. destruct (S1 u (or_intror IU) CU) as (su & Z1 & Z2). exists su. split; [exact Z1|]. rewrite MO; [exact Z2| |].
          + intro K. apply N1. rewrite <- K. now apply in_map.
          + rewrite Forall_forall in F2. apply F2, IU.
        - intros i R NC. destruct (Z.eq_dec i (s_id s)) as [->|NE]; [exact MA|]. destruct (Z.eq_dec i (n + 1)) as [->|NE2]; [exact MB|]. assert (R' : (1 <= i <= n)%Z) by (clear -R NE2; lia). rewrite MO; [|exact NE|exact (proj2 R')].
          apply S2; [exact R'|]. intros u [<-|IU] CU; [congruence|now apply NC].
        - intros u IU. apply S3. cbn [filter]. rewrite C'. apply in_app_iff in IU as [IU|IU]; apply in_or_app; [left; now right|right; now right]. }
      clear -H1 H2. revert rs' H2. induction H1 as [|a b x y E H1 IH]; intros rs' H2; inversion H2; subst; constructor; [congruence|now apply IH].
    + destruct (IH n cells rs) as (n' & old & new & cells' & rs' & I1 & I2 & I3 & I4 & I5 & I6 & I7); [exact P|exact F2|exact N2|intros; apply ON; [now right|assumption]|exact G|].
      rewrite I1. exists n', (s :: old), new, cells', rs'. split; [reflexivity|]. split; [cbn [map]; now rewrite I2|]. do 4 (split; [assumption|]).
      intros at_ sense sense' S1 S2 S3. apply (I7 at_).
      * intros u IU CU. apply S1; [now right|exact CU].
      * intros i R NC. apply S2; [exact R|]. intros u [<-|IU] CU; [congruence|now apply NC].
      * intros u IU. apply S3. cbn [filter]. rewrite CO. exact IU.
Qed.
Print Assumptions C93_all.

(** C93: the step does not end well for a cone that it has been through, which has four coefficients, if a cell names the cone. *)
Theorem C93_again fuel n s r cells c out : is_cone s = true -> length (s_coef s) <> 5%nat -> In c cells ->
  In (sid (s_id s)) (c_text c) \/ In (minus (sid (s_id s))) (c_text c) -> simplify_cones fuel n (s :: r) cells <> NotsModel.Done out.
Proof.
  intros CO L I W. cbn [simplify_cones]. rewrite CO. destruct (simplify_cone n s) as [[x s']|]; [|discriminate].
  rewrite (proj2 (Nat.eqb_neq _ _) L). assert (A : forall cs, all_cells (plain_cell (sid (s_id s))) cells <> NotsModel.Done cs).
  2:{ destruct (all_cells (plain_cell (sid (s_id s))) cells) as [cs| |]; [now elim (A cs)|discriminate|discriminate]. }
  induction cells as [|d cells IH]; [destruct I|]. intro cs. cbn [all_cells]. destruct I as [->|I].
  - assert (P : plain_cell (sid (s_id s)) c = NotsModel.Raised); [|now rewrite P].
    unfold plain_cell. assert (X : existsb (fun w => text_eqb (sid (s_id s)) w || text_eqb (T "-" ++ sid (s_id s)) w) (c_text c) = true); [|now rewrite X].
    apply existsb_exists. destruct W as [W|W]; eexists; (split; [exact W|]); apply orb_true_iff; [left|right]; now destruct (text_eqb_spec (sid (s_id s)) (sid (s_id s)));
      try (now destruct (text_eqb_spec (T "-" ++ sid (s_id s)) (minus (sid (s_id s))))).
  - destruct (plain_cell _ d) as [d'| |]; try discriminate. specialize (IH I). destruct (all_cells _ cells) as [cs'| |]; try discriminate. now elim (IH cs').
Qed.
Print Assumptions C93_again.

(** C93: nor when the cells name facets of its number: the loop goes on for ever.  It has been through the cells before [c]. *)
Theorem C93_again_facet fuel n s r c cells w : is_cone s = true -> length (s_coef s) <> 5%nat ->
  ~ In (sid (s_id s)) (c_text c) -> ~ In (minus (sid (s_id s))) (c_text c) -> In w (c_text c) -> macro_match (sid (s_id s)) w = true ->
  simplify_cones fuel n (s :: r) (c :: cells) = NotsModel.Running.
Proof.
  intros CO L N1 N2 I W. cbn [simplify_cones]. rewrite CO. rewrite (proj2 (Nat.eqb_neq _ _) L).
  assert (E : exists x s', simplify_cone n s = Some (x, s')).
  { unfold simplify_cone. destruct (s_coef s) as [|a [|b [|d [|e [|f [|]]]]]]; try (eexists _, _; reflexivity). now elim L. }
  destruct E as (x & s' & ->). cbn [all_cells]. assert (P : plain_cell (sid (s_id s)) c = NotsModel.Running); [|now rewrite P].
  unfold plain_cell. destruct (existsb (fun v => text_eqb (sid (s_id s)) v || text_eqb (T "-" ++ sid (s_id s)) v) (c_text c)) eqn:X.
  - exfalso. apply existsb_exists in X as (v & IV & V). apply orb_true_iff in V as [V|V].
    + destruct (text_eqb_spec (sid (s_id s)) v); [now subst v|discriminate V].
    + destruct (text_eqb_spec (T "-" ++ sid (s_id s)) v); [now subst v|discriminate V].
  - assert (Y : existsb (macro_match (sid (s_id s))) (c_text c) = true) by (apply existsb_exists; eauto). now rewrite Y.
Qed.
Print Assumptions C93_again_facet.
Example C93_again_facet_example : simplify_cones 7 9 [mkS 5 None CONE_Z [0; 0; 2; 1] TRANSMISSION] [Cell 1 0 0%Q [T "-5.2"; T "7"] [] []] = NotsModel.Running.
Proof. apply C93_again_facet with (T "-5.2"); try reflexivity; try discriminate; cbn; try intros [K|[K|[]]]; try discriminate K; auto. Qed.

(** C93: so the step is not one that can be repeated: its own result makes it raise. *)
Theorem C93_again_refuted : exists n surfs cells n' old new cells',
  simplify_cones 2 n surfs cells = NotsModel.Done (n', old, new, cells') /\ forall fuel, simplify_cones fuel n' (old ++ new) cells' = NotsModel.Raised.
Proof.
  exists 9%Z, [mkS 5 None CONE_Z [0; 0; 2; 1; -1] TRANSMISSION], [Cell 1 0 0%Q [T "-5"; T "7"] [] []].
  destruct (simplify_cone 9 (mkS 5 None CONE_Z [0; 0; 2; 1; -1] TRANSMISSION)) as [[x s']|] eqn:E.
  2:{ exfalso. apply C93_fails_iff in E as [_ [K|[_ K]]]; [apply K; cbn; auto|now apply K]. }
  assert (F : x = mkX (T "( -5 -10 )") (T "(  5 -10 : 10)") [new_pz 10 2] /\ s' = mkS 5 None CONE_Z [0; 0; 2; 1] TRANSMISSION).
  { unfold simplify_cone in E. cbn [s_coef s_type s_id s_tr s_bc] in E. destruct (Req_EM_T (-1) (-1)) as [_|K]; [|now elim K].
    match type of E with Some (?u, ?v) = _ => assert (EX : x = u) by congruence; assert (ES : s' = v) by congruence end. rewrite EX, ES. split; reflexivity. }
  destruct F as [-> ->].
  set (c := cone_cell 2 (sid 5) (mkX (T "( -5 -10 )") (T "(  5 -10 : 10)") [new_pz 10 2]) (Cell 1 0 0%Q [T "-5"; T "7"] [] [])).
  assert (C : exists c', c = NotsModel.Done c' /\ c_text c' = [T "("; T "-5"; T "-10"; T ")"; T "7"]) by (eexists; split; vm_compute; reflexivity).
  destruct C as (c' & C1 & C2). unfold c in C1.
  exists 10%Z, [mkS 5 None CONE_Z [0; 0; 2; 1] TRANSMISSION], [new_pz 10 2], [c']. split.
  - cbn [simplify_cones is_cone s_type]. rewrite E. cbn [s_coef length Nat.eqb s_id all_cells]. rewrite C1. reflexivity.
  - intro fuel. cbn [app simplify_cones is_cone s_type]. unfold simplify_cone at 1. cbn [s_coef length Nat.eqb s_id all_cells]. unfold plain_cell. rewrite C2. reflexivity.
Qed.
Print Assumptions C93_again_refuted.

(** Two cones, the second with a transform, and a plane: 1, k/z 0 0 2 1 -1, 2, pz, and 3, k/x with the upper sheet; the cells -1 2 -3 and 1 : 3. *)
Example C93_all_example : let surfs := [mkS 1 None CONE_Z [0; 0; 2; 1; -1] TRANSMISSION; new_pz 2 7; mkS 3 (Some (T "4")) CONE_X [1; 0; 0; 4; 1] TRANSMISSION] in
  let cells := [Cell 1 0 0%Q [T "-1"; T "2"; T "-3"] [Str (T "-1"); Str (T "2"); Str (T "-3")] []; Cell 2 0 0%Q [T "1"; T ":"; T "3"] [Str (T "1"); Op UNION; Str (T "3")] []] in
  let rs := [RAnd (RAnd (RAtom (T "-1")) (RAtom (T "2"))) (RAtom (T "-3")); ROr (RAtom (T "1")) (RAtom (T "3"))] in
  Forall (fun s => 0 < s_id s <= 3)%Z surfs /\ NoDup (map s_id surfs) /\ (forall s, In s surfs -> is_cone s = true -> one_sheeted s) /\ Forall2 (of_region 3) cells rs /\
  exists n' old new cells', simplify_cones 2 3 surfs cells = NotsModel.Done (n', old, new, cells') /\ map s_id (old ++ new) = [1; 2; 3; 4; 5]%Z /\
    map s_tr new = [None; Some (T "4")] /\
    map c_text cells' = [[T "("; T "-1"; T "-4"; T ")"; T "2"; T "("; T "-3"; T "5"; T ")"]; [T "("; T "1"; T "-4"; T ":"; T "4"; T ")"; T ":"; T "("; T "3"; T "5"; T ":"; T "-5"; T ")"]].
Proof.
  cbv zeta. split; [repeat (constructor; [cbn; lia|]); constructor|]. split; [repeat constructor; cbn; intuition lia|].
  split; [intros s [<-|[<-|[<-|[]]]] CO; try discriminate CO; split; cbn; auto|].
  split.
  { apply Forall2_cons; [|apply Forall2_cons; [|apply Forall2_nil]]; (split; [|split; [now apply parse_sound|now apply parse_sound]]); repeat (apply Forall_cons; [unfold plain_word;
      first [right; right; left; reflexivity|right; right; right; first [exists 1%Z; split; [lia|first [left; reflexivity|right; reflexivity]]|exists 2%Z; split; [lia|first [left; reflexivity|right; reflexivity]]|exists 3%Z; split; [lia|first [left; reflexivity|right; reflexivity]]]]|]); apply Forall_nil. }
  destruct (simplify_cone 3 (mkS 1 None CONE_Z [0; 0; 2; 1; -1] TRANSMISSION)) as [[x s']|] eqn:E.
  2:{ exfalso. apply C93_fails_iff in E as [_ [K|[_ K]]]; [apply K; cbn; auto|now apply K]. }
  destruct (simplify_cone 4 (mkS 3 (Some (T "4")) CONE_X [1; 0; 0; 4; 1] TRANSMISSION)) as [[y t']|] eqn:E2.
  2:{ exfalso. apply C93_fails_iff in E2 as [_ [K|[K _]]]; [apply K; cbn; auto|now apply K]. }
  assert (F : x = mkX (T "( -1 -4 )") (T "(  1 -4 : 4)") [new_pz 4 2] /\ s' = mkS 1 None CONE_Z [0; 0; 2; 1] TRANSMISSION).
  { unfold simplify_cone in E. cbn [s_coef s_type s_id s_tr s_bc] in E. destruct (Req_EM_T (-1) (-1)) as [_|K]; [|now elim K].
    match type of E with Some (?u, ?v) = _ => assert (EX : x = u) by congruence; assert (ES : s' = v) by congruence end. rewrite EX, ES. split; reflexivity. }
  assert (G : y = mkX (T "( -3  5 )") (T "(  3  5 : -5)") [new_px 5 1] /\ t' = mkS 3 (Some (T "4")) CONE_X [1; 0; 0; 4] TRANSMISSION).
  { unfold simplify_cone in E2. cbn [s_coef s_type s_id s_tr s_bc] in E2. destruct (Req_EM_T 1 (-1)) as [K|_]; [exfalso; lra|]. destruct (Req_EM_T 1 1) as [_|K]; [|now elim K].
    match type of E2 with Some (?u, ?v) = _ => assert (EX : y = u) by congruence; assert (ES : t' = v) by congruence end. rewrite EX, ES. split; reflexivity. }
  destruct F as [-> ->], G as [-> ->].
  set (cells := [Cell 1 0 0%Q [T "-1"; T "2"; T "-3"] [Str (T "-1"); Str (T "2"); Str (T "-3")] []; Cell 2 0 0%Q [T "1"; T ":"; T "3"] [Str (T "1"); Op UNION; Str (T "3")] []]).
  assert (C : exists c1 c2, all_cells (cone_cell 2 (sid 1) (mkX (T "( -1 -4 )") (T "(  1 -4 : 4)") [new_pz 4 2])) cells = NotsModel.Done c1 /\
     all_cells (cone_cell 2 (sid 3) (mkX (T "( -3  5 )") (T "(  3  5 : -5)") [new_px 5 1])) c1 = NotsModel.Done c2 /\
     map c_text c2 = [[T "("; T "-1"; T "-4"; T ")"; T "2"; T "("; T "-3"; T "5"; T ")"]; [T "("; T "1"; T "-4"; T ":"; T "4"; T ")"; T ":"; T "("; T "3"; T "5"; T ":"; T "-5"; T ")"]]).
  { eexists _, _. split; [vm_compute; reflexivity|]. split; vm_compute; reflexivity. }
  destruct C as (c1 & c2 & C1 & C2 & C3). do 3 eexists. exists c2. split; [|split; [|split; [|exact C3]]].
  - cbn [simplify_cones is_cone s_type new_pz]. rewrite E. cbn [s_coef length Nat.eqb s_id]. rewrite C1. change (3 + 1)%Z with 4%Z. rewrite E2. cbn [s_coef length Nat.eqb s_id]. rewrite C2. reflexivity.
  - reflexivity.
  - reflexivity.
Qed.
