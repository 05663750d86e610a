(** Property theorems C92-C94: the functions that nobody calls (csg2csg/MCNPInput.py 511-701, csg2csg/MCNPCellCard.py 17-40). *)
From Coq Require Import Reals List Lra Psatz QArith.
From Verif Require Import PyStr PyStrFacts PyInt PyIntFacts RegionSpec RegionFacts GeomSpec SurfModel SurfSpec SurfProofs
  MacroModel MacroSpec MacroProofs MacroText CellModel CellProofs CellText PropMacro FlattenModel FlattenProofs ProcessSpec UnusedModel.
From Verif Require NotsModel PropSurf PropCards.
Import ListNotations.
Open Scope R_scope.
Open Scope list_scope.

(* ---------------------------------------------------------------- C92 *)

(** The part of the cylinder (without ends) around [b], along the axis [h], that is below both of the planes through [b] and
    [b + h]; below is the direction of decreasing coordinate. *)
Definition below_both (b h : pt) (r : R) (p : pt) : Prop :=
  (px h = 0 /\ py h = 0 /\ cyl_z (px b) (py b) r p < 0 /\ pz p < pz b /\ pz p < pz b + pz h) \/
  (px h = 0 /\ pz h = 0 /\ py h <> 0 /\ cyl_y (px b) (pz b) r p < 0 /\ py p < py b /\ py p < py b + py h) \/
  (py h = 0 /\ pz h = 0 /\ px h <> 0 /\ cyl_x (py b) (pz b) r p < 0 /\ px p < px b /\ px p < px b + px h).
Definition below_both_closed (b h : pt) (r : R) (p : pt) : Prop :=
  (px h = 0 /\ py h = 0 /\ cyl_z (px b) (py b) r p <= 0 /\ pz p <= pz b /\ pz p <= pz b + pz h) \/
  (px h = 0 /\ pz h = 0 /\ py h <> 0 /\ cyl_y (px b) (pz b) r p <= 0 /\ py p <= py b /\ py p <= py b + py h) \/
  (py h = 0 /\ pz h = 0 /\ px h <> 0 /\ cyl_x (py b) (pz b) r p <= 0 /\ px p <= px b /\ px p <= px b + px h).

(** Along a coordinate axis. *)
Definition on_axis (h : pt) : Prop := (px h = 0 /\ py h = 0) \/ (px h = 0 /\ pz h = 0) \/ (py h = 0 /\ pz h = 0).

Lemma rcc_axis_none n b h r : rcc_along_axis n (px b) (py b) (pz b) (px h) (py h) (pz h) r = None <-> ~ on_axis h.
Proof.
  unfold rcc_along_axis, on_axis.
  destruct (Req_EM_T (px h) 0), (Req_EM_T (py h) 0), (Req_EM_T (pz h) 0); split; intro H; try discriminate; try reflexivity; try tauto.
Qed.

(** C92: the simpler version for a cylinder along an axis raises when the axis is not along x, y or z; otherwise the text for
    inside names the part of the infinite cylinder that is below both end planes, and the text for outside its complement. *)
Theorem C92_axis_cylinder n b h r : (0 <= n)%Z ->
  (rcc_along_axis n (px b) (py b) (pz b) (px h) (py h) (pz h) r = None <-> ~ on_axis h) /\
  forall x, rcc_along_axis n (px b) (py b) (pz b) (px h) (py h) (pz h) r = Some x -> body_ok n 3 x (below_both b h r) (below_both_closed b h r).
Proof.
  intro P. split; [apply rcc_axis_none|]. intros x E. unfold rcc_along_axis in E.
  assert (X : forall cyl (pl : Z -> R -> surface) (u v top bottom : R), (forall k d, s_id (pl k d) = k /\ is_macrobody (pl k d) = false /\ s_tr (pl k d) = None) -> is_macrobody (mkS 0 None cyl [u; v; r] TRANSMISSION) = false ->
    x = mkX (T "(" ++ T " -" ++ sid (n + 1) ++ T " -" ++ sid (n + 2) ++ T " -" ++ sid (n + 3) ++ T ")")
              (T "(" ++ T "  " ++ sid (n + 1) ++ T ":" ++ sid (n + 2) ++ T ":" ++ sid (n + 3) ++ T ")")
              [mkS (n + 1) None cyl [u; v; r] TRANSMISSION; pl (n + 2)%Z bottom; pl (n + 3)%Z top] ->
    good_x n 3 x /\ ~ In "#"%char (x_in x) /\ ~ In "#"%char (x_out x)).
  { intros cyl pl u v top bottom PL CY ->. unfold good_x, ids_of. cbn [x_in x_out x_surfs map s_id].
    destruct (PL (n + 2)%Z bottom) as (-> & P2 & P3). destruct (PL (n + 3)%Z top) as (-> & Q2 & Q3).
    split; [|split; no_hash].
    split; [reflexivity|]. split; [lia|]. split; [split_words; reflexivity|]. split; [split_words; reflexivity|].
    split; [no_dollar|]. split; [no_dollar|]. constructor; [split; [exact CY|reflexivity]|]. constructor; [now split|]. constructor; [now split|constructor]. }
  assert (G : good_x n 3 x /\ ~ In "#"%char (x_in x) /\ ~ In "#"%char (x_out x)).
  { destruct (Req_EM_T (px h) 0), (Req_EM_T (py h) 0), (Req_EM_T (pz h) 0); try discriminate E; injection E as <-;
      (eapply X; [| |reflexivity]; [intros; repeat split|reflexivity]). }
  destruct G as (G & H1 & H2). clear X. apply body_intro; [exact P|exact G|exact H1|exact H2| |]; intro p;
    unfold below_both, below_both_closed;
    destruct (Req_EM_T (px h) 0), (Req_EM_T (py h) 0), (Req_EM_T (pz h) 0); try discriminate E; injection E as <-; cbn [x_surfs];
    repeat (first [erewrite all_neg_cons by reflexivity|erewrite none_pos_cons by reflexivity]); rewrite ?all_neg_nil, ?none_pos_nil;
    unfold of_fun, plane; cbn [neg pos]; destruct p as [x y z]; cbn [px py pz]; split; intros H; try lra.
Qed.
Print Assumptions C92_axis_cylinder.

(** No point of the cylinder is where the text for inside says. *)
Theorem C92_never_inside b h r p : nonzero h -> in_rcc b h r p -> ~ below_both b h r p.
Proof.
  intros A (s & S & D & _) B. unfold below_both in B. destruct b as [b1 b2 b3], h as [h1 h2 h3], p as [x y z].
  cbn [px py pz] in *. unfold dot, sub_pt, add_pt, scale_pt in D. cbn [px py pz] in D.
  destruct B as [(E1 & E2 & _ & L1 & L2)|[(E1 & E2 & N & _ & L1 & L2)|(E1 & E2 & N & _ & L1 & L2)]]; subst.
  - assert (N : h3 <> 0) by (intros ->; now apply A). assert (z = b3 + s * h3) by nra. nra.
  - assert (y = b2 + s * h2) by nra. nra.
  - assert (x = b1 + s * h1) by nra. nra.
Qed.
Print Assumptions C92_never_inside.

(** The simpler version is not the cylinder: RCC 0 0 0 0 0 4 1 and the point (0, 0, 1), which is inside the body and on the
    positive side of the plane through the base. *)
Theorem C92_axis_cylinder_refuted : exists n b h r x p,
  rcc_along_axis n (px b) (py b) (pz b) (px h) (py h) (pz h) r = Some x /\ nonzero h /\ in_rcc b h r p /\
  exists ri, expr (mcnp_lex (x_in x)) ri /\
    forall sense, (forall s, In s (x_surfs x) -> exists sn, surf_sense s = Some sn /\ (sense (s_id s) = false <-> neg sn p)) ->
    holds (zenv sense) ri = false.
Proof.
  destruct (rcc_along_axis 20 0 0 0 0 0 4 1) as [x|] eqn:E.
  2:{ exfalso. apply (rcc_axis_none 20 (Pt 0 0 0) (Pt 0 0 4) 1) in E. apply E. left. split; reflexivity. }
  assert (IN : in_rcc (Pt 0 0 0) (Pt 0 0 4) 1 (Pt 0 0 1)).
  { exists (1 / 4). unfold dot, sub_pt, add_pt, scale_pt. cbn [px py pz]. split; [lra|]. split; lra. }
  assert (NZ : nonzero (Pt 0 0 4)) by (intro H; injection H; lra).
  exists 20%Z, (Pt 0 0 0), (Pt 0 0 4), 1, x, (Pt 0 0 1). cbn [px py pz]. split; [exact E|]. split; [exact NZ|]. split; [exact IN|].
  destruct (C92_axis_cylinder 20 (Pt 0 0 0) (Pt 0 0 4) 1 ltac:(lia)) as [_ H]. destruct (H x E) as (_ & ri & ro & E1 & _ & K).
  exists ri. split; [exact E1|]. intros sense SE. destruct (K sense (Pt 0 0 1)) as (_ & K1 & _). specialize (K1 SE).
  destruct (holds (zenv sense) ri); [|reflexivity]. exfalso. apply (C92_never_inside _ _ _ _ NZ IN). now apply K1.
Qed.
Print Assumptions C92_axis_cylinder_refuted.

(** An RCC of height 3 along y around (1, 2, 5): the point (1, 0, 5) below its base is what the text names. *)
Example C92_example : on_axis (Pt 0 3 0) /\ below_both (Pt 1 2 5) (Pt 0 3 0) 2 (Pt 1 0 5) /\ ~ in_rcc (Pt 1 2 5) (Pt 0 3 0) 2 (Pt 1 0 5) /\
  in_rcc (Pt 1 2 5) (Pt 0 3 0) 2 (Pt 1 4 5).
Proof.
  split; [right; left; split; reflexivity|]. split.
  { right. left. unfold cyl_y. cbn [px py pz]. repeat split; lra. }
  assert (NZ : nonzero (Pt 0 3 0)) by (intro H; injection H; lra). split.
  - intro I. apply (C92_never_inside _ _ _ _ NZ I). right. left. unfold cyl_y. cbn [px py pz]. repeat split; lra.
  - exists (2 / 3). unfold dot, sub_pt, add_pt, scale_pt. cbn [px py pz]. split; [lra|]. split; lra.
Qed.

(* ---------------------------------------------------------------- C93 *)

(** The sides of a cone of which the number of the sheet has been taken away: both sheets. *)
Definition both_sheets (s : surface) : option sense := sem (s_type s) (s_coef s ++ [0]).

(** The sides of the plane through the apex, across the axis. *)
Definition apex_plane (s : surface) : option sense :=
  match s_type s, s_coef s with
  | CONE_X, x :: _ => Some (of_fun (fun p => px p - x))
  | CONE_Y, _ :: y :: _ => Some (of_fun (fun p => py p - y))
  | CONE_Z, _ :: _ :: z :: _ => Some (of_fun (fun p => pz p - z))
  | _, _ => None
  end.

(** [words] of the two texts. *)
Lemma cone_texts a b sg : 
  let x_i := T "( -" ++ sid a ++ (if sg : bool then T " -" else T "  ") ++ sid b ++ T " )" in
  let x_o := T "(  " ++ sid a ++ (if sg then T " -" else T "  ") ++ sid b ++ (if sg then T " : " else T " : -") ++ sid b ++ T ")" in
  words (spacify x_i) = [T "("; minus (sid a); signed_word sg b; T ")"] /\
  words (spacify x_o) = [T "("; sid a; signed_word sg b; T ":"; signed_word (negb sg) b; T ")"].
Proof.
  cbv zeta. destruct sg; unfold signed_word, sgn; cbn [negb]; split; split_words; reflexivity.
Qed.

(** The regions of the two texts. *)
Definition cone_in (a b : Z) (sg : bool) : region := RAnd (RAtom (minus (sid a))) (RAtom (signed_word sg b)).
Definition cone_out (a b : Z) (sg : bool) : region := ROr (RAnd (RAtom (sid a)) (RAtom (signed_word sg b))) (RAtom (signed_word (negb sg) b)).

Lemma signed_tok sg j : word_tok (signed_word sg j) = TAtom (signed_word sg j).
Proof. destruct sg; [apply word_tok_minus|apply word_tok_sid]. Qed.

Lemma cone_factors a b sg :
  factor (map word_tok [T "("; minus (sid a); signed_word sg b; T ")"]) (cone_in a b sg) /\
  factor (map word_tok [T "("; sid a; signed_word sg b; T ":"; signed_word (negb sg) b; T ")"]) (cone_out a b sg).
Proof.
  cbn [map]. rewrite !signed_tok, word_tok_minus, word_tok_sid.
  change (word_tok (T "(")) with TOpen. change (word_tok (T ")")) with TClose. change (word_tok (T ":")) with TUnion. split.
  - apply (factor_paren [TAtom (minus (sid a)); TAtom (signed_word sg b)]). apply expr_term.
    change [TAtom (minus (sid a)); TAtom (signed_word sg b)] with ([TAtom (minus (sid a))] ++ [TAtom (signed_word sg b)]). apply term_and; repeat constructor.
  - apply (factor_paren [TAtom (sid a); TAtom (signed_word sg b); TUnion; TAtom (signed_word (negb sg) b)]).
    change [TAtom (sid a); TAtom (signed_word sg b); TUnion; TAtom (signed_word (negb sg) b)]
      with (([TAtom (sid a)] ++ [TAtom (signed_word sg b)]) ++ TUnion :: [TAtom (signed_word (negb sg) b)]).
    apply expr_or; [|repeat constructor]. apply expr_term, term_and; repeat constructor.
Qed.

Lemma zenv_signed sense sg j : (0 < j)%Z -> zenv sense (signed_word sg j) = if sg then negb (sense j) else sense j.
Proof. intro P. destruct sg; [now apply zenv_minus|now apply zenv_sid]. Qed.

(** What [simplify_cone] gives for a cone. *)
Lemma simplify_shape n s x s' : length (s_coef s) = 5%nat -> simplify_cone n s = Some (x, s') ->
  exists sg pl, (sg = true /\ nth 4 (s_coef s) 0 = -1 \/ sg = false /\ nth 4 (s_coef s) 0 = 1) /\
    words (spacify (x_in x)) = [T "("; minus (sid (s_id s)); signed_word sg (n + 1); T ")"] /\
    words (spacify (x_out x)) = [T "("; sid (s_id s); signed_word sg (n + 1); T ":"; signed_word (negb sg) (n + 1); T ")"] /\
    ~ In "#"%char (x_in x) /\ ~ In "#"%char (x_out x) /\ ~ In "$"%char (x_in x) /\ ~ In "$"%char (x_out x) /\
    x_surfs x = [pl] /\ s_id pl = (n + 1)%Z /\ s_tr pl = None /\ (exists ap sn, apex_plane s = Some ap /\ denotes pl ap /\ surf_sense s = Some sn) /\
    s' = mkS (s_id s) (s_tr s) (s_type s) (firstn 4 (s_coef s)) (s_bc s) /\ macro_match (sid (s_id s)) (x_in x) = false /\ macro_match (sid (s_id s)) (x_out x) = false.
Proof.
  intros L E. unfold simplify_cone in E. destruct (s_coef s) as [|a [|b [|c [|d [|e [|]]]]]] eqn:EC; try discriminate L. clear L.
  assert (PL : exists pl, (match s_type s with CONE_X => Some (new_px (n + 1) a) | CONE_Y => Some (new_py (n + 1) b) | CONE_Z => Some (new_pz (n + 1) c) | _ => None end) = Some pl /\
    s_id pl = (n + 1)%Z /\ s_tr pl = None /\ exists ap sn, apex_plane s = Some ap /\ denotes pl ap /\ surf_sense s = Some sn).
  { unfold apex_plane, surf_sense. rewrite EC. destruct (s_type s); try discriminate E; (eexists; split; [reflexivity|]; split; [reflexivity|]; split; [reflexivity|]);
      (eexists; eexists; split; [reflexivity|]; split; [|reflexivity]); (eexists; split; [reflexivity|]); intro p; unfold of_fun, plane; cbn [neg pos]; split; split; lra. }
  destruct PL as (pl & EP & I1 & I2 & I3). rewrite EP in E. cbn [nth firstn].
  assert (MM : forall w r, macro_match (sid r) ("("%char :: w) = false).
  { intros w r. unfold macro_match. change (Ascii.eqb "(" "-") with false. cbv iota. destruct (sid_plain r) as [N P].
    destruct (sid r) as [|q t]; [now elim N|]. cbn [after]. cbn [forallb] in P. destruct (Ascii.eqb_spec q "(") as [->|]; [discriminate P|reflexivity]. }
  destruct (Req_EM_T e (-1)) as [E1|E1]; [|destruct (Req_EM_T e 1) as [E2|E2]; [|discriminate E]]; (match type of E with Some (?u, ?v) = _ => assert (EX : x = u) by congruence; assert (ES : s' = v) by congruence end);
    clear E; rewrite EX, ES; clear EX ES; cbn [x_in x_out x_surfs];
    [exists true|exists false]; exists pl; (split; [auto|]).
  - destruct (cone_texts (s_id s) (n + 1) true) as [A B]. split; [exact A|]. split; [exact B|]. split; [no_hash|]. split; [no_hash|]. split; [no_dollar|]. split; [no_dollar|].
    repeat (split; [assumption || reflexivity|]). split; apply MM.
  - destruct (cone_texts (s_id s) (n + 1) false) as [A B]. split; [exact A|]. split; [exact B|]. split; [no_hash|]. split; [no_hash|]. split; [no_dollar|]. split; [no_dollar|].
    repeat (split; [assumption || reflexivity|]). split; apply MM.
Qed.

(** C93: a cone of which one sheet is meant becomes the cone with both sheets and a plane: the two texts name the inside and the
    outside of the sheet, at every point that is on neither. *)
Theorem C93_one_sheet n s x s' : (0 <= n)%Z -> (0 < s_id s)%Z -> length (s_coef s) = 5%nat -> simplify_cone n s = Some (x, s') ->
  exists sn whole ap pl ri ro, surf_sense s = Some sn /\ both_sheets s' = Some whole /\ x_surfs x = [pl] /\ surf_sense pl = Some ap /\
    s_id s' = s_id s /\ s_id pl = (n + 1)%Z /\
    expr (mcnp_lex (x_in x)) ri /\ expr (mcnp_lex (x_out x)) ro /\
    forall sense p, side whole p (sense (s_id s)) -> side ap p (sense (n + 1)%Z) ->
      (holds (zenv sense) ri = true <-> neg sn p) /\ (holds (zenv sense) ro = true <-> pos sn p).
Proof.
  intros P Q L E. destruct (simplify_shape _ _ _ _ L E) as (sg & pl & SG & W1 & W2 & H1 & H2 & _ & _ & XS & IP & _ & (ap & sn & EA & (ap' & EP & SA) & ES) & -> & _).
  destruct (s_coef s) as [|a [|b [|c [|d [|e [|]]]]]] eqn:EC; try discriminate L. cbn [nth firstn] in *.
  assert (W : exists whole, sem (s_type s) [a; b; c; d; 0] = Some whole /\ forall p, 
     (neg sn p <-> neg whole p /\ (if sg then neg ap p else pos ap p)) /\
     (pos sn p <-> pos whole p \/ (if sg then pos ap p else neg ap p)) /\ ~ (neg whole p /\ pos whole p) /\ ~ (neg ap p /\ pos ap p)).
  { unfold surf_sense in ES. unfold apex_plane in EA. rewrite EC in ES, EA. destruct (s_type s); try discriminate EA; cbn [sem] in ES; injection ES as <-; injection EA as <-;
      (eexists; split; [reflexivity|]); intro p; unfold one_sheet, of_fun; cbn [neg pos];
      destruct SG as [[-> ->]|[-> ->]]; repeat split; try (intros; lra); try (intros [? ?]; lra);
      try (intros [K1 K2]; assert (K3 := K2 ltac:(lra)); lra); try (intros [K|[_ K]]; lra); try (intros [[K|[K _]]|K]; lra). }
  destruct W as (whole & EW & SEM). destruct (cone_factors (s_id s) (n + 1) sg) as [F1 F2].
  exists sn, whole, ap', pl, (cone_in (s_id s) (n + 1) sg), (cone_out (s_id s) (n + 1) sg).
  split; [exact ES|]. split; [exact EW|]. split; [exact XS|]. split; [exact EP|]. split; [reflexivity|]. split; [exact IP|].
  split; [rewrite <- spacify_lex by (apply no_hash_ok; exact H1); rewrite W1; apply expr_term, term_factor, F1|].
  split; [rewrite <- spacify_lex by (apply no_hash_ok; exact H2); rewrite W2; apply expr_term, term_factor, F2|].
  intros sense p S1 S2. unfold cone_in, cone_out. cbn [holds]. rewrite !zenv_signed, zenv_minus, zenv_sid by lia.
  destruct (SEM p) as (N1 & N2 & X1 & X2). destruct (SA p) as [A1 A2]. unfold side in S1, S2. rewrite N1, N2.
  destruct (sense (s_id s)), (sense (n + 1)%Z), sg; cbn [andb orb negb]; split; split; intro K; try discriminate K; try reflexivity; try tauto.
Qed.
Print Assumptions C93_one_sheet.

(** C93: it raises exactly for what has five coefficients and is no cone, or whose fifth is neither 1 nor -1. *)
Theorem C93_fails_iff n s : simplify_cone n s = None <->
  length (s_coef s) = 5%nat /\ (~ In (s_type s) [CONE_X; CONE_Y; CONE_Z] \/ nth 4 (s_coef s) 0 <> 1 /\ nth 4 (s_coef s) 0 <> -1).
Proof.
  unfold simplify_cone. destruct (s_coef s) as [|a [|b [|c [|d [|e [|]]]]]]; cbn [length nth]; try (split; [discriminate|intros [H _]; discriminate H]).
  destruct (s_type s); cbn [In]; try (split; [intros _; split; [reflexivity|left; intuition discriminate]|reflexivity]);
    (destruct (Req_EM_T e (-1)) as [E1|E1]; [|destruct (Req_EM_T e 1) as [E2|E2]]); split; try discriminate; try reflexivity; try (intros _; split; [reflexivity|]; right; now split);
    (intros [_ [K|[K1 K2]]]; exfalso; [apply K; auto|contradiction]).
Qed.
Print Assumptions C93_fails_iff.

(** From the card: any cone of which the card does not say the sheet raises, although nothing has to be done for it. *)
Theorem C93_both_sheets t id tr m toks vals sn n : PropSurf.card_text t id tr m toks -> PropSurf.reads toks vals -> mcnp_means m vals sn ->
  In (m, length vals) [("kx", 2%nat); ("ky", 2%nat); ("kz", 2%nat); ("k/x", 4%nat); ("k/y", 4%nat); ("k/z", 4%nat)]%string ->
  exists s, read_surface t = Some s /\ simplify_cone n s = None.
Proof.
  intros C RD M I. destruct (PropCards.card_stored t id tr m toks vals sn C RD M) as (s & E & ST). exists s. split; [exact E|].
  apply C93_fails_iff. destruct ST; cbn [length In] in I;
    try (exfalso; intuition discriminate); (split; [reflexivity|right; cbn [nth]; split; lra]).
Qed.
Print Assumptions C93_both_sheets.

Theorem C93_both_sheets_refuted : exists t s sn n, read_surface t = Some s /\ surf_sense s = Some sn /\
  same_sense sn (of_fun (cone_z 0 0 2 1)) /\ simplify_cone n s = None.
Proof.
  assert (C : PropSurf.card_text (T "5 kz 2 1") 5 None "kz" [T "2"; T "1"]).
  { split; [vm_compute; intuition discriminate|exists (T "5"); split; [reflexivity|split; [vm_compute; intuition discriminate|reflexivity]]]. }
  assert (RD : PropSurf.reads [T "2"; T "1"] [2; 1]) by real_tokens.
  destruct (PropCards.card_stored _ _ _ _ _ _ _ C RD (m_kz 2 1)) as (s & E & ST).
  assert (F : s_type s = CONE_Z /\ s_coef s = [0; 0; 2; 1; 0]) by (inversion ST; subst; now split). destruct F as [F1 F2].
  exists (T "5 kz 2 1"), s, (one_sheet (cone_z 0 0 2 1) (fun p => pz p - 2) 0), 9%Z. split; [exact E|].
  split; [unfold surf_sense; now rewrite F1, F2|]. split.
  - intro p. unfold one_sheet, of_fun. cbn [neg pos]. (split; split; intro H); [destruct H; lra|split; [exact H|lra]|destruct H as [H|[H _]]; lra|left; exact H].
  - apply C93_fails_iff. rewrite F2. cbn [length nth]. split; [reflexivity|]. right. split; lra.
Qed.
Print Assumptions C93_both_sheets_refuted.

(** What a word of a cell becomes. *)
Definition csub (a b : Z) (sg : bool) (w : text) : list text :=
  if text_eqb (sid a) w then [T "("; sid a; signed_word sg b; T ":"; signed_word (negb sg) b; T ")"]
  else if text_eqb (minus (sid a)) w then [T "("; minus (sid a); signed_word sg b; T ")"]
  else [w].

Lemma csub_delim a b sg w : word_tok w <> TAtom w -> csub a b sg w = [w].
Proof.
  intro N. unfold csub. destruct (text_eqb_spec (sid a) w) as [E|_]; [subst w; elim N; apply word_tok_sid|].
  destruct (text_eqb_spec (minus (sid a)) w) as [E|_]; [subst w; elim N; apply word_tok_minus|reflexivity].
Qed.

(** C93: in a cell whose words are words of surfaces without facets, the loop ends after one round, and the cell that is read
    again is the same region: the words of the cone are its one sheet, every other word keeps its meaning. *)
Theorem C93_cell fuel n s x s' c r : (0 <= n)%Z -> (0 < s_id s)%Z -> length (s_coef s) = 5%nat -> simplify_cone n s = Some (x, s') ->
  Forall token (c_text c) -> (forall w, In w (c_text c) -> ~ In "."%char w) -> expr (map word_tok (c_text c)) r ->
  exists c' r' ri ro, cone_cell (S (S fuel)) (sid (s_id s)) x c = NotsModel.Done c' /\
    c_id c' = c_id c /\ c_mat c' = c_mat c /\ c_dens c' = c_dens c /\ expr (toks (c_items c')) r' /\
    expr (mcnp_lex (x_in x)) ri /\ expr (mcnp_lex (x_out x)) ro /\
    forall env env', env (minus (sid (s_id s))) = holds env' ri -> env (sid (s_id s)) = holds env' ro ->
      (forall w, w <> sid (s_id s) -> w <> minus (sid (s_id s)) -> env w = env' w) -> holds env r = holds env' r'.
Proof.
  intros P Q L E TK ND EX. destruct (simplify_shape _ _ _ _ L E) as (sg & pl & _ & W1 & W2 & H1 & H2 & D1 & D2 & _ & _ & _ & _ & _ & M1 & M2).
  set (a := s_id s) in *. set (b := (n + 1)%Z) in *. destruct (cone_factors a b sg) as [F1 F2].
  (* the words after the loop *)
  assert (CW : exists desc, cone_words (S (S fuel)) (sid a) x (c_text c) = NotsModel.Done desc /\
     flat_map (fun w => words (spacify w)) desc = flat_map (csub a b sg) (c_text c) /\ Forall (fun w => ~ In "$"%char w) desc).
  { cbn [cone_words].
    assert (ONE : forall w, token w -> ~ In "."%char w -> words (spacify (cone_word (sid a) x w)) = csub a b sg w /\ ~ In "$"%char (cone_word (sid a) x w) /\
       macro_match (sid a) (cone_word (sid a) x w) = false /\ (macro_match (sid a) w = false -> csub a b sg w = [w])).
    { intros w TW NW. unfold cone_word, csub. change (T "-" ++ sid a) with (minus (sid a)).
      assert (SELF : macro_match (sid a) (sid a) = true /\ macro_match (sid a) (minus (sid a)) = true).
      { assert (A : after (sid a) (sid a) = Some []) by (rewrite <- (app_nil_r (sid a)) at 2; apply app_after).
        unfold macro_match. split; [|change (tail_ok (after (sid a) (sid a)) = true); now rewrite A]. destruct (sid a) as [|q t] eqn:ES; [reflexivity|]. 
        destruct (Ascii.eqb_spec q "-") as [->|]; [|now rewrite A]. exfalso. destruct (sid_digits a ltac:(lia)) as [_ D]. rewrite ES in D. discriminate D. }
      destruct (text_eqb_spec (sid a) w) as [EW|NE]; [subst w; split; [exact W2|]; split; [exact D2|]; split; [exact M2|]; intro K; destruct SELF; congruence|].
      destruct (text_eqb_spec (minus (sid a)) w) as [EW|NE2]; [subst w; split; [exact W1|]; split; [exact D1|]; split; [exact M1|]; intro K; destruct SELF; congruence|].
      split; [now apply token_words|]. split; [now apply token_nodollar|]. split; [|reflexivity].
      destruct (macro_match (sid a) w) eqn:MW; [|reflexivity]. exfalso. apply match_shape in MW as [MW|[MW|MW]]; [congruence|congruence|].
      rewrite nodot_sub in MW by exact NW. discriminate. }
    assert (ALL : flat_map (fun w => words (spacify w)) (map (cone_word (sid a) x) (c_text c)) = flat_map (csub a b sg) (c_text c) /\
       Forall (fun w => ~ In "$"%char w) (map (cone_word (sid a) x) (c_text c)) /\ existsb (macro_match (sid a)) (map (cone_word (sid a) x) (c_text c)) = false /\
       (existsb (macro_match (sid a)) (c_text c) = false -> flat_map (csub a b sg) (c_text c) = c_text c)).
    { clear EX. induction TK as [|w l TW TK IH]; [repeat split; constructor|].
      destruct IH as (I1 & I2 & I3 & I4); [intros v I; apply ND; now right|]. destruct (ONE w TW (ND w (or_introl eq_refl))) as (O1 & O2 & O3 & O4).
      cbn [map flat_map existsb]. rewrite O1, I1, O3, I3. split; [reflexivity|]. split; [now constructor|]. split; [reflexivity|].
      intro K. apply orb_false_iff in K as [K1 K2]. rewrite (O4 K1), (I4 K2). reflexivity. }
    destruct ALL as (A1 & A2 & A3 & A4). destruct (existsb (macro_match (sid a)) (c_text c)) eqn:EB.
    - rewrite A3. eexists. split; [reflexivity|]. now split.
    - eexists. split; [reflexivity|]. rewrite A4 by reflexivity. split.
      + clear -TK. induction TK as [|w l TW TK IH]; [reflexivity|]. cbn [flat_map]. rewrite IH, token_words by exact TW. reflexivity.
      + apply (Forall_impl _) with (2 := TK). intros w TW. now apply token_nodollar. }
  destruct CW as (desc & CW & FW & DW).
  set (g := fun w => if text_eqb (sid a) w then cone_out a b sg else if text_eqb (minus (sid a)) w then cone_in a b sg else RAtom w).
  assert (AT : forall w, In w (atoms r) -> In w (c_text c) /\ word_tok w = TAtom w).
  { intros w I. rewrite <- (proj1 expr_atoms _ _ EX) in I. unfold tok_atoms in I. apply in_flat_map in I as (tk & IT & I).
    destruct tk; try (now destruct I). destruct I as [->|[]]. apply in_map_iff in IT as (v & EV & IV).
    assert (v = w); [|now subst v]. destruct (word_tok_cases v) as [[-> K]|[[-> K]|[[-> K]|(_ & _ & _ & K)]]]; rewrite K in EV; try discriminate EV.
    destruct (text_eqb_spec v (T ")")); [discriminate EV|now injection EV]. }
  assert (TOK : map word_tok (flat_map (csub a b sg) (c_text c)) = flat_map (subst_tok (fun w => map word_tok (csub a b sg w))) (map word_tok (c_text c))).
  { clear. induction (c_text c) as [|w l IH]; [reflexivity|]. cbn [flat_map map]. rewrite map_app, IH. f_equal.
    assert (K : word_tok w = TAtom w \/ word_tok w <> TAtom w /\ forall v, word_tok w <> TAtom v).
    { destruct (word_tok_cases w) as [[-> J]|[[-> J]|[[-> J]|(_ & _ & _ & J)]]]; rewrite J; try (right; split; discriminate).
      destruct (text_eqb w (T ")")); [right; split; discriminate|now left]. }
    destruct K as [K|[K1 K2]]; [now rewrite K|]. rewrite csub_delim by exact K1. cbn [map]. destruct (word_tok w); try reflexivity. exfalso. eapply K2. reflexivity. }
  assert (EX' : expr (map word_tok (flat_map (csub a b sg) (c_text c))) (subst_region g r)).
  { rewrite TOK. apply (proj1 (subst_tok_expr _ g)); [exact EX|]. intros w I. destruct (AT w I) as [_ K]. unfold csub, g.
    destruct (text_eqb (sid a) w); [exact F2|]. destruct (text_eqb (minus (sid a)) w); [exact F1|]. cbn [map]. rewrite K. constructor. }
  destruct (generalise_toks _ _ EX') as (o & z & GE & TO).
  assert (NDL : ~ In "$"%char (spacify (join_sp desc))).
  { intros I. apply in_spacify in I as [I|[I|I]]; try discriminate. revert I. now apply join_nodollar. }
  unfold cone_cell. rewrite CW. unfold update. rewrite drop_dollars_none by exact NDL. rewrite words_join, FW, GE.
  eexists. exists (subst_region g r), (cone_in a b sg), (cone_out a b sg). split; [reflexivity|]. cbn [c_id c_mat c_dens c_items].
  split; [reflexivity|]. split; [reflexivity|]. split; [reflexivity|]. split; [rewrite TO; exact EX'|].
  split; [rewrite <- spacify_lex by (apply no_hash_ok; exact H1); rewrite W1; apply expr_term, term_factor, F1|].
  split; [rewrite <- spacify_lex by (apply no_hash_ok; exact H2); rewrite W2; apply expr_term, term_factor, F2|].
  intros env env' E1 E2 E3. rewrite holds_subst. apply holds_ext_atoms. intros w _. unfold g.
  destruct (text_eqb_spec (sid a) w) as [EW|N1]; [subst w; exact E2|]. destruct (text_eqb_spec (minus (sid a)) w) as [EW|N2]; [subst w; exact E1|].
  cbn [holds]. apply E3; congruence.
Qed.
Print Assumptions C93_cell.

(** A word with a dot keeps the loop going for ever: whatever the number of rounds, it has not ended. *)
Theorem C93_facet_hangs_refuted : exists n s x s' c, simplify_cone n s = Some (x, s') /\ c_text c = [T "-5.1"] /\
  forall fuel, cone_cell fuel (sid (s_id s)) x c = NotsModel.Running.
Proof.
  destruct (simplify_cone 9 (mkS 5 None CONE_Z [0; 0; 0; 1; 1] TRANSMISSION)) as [[x s']|] eqn:E.
  2:{ exfalso. apply C93_fails_iff in E as [_ [K|[K _]]]; [apply K; cbn; auto|now apply K]. }
  exists 9%Z, (mkS 5 None CONE_Z [0; 0; 0; 1; 1] TRANSMISSION), x, s', (Cell 1 0 0%Q [T "-5.1"] [] []).
  split; [exact E|]. split; [reflexivity|]. intro fuel. unfold cone_cell. cbn [c_text].
  assert (H : cone_words fuel (sid 5) x [T "-5.1"] = NotsModel.Running); [|cbn [s_id]; now rewrite H].
  induction fuel as [|fuel IH]; [reflexivity|]. cbn [cone_words existsb]. change (macro_match (sid 5) (T "-5.1")) with true. cbn [orb].
  cbn [map]. change (cone_word (sid 5) x (T "-5.1")) with (T "-5.1"). exact IH.
Qed.
Print Assumptions C93_facet_hangs_refuted.

(** The lower sheet 5, k/z 0 0 2 1 -1, in the cell -5 7 : 5 -7; the plane 10 is new.  The four points: inside the sheet beyond 7;
    inside the upper sheet beyond 7; inside the upper sheet before 7; outside both sheets before 7. *)
Example C93_example : exists x s' c' r', let s := mkS 5 None CONE_Z [0; 0; 2; 1; -1] TRANSMISSION in
  simplify_cone 9 s = Some (x, s') /\ x_surfs x = [new_pz 10 2] /\ s_coef s' = [0; 0; 2; 1] /\
  Forall token [T "-5"; T "7"; T ":"; T "5"; T "-7"] /\
  cone_cell 2 (T "5") x (Cell 1 0 0%Q [T "-5"; T "7"; T ":"; T "5"; T "-7"] [] []) = NotsModel.Done c' /\
  c_text c' = [T "("; T "-5"; T "-10"; T ")"; T "7"; T ":"; T "("; T "5"; T "-10"; T ":"; T "10"; T ")"; T "-7"] /\
  expr (toks (c_items c')) r' /\
  map (fun f => holds (zenv f) r') [fun z => (z =? 7)%Z; fun z => ((z =? 7) || (z =? 10))%Z%bool; fun z => (z =? 10)%Z; fun z => (z =? 5)%Z] =
    [true; false; true; true].
Proof.
  destruct (simplify_cone 9 (mkS 5 None CONE_Z [0; 0; 2; 1; -1] TRANSMISSION)) as [[x s']|] eqn:E.
  2:{ exfalso. apply C93_fails_iff in E as [_ [K|[_ K]]]; [apply K; cbn; auto|now apply K]. }
  assert (F : x = mkX (T "( -5 -10 )") (T "(  5 -10 : 10)") [new_pz 10 2] /\ s' = mkS 5 None CONE_Z [0; 0; 2; 1] TRANSMISSION).
  { unfold simplify_cone in E. cbn [s_coef s_type s_id s_tr s_bc] in E. destruct (Req_EM_T (-1) (-1)) as [_|K]; [|now elim K].
    match type of E with Some (?u, ?v) = _ => assert (EX : x = u) by congruence; assert (ES : s' = v) by congruence end. rewrite EX, ES. split; reflexivity. }
  destruct F as [-> ->]. do 2 eexists.
  set (c := cone_cell 2 (T "5") (mkX (T "( -5 -10 )") (T "(  5 -10 : 10)") [new_pz 10 2]) (Cell 1 0 0%Q [T "-5"; T "7"; T ":"; T "5"; T "-7"] [] [])).
  assert (C : exists c', c = NotsModel.Done c' /\ c_text c' = [T "("; T "-5"; T "-10"; T ")"; T "7"; T ":"; T "("; T "5"; T "-10"; T ":"; T "10"; T ")"; T "-7"] /\
    exists r', parse (toks (c_items c')) = Some r' /\
    map (fun f => holds (zenv f) r') [fun z => (z =? 7)%Z; fun z => ((z =? 7) || (z =? 10))%Z%bool; fun z => (z =? 10)%Z; fun z => (z =? 5)%Z] = [true; false; true; true]).
  { vm_compute in c. eexists. split; [reflexivity|]. split; [vm_compute; reflexivity|]. eexists. split; [vm_compute; reflexivity|]. vm_compute. reflexivity. }
  destruct C as (c' & C1 & C2 & r' & C3 & C4). exists c', r'. cbv zeta. split; [exact E|]. split; [reflexivity|]. split; [reflexivity|].
  split; [repeat (constructor; [first [left; split; [discriminate|reflexivity]|right; right; right; reflexivity]|]); constructor|].
  split; [exact C1|]. split; [exact C2|]. split; [now apply parse_sound|exact C4].
Qed.

(* ---------------------------------------------------------------- C94 *)

(** C94: a line counts for a cell card exactly when its first word is an integer other than zero; what follows is not looked at,
    so that any continuation line that begins with the number of a surface counts. *)
Theorem C94_cell_card line : is_cell_card line = Some true <-> exists w r z, words line = w :: r /\ py_int w = Some z /\ z <> 0%Z.
Proof.
  unfold is_cell_card. destruct (words line) as [|w r]; [split; [discriminate|intros (w & r & z & E & _); discriminate]|].
  assert (OP : forall z, py_int w = Some z -> match w with c :: _ => Ascii.eqb c "(" || Ascii.eqb c ":" || Ascii.eqb c ")" || Ascii.eqb c "#" | [] => false end = false).
  { intros z E. destruct w as [|c w]; [reflexivity|]. apply not_true_iff_false. intro K.
    apply orb_prop in K as [K|K]; [apply orb_prop in K as [K|K]; [apply orb_prop in K as [K|K]|]|]; apply Ascii.eqb_eq in K; subst c; vm_compute in E; discriminate E. }
  split.
  - destruct (match w with c :: _ => _ | [] => false end); [discriminate|]. destruct (py_int w) as [z|] eqn:E; [|discriminate].
    destruct (Z.eqb_spec z 0) as [->|N]; [|intros _; exists w, r, z; auto]. cbn [negb]. destruct r as [|m r]; [discriminate|].
    destruct (py_int m) as [mat|]; [|discriminate]. change (negb (0 =? 0)%Z) with false. change (0 <? 0)%Z with false. cbn [andb]. discriminate.
  - intros (w' & r' & z & E & EZ & N). injection E as <- <-. rewrite (OP z EZ), EZ. destruct (Z.eqb_spec z 0); [contradiction|reflexivity].
Qed.
Print Assumptions C94_cell_card.

(** It raises for a zero alone, and for a zero before something that is no integer. *)
Theorem C94_zero line : is_cell_card line = None <->
  exists w r, words line = w :: r /\ py_int w = Some 0%Z /\ match r with [] => True | m :: _ => py_int m = None end.
Proof.
  unfold is_cell_card. destruct (words line) as [|w r]; [split; [discriminate|intros (w & r & E & _); discriminate]|].
  assert (OP : forall z, py_int w = Some z -> match w with c :: _ => Ascii.eqb c "(" || Ascii.eqb c ":" || Ascii.eqb c ")" || Ascii.eqb c "#" | [] => false end = false).
  { intros z E. destruct w as [|c w]; [reflexivity|]. apply not_true_iff_false. intro K.
    apply orb_prop in K as [K|K]; [apply orb_prop in K as [K|K]; [apply orb_prop in K as [K|K]|]|]; apply Ascii.eqb_eq in K; subst c; vm_compute in E; discriminate E. }
  split.
  - destruct (match w with c :: _ => _ | [] => false end); [discriminate|]. destruct (py_int w) as [z|] eqn:E; [|discriminate].
    destruct (Z.eqb_spec z 0) as [->|N]; [|discriminate]. cbn [negb]. intro H. exists w, r. split; [reflexivity|]. split; [exact E|].
    destruct r as [|m r]; [exact I|]. destruct (py_int m) as [mat|]; [|reflexivity].
    change (negb (0 =? 0)%Z) with false in H. change (0 <? 0)%Z with false in H. cbn [andb] in H. discriminate.
  - intros (w' & r' & E & EZ & N). injection E as <- <-. rewrite (OP 0%Z EZ), EZ. change (negb (0 =? 0)%Z) with false. cbv iota.
    destruct r as [|m r]; [reflexivity|]. now rewrite N.
Qed.
Print Assumptions C94_zero.

(** A continuation line of a cell, a surface card and a cell card count alike; a data card and a comment do not. *)
Example C94_example : map is_cell_card [T "     12 -13 imp:n=1"; T "7 px 3.5"; T "1 0 -7"; T "m1 92235 1"; T "c cells"; T "0"] =
  [Some true; Some true; Some true; Some false; Some false; None].
Proof. vm_compute. reflexivity. Qed.
