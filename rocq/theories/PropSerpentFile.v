(** The file written for Serpent as a whole (csg2csg/SerpentInput.py 104-131, SerpentCellCard.py 34-91, SerpentSurfaceCard.py,
    SerpentMaterialCard.py 7-22): C77. *)
From Coq Require Import QArith Reals.
From Verif Require Import PyStr PyStrFacts PyInt PyIntFacts PyDict PyFmtE PyFmtEFacts FortranNumber FortranNumberProofs CellModel CellText RegionSpec RegionFacts LexSpec Formatter FormatterProofs WrapProofs
  CellWriters CellProofs CellWritersProofs CellWritersOut SurfModel SurfWriters SurfWritersProofs SurfSpec GeomSpec TargetSpec SurfTargets FlattenModel MaterialModel
  MaterialWriters ConvertModel PropSurfTargets PropWriters PropMaterialOut PropKeyword PropDeck FileProofs LayoutProofs.
From Verif Require Import PropFile.
From Verif Require PropFlukaMat.
Open Scope nat_scope.
Open Scope list_scope.

(** ** How Serpent reads a file (Serpent wiki, input syntax manual) *)

(** A file is a sequence of words, with comments from % to the end of the line; a card goes from its keyword to the next
    keyword. *)
Definition serpent_keywords : list string :=
  ["branch"; "casematrix"; "cell"; "coef"; "datamesh"; "dep"; "det"; "div"; "dtrans"; "ene"; "fet"; "ftrans"; "fun"; "hisv"; "ifc"; "include"; "lat"; "mat"; "mesh";
   "mflow"; "mix"; "nest"; "particle"; "pbed"; "phb"; "pin"; "plot"; "rep"; "sample"; "sens"; "set"; "solid"; "src"; "strans"; "surf"; "therm"; "thermstoch";
   "tme"; "trans"; "transa"; "transb"; "transv"; "umsh"; "usym"; "utrans"; "wwgen"; "wwin"]%string.
Definition serpent_key (w : text) : bool := existsb (fun s => text_eqb w (T s)) serpent_keywords.
Definition serpent_reads (t : text) : list text * list (list text) := cards serpent_key (words (uncomment "%" false t)).

(** The card of a surface. *)
Definition surf_card (str : R -> text) (card : list text) (id : Z) (sn : sense) : Prop :=
  exists i ty toks vals sn', card = T "surf" :: i :: T ty :: toks /\ py_int i = Some id /\ Forall2 (shows str) toks vals /\
    serpent_means ty vals sn' /\ same_sense sn' sn.
(** The card of a cell: name, universe, what is in it, and the region. *)
Inductive inside := Void | Filled (m : text) | Universe (u : text).
Definition cell_card (card : list text) (id : Z) (u : text) (k : inside) (r : region) : Prop :=
  exists i ws r', card = [T "cell"; i; u] ++ match k with Void => [T "void"] | Filled m => [m] | Universe v => [T "fill"; v] end ++ ws /\ py_int i = Some id /\
    expr (flat_map (fun w => glex serpent_delim w []) ws) r' /\ forall env, holds env r' = holds env r.
(** The card for the place of the universe that fills a cell. *)
Definition fill_card (card : list text) (id : Z) (translation rotation : list text) : Prop :=
  exists i, card = [T "trans"; T "f"; i] ++ translation ++ rotation ++ [T "1"] /\ py_int i = Some id /\ length translation = 3 /\ length rotation = 9.
(** The card of a material: name, density, perhaps a colour, nuclides with their fractions. *)
Definition mat_card (card : list text) (name : text) (dens : Q) (colour : option (list text)) (nuclides : dict Q) : Prop :=
  exists d v fs, card = [T "mat"; name; d] ++ match colour with Some l => T "rgb" :: l | None => [] end ++ flat_map (fun e => [fst e; snd e]) fs /\
    py_float d = Some v /\ (v == dens)%Q /\ Forall2 (fun e f => fst f = fst e /\ exists q, get_fortran_formatted_number (snd f) = Some q /\ seven_digits q (snd e)) nuclides fs.

(** ** What the deck says *)

Definition inside_of (c : gcell) : inside :=
  match g_fill c with Some f => Universe f | None => if (g_mat c =? 0)%Z then Void else Filled (str_Z (g_mat c)) end.
Definition universe_of (c : gcell) : text := match g_univ c with Some u => u | None => T "0" end.
(** The translation and the rotation of the universe in a cell, if one of them is given. *)
Definition place_of (c : gcell) : option (list text * list text) :=
  match g_fill c, g_offset c, g_rot c with
  | None, _, _ | _, None, None => None
  | _, o, r => Some (match o with Some l => l | None => [T "0"; T "0"; T "0"] end,
                     match r with Some l => l | None => map T ["1"; "0"; "0"; "0"; "1"; "0"; "0"; "0"; "1"]%string end)
  end.
Definition cell_cards (cs : list (list text)) (c : gcell) (r : region) : Prop :=
  exists card rest, cs = card :: rest /\ cell_card card (g_id c) (universe_of c) (inside_of c) r /\
    match place_of c with Some (t, m) => exists p, rest = [p] /\ fill_card p (g_id c) t m | None => rest = [] end.

(** What is asked of surfaces and materials (cells: [good_gcell]). *)
Definition serp_surface (s : surface) (sn : sense) : Prop := surf_sense s = Some sn /\ (fixed_point (s_type s) = true -> Forall fine6 (s_coef s)).
Definition serp_material (show : Q -> text) (m : material) : Prop :=
  serpent_good show m /\ numeral (show (m_dens m)) /\ (forall c, m_colour m = Some c -> Forall (fun w => forallb is_digit w = true) (words (T c))).
Definition serp_deck (str : R -> text) (show : Q -> text) (d : deck) : Prop :=
  (forall x, numeral (str x)) /\ Forall (fun s => exists sn, serp_surface (fst s) sn) (d_surfs d) /\
  Forall (fun c => length (str_Z (g_id c)) <= 50 /\ length (str_Z (g_mat c)) <= 50 /\ exists r, good_gcell show c r) (d_cells d) /\
  Forall (fun e => serp_material show (snd e)) (d_mats d).

(** ** Words that are neither keywords nor comments *)

Definition arg_char (c : ascii) : bool := is_digit c || existsb (Ascii.eqb c) (T "-+.e():#").
Definition tame (w : text) : Prop := serpent_key w = false /\ ~ In "%"%char w.
Lemma arg_tame w : forallb arg_char w = true -> tame w.
Proof.
  intro F. split.
  - destruct (serpent_key w) eqn:K; [|reflexivity]. apply existsb_exists in K as (s & I & E). apply text_eqb_eq in E. subst w.
    assert (N : forallb (fun s => negb (forallb arg_char (T s))) serpent_keywords = true) by (vm_compute; reflexivity).
    rewrite forallb_forall in N. specialize (N s I). rewrite F in N. discriminate.
  - intro I. rewrite forallb_forall in F. specialize (F _ I). discriminate.
Qed.
Lemma chars_arg p w : (forall c, p c = true -> arg_char c = true) -> forallb p w = true -> forallb arg_char w = true.
Proof. intros H F. rewrite forallb_forall in *. auto. Qed.
Lemma numeral_arg w : numeral w -> forallb arg_char w = true.
Proof.
  intros (_ & _ & F). revert F. apply chars_arg. intros c H. unfold arg_char. apply orb_true_iff in H as [-> | H]; [reflexivity|].
  apply existsb_exists in H as (d & J & E). apply Ascii.eqb_eq in E. subst d. apply orb_true_iff. right. revert J. vm_compute. intuition (subst; reflexivity).
Qed.
Lemma digits_arg w : forallb is_digit w = true -> forallb arg_char w = true.
Proof. apply chars_arg. intros c H. unfold arg_char. now rewrite H. Qed.
Lemma int_arg w : int_word w -> forallb arg_char w = true.
Proof. intro H. apply forallb_forall. intros c I. unfold arg_char. destruct (int_word_chars w H c I) as [-> | ->]; reflexivity. Qed.
Lemma fmt_f_arg x : forallb arg_char (fmt_f x) = true.
Proof. apply forallb_forall. intros c I. destruct (proj2 (fmt_f_word x) c I) as [H | [-> | ->]]; [|reflexivity|reflexivity]. unfold arg_char. now rewrite H. Qed.
Lemma fmt_e_arg d q : forallb arg_char (fmt_e d q) = true.
Proof.
  unfold fmt_e. destruct (sci d q) as [m e]. unfold sci_text. destruct (exp_digits_ok (Z.abs_N e)) as (_ & A3 & _). rewrite !forallb_app.
  rewrite (digits_arg _ (fix_digits_digits 1 _)), (digits_arg _ (fix_digits_digits d m)), (digits_arg _ A3). destruct (Qle_bool 0 q), (e <? 0)%Z; reflexivity.
Qed.
Lemma tame_word_in t : (forall c, In c t -> is_space c = true \/ arg_char c = true) -> Forall tame (words t).
Proof.
  intro H. apply Forall_forall. intros w I. apply arg_tame. apply forallb_forall. intros c J. destruct (H c) as [S|A]; [eapply in_words_in; eassumption| |exact A].
  destruct (words_nonempty_nospace t w I) as [_ N]. rewrite forallb_forall in N. specialize (N c J). now rewrite S in N.
Qed.

Notation block := (block serpent_key "%"%char).
Lemma card_block t k args : closed t -> words t = T k :: args -> serpent_key (T k) = true -> ~ In "%"%char (T k) -> Forall tame args -> block t [T k :: args].
Proof.
  intros C W K P F. apply block_text; [discriminate|reflexivity|exact C|now rewrite W; cbn [concat]; rewrite app_nil_r| |].
  - constructor; [|constructor]. split; [exact K|]. apply (Forall_impl _) with (2 := F). now intros w [A _].
  - rewrite W. constructor; [exact P|]. apply (Forall_impl _) with (2 := F). now intros w [_ A].
Qed.
Ltac literal := split; [reflexivity|vm_compute; intuition discriminate].

(** ** Surfaces *)

Definition ends (t : text) : Prop := exists a, t = a ++ nl.
Lemma ends_app a t : ends t -> ends (a ++ t).
Proof. intros [b ->]. exists (a ++ b). now rewrite app_assoc. Qed.
Lemma ends_cons c t : ends t -> ends (c :: t).
Proof. apply (ends_app [c]). Qed.
Lemma ends_nl : ends nl. Proof. now exists []. Qed.
Ltac at_end := first [exact ends_nl | assumption | apply ends_cons; at_end | apply ends_app; at_end].
Lemma ends_closed t : ends t -> closed t.
Proof. intros [a ->]. now apply closed_end. Qed.
Lemma surface_ends str s t : write_serpent_surface str s = Some t -> ends t.
Proof.
  assert (B : forall t, serpent_body str s = Some t -> ends t).
  { clear t. intro t. unfold serpent_body, serpent_cone, serpent_torus. destruct (s_type s); try discriminate.
    all: destruct (s_coef s) as [|a [|b [|c [|d [|e [|f l]]]]]]; try discriminate; intros [= <-]; at_end. }
  unfold write_serpent_surface. destruct (s_type s); try (intros [= <-]; at_end);
    (destruct (serpent_body str s) as [u|]; [|discriminate]; intros [= <-]; assert (BU := B u eq_refl); at_end).
Qed.
Lemma surface_block str s sn : (forall x, numeral (str x)) -> serp_surface s sn ->
  exists t card, write_serpent_surface str s = Some t /\ block t [card] /\ surf_card str card (s_id s) sn.
Proof.
  intros NS (E & F). assert (WS : forall x, word (str x)) by (intro x; destruct (numeral_facts _ (NS x)) as (A & _ & B & _); now split).
  destruct (serpent_form str s sn WS E) as (t & ty & vals & sn' & W & Wt & M & SS & IN & _).
  exists t, (T "surf" :: str_Z (s_id s) :: T ty :: map (if fixed_point (s_type s) then fmt_f else str) vals). split; [exact W|]. split.
  - apply card_block; [eapply ends_closed, surface_ends; exact W|exact Wt|reflexivity|vm_compute; intuition discriminate|].
    constructor; [apply arg_tame, int_arg, int_word_str|]. constructor; [inversion M; subst; literal|].
    apply Forall_map. apply Forall_forall. intros x _. apply arg_tame. destruct (fixed_point (s_type s)); [apply fmt_f_arg|apply numeral_arg, NS].
  - destruct (C58_serpent_partial str s sn WS E F) as (t2 & ty2 & toks & v2 & s2 & W2 & Wt2 & SH & M2 & S2). rewrite W in W2. injection W2 as <-.
    rewrite Wt in Wt2. injection Wt2 as ET EK. exists (str_Z (s_id s)), ty2, toks, v2, s2. rewrite ET, EK. split; [reflexivity|]. split; [apply py_int_str_Z|]. now split.
Qed.

(** ** Cells *)

Definition region_text (l : list item) : text := T "( " ++ flat_map serpent_op l ++ T " ) " ++ [newline].
Lemma serpent_out_words c r :
  head_ok c -> spaced false (w_items c) = true -> expr (toks (w_items c)) r ->
  Forall (one_atom (fun w => glex serpent_delim w [])) (words_of (w_items c)) -> Forall (fun w => length w <= 60) (words_of (w_items c)) ->
  exists out, lasting (fun f => write_serpent_cell f c) out /\ closed out /\ words out = serpent_head_words c ++ words (region_text (w_items c)) /\
    flat_map (fun w => glex serpent_delim w []) (words (region_text (w_items c))) = TOpen :: toks (w_items c) ++ [TClose].
Proof.
  intros Hh Sp E A1 A2. destruct (serpent_head_ok c Hh) as (W & M & B).
  assert (R : runs_at_most 70 (CellWriters.serpent_text c)).
  { apply runs_maxrun. unfold CellWriters.serpent_text. rewrite maxrun_collapse, maxrun_app_ends by assumption.
    rewrite (maxrun_app_ends (T "( ")) by (now exists (T "(")).
    pose proof (serpent_runs 60 _ r false ltac:(lia) E Sp A2).
    change (flat_map serpent_op (w_items c) ++ T " ) " ++ [newline]) with
      (flat_map serpent_op (w_items c) ++ T " " ++ T ") " ++ [newline]).
    rewrite maxrun_blank_mid. change (maxrun (T "( ")) with 1. change (maxrun (T ") " ++ [newline])) with 1. lia. }
  destruct (formatter_words _ R) as (out & F & Wo). exists out. split; [now apply lasting_format|]. split; [|split].
  - destruct F as (fuel & F). apply (formatter_closed fuel (CellWriters.serpent_text c)); [|exact F].
    assert (X : CellWriters.serpent_text c = collapse (serpent_head c ++ T "( " ++ flat_map serpent_op (w_items c) ++ T " ) ") ++ [newline]).
    { unfold CellWriters.serpent_text. rewrite <- collapse_end. now rewrite <- !app_assoc. }
    rewrite X. now apply closed_end.
  - rewrite Wo. unfold CellWriters.serpent_text. rewrite (proj1 (collapse_words _)), words_ends by assumption. now rewrite W.
  - rewrite <- glex_words. unfold region_text.
    change (glex serpent_delim (T "( " ++ ?x) []) with (TOpen :: glex serpent_delim x []).
    rewrite (serpent_glex _ false); [reflexivity|assumption..|]. right. do 2 eexists. split; [reflexivity|left; reflexivity].
Qed.
Ltac few I := repeat (destruct I as [<-|I]; [first [left; reflexivity|right; reflexivity]|]); destruct I.
Lemma region_chars l c : Forall int_word (words_of l) -> In c (region_text l) -> is_space c = true \/ arg_char c = true.
Proof.
  intros F I. unfold region_text in I. rewrite !in_app_iff in I. destruct I as [I|[I|[I|I]]].
  1, 3, 4: few I.
  induction l as [|i l IH]; [destruct I|]. cbn [words_of flat_map] in *. apply Forall_app in F as [F1 F2]. apply in_app_iff in I as [I|I]; [|auto].
  destruct i as [[| |]|s]; [few I..|]. cbn [serpent_op] in I. unfold is_word in F1.
  destruct (text_eqb s (T "(")); [few I|]. destruct (text_eqb s (T ")")); [few I|].
  cbn [orb negb] in F1. inversion F1 as [|x y H1 H2]; subst. apply int_arg in H1. rewrite forallb_forall in H1. auto.
Qed.
Lemma cell_block show c r : length (str_Z (g_id c)) <= 50 -> length (str_Z (g_mat c)) <= 50 -> good_gcell show c r ->
  exists t card, lasting (fun f => write_serpent_cell f (to_w show c)) t /\ block t [card] /\
    forall r, expr (toks (g_items c)) r -> cell_card card (g_id c) (universe_of c) (inside_of c) r.
Proof.
  intros LI LM (_ & _ & _ & _ & SP & E & GW & GU & GF & _).
  assert (NU : forall u, g_univ c = Some u -> numeral u) by (intros u H; destruct (GU u H); now apply number_numeral).
  assert (NF : forall u, g_fill c = Some u -> numeral u) by (intros u H; destruct (GF u H); now apply number_numeral).
  assert (IW : Forall int_word (words_of (g_items c))) by (apply (Forall_impl _) with (2 := GW); now intros a [A _]).
  assert (WU : forall w, numeral w -> word_upto 50 w).
  { intros w N. destruct (numeral_facts w N) as (A & B & D & _). split; [exact A|]. split; [exact D|lia]. }
  assert (HO : head_ok (to_w show c)).
  { unfold head_ok, to_w. cbn [w_id w_mat w_univ w_fill]. split; [|split; [exact LM|split; auto]]. destruct (str_Z_word_upto (g_id c)) as [A B]. split; [exact A|]. now split. }
  destruct (serpent_out_words (to_w show c) r HO SP E) as (t & L & C & W & X).
  { cbn [w_items to_w]. apply (Forall_impl _) with (2 := IW). exact int_word_serpent. }
  { cbn [w_items to_w]. apply (Forall_impl _) with (2 := GW). now intros a [_ A]. }
  exists t, (words t). split; [exact L|]. cbn [w_items to_w] in *.
  assert (TU : tame (universe_of c)) by (apply arg_tame; unfold universe_of; destruct (g_univ c) as [u|]; [apply numeral_arg; auto|reflexivity]).
  assert (TR : Forall tame (words (region_text (g_items c)))) by (apply tame_word_in; intros x; now apply region_chars).
  split.
  - unfold serpent_head_words, to_w in W. cbn [w_id w_fill w_mat univ_text w_univ] in W. cbn [app] in W.
    rewrite W. apply card_block; [exact C|exact W|reflexivity|vm_compute; intuition discriminate|].
    constructor; [apply arg_tame, int_arg, int_word_str|]. constructor; [exact TU|]. apply Forall_app. split; [|exact TR].
    destruct (g_fill c) as [f|]; [constructor; [literal|constructor; [apply arg_tame, numeral_arg; auto|constructor]]|].
    destruct (g_mat c =? 0)%Z; (constructor; [|constructor]); [literal|apply arg_tame, int_arg, int_word_str].
  - clear r E. intros r E. exists (str_Z (g_id c)), (words (region_text (g_items c))). rewrite X.
    assert (PE : expr (TOpen :: toks (g_items c) ++ [TClose]) r) by now apply expr_term, term_factor, factor_paren.
    exists r. split; [|split; [apply py_int_str_Z|now split]].
    rewrite W. unfold serpent_head_words, to_w, inside_of, universe_of. cbn [w_id w_fill w_mat univ_text w_univ].
    destruct (g_fill c) as [f|]; [reflexivity|]. destruct (g_mat c =? 0)%Z; reflexivity.
Qed.

(** The card of the transformation. *)
Lemma concat_sp_closed l : closed (concat_sp l).
Proof.
  induction l as [|w l IH]; [apply closed_nil|]. assert (E : concat_sp (w :: l) = (w ++ [blank]) ++ concat_sp l) by reflexivity.
  rewrite E. apply closed_app; [now apply closed_end|exact IH].
Qed.
Lemma trans_block show c r : good_gcell show c r ->
  exists rest, block (serpent_trans c) rest /\ match place_of c with Some (t, m) => exists p, rest = [p] /\ fill_card p (g_id c) t m | None => rest = [] end.
Proof.
  intros (_ & _ & _ & _ & _ & _ & _ & _ & _ & GO & GR & _). unfold serpent_trans, place_of.
  assert (MAIN : forall ot rt o rr, closed ot -> words ot = o -> Forall numeral o -> length o = 3 -> closed rt -> words rt = rr -> Forall numeral rr -> length rr = 9 ->
    exists rest, block (T "trans f " ++ str_Z (g_id c) ++ T " " ++ ot ++ rt ++ T "1 " ++ [newline]) rest /\ exists p, rest = [p] /\ fill_card p (g_id c) o rr).
  { intros ot rt o rr C1 W1 F1 L1 C2 W2 F2 L2. set (card := T "trans" :: T "f" :: str_Z (g_id c) :: o ++ rr ++ [T "1"]). exists [card]. split.
    - apply card_block; [|unfold card| reflexivity|vm_compute; intuition discriminate|].
      + rewrite !app_assoc. now apply closed_end.
      + change (T "trans f " ++ ?x) with (T "trans" ++ T " " ++ T "f" ++ T " " ++ x). rewrite !words_head by (discriminate || reflexivity).
        destruct (str_Z_word_upto (g_id c)) as [A B]. rewrite words_head by assumption. rewrite words_closed_app, W1 by exact C1. rewrite words_closed_app, W2 by exact C2. reflexivity.
      + constructor; [literal|]. constructor; [apply arg_tame, int_arg, int_word_str|]. apply Forall_app. split; [|apply Forall_app; split; [|constructor; [literal|constructor]]].
        all: first [apply (Forall_impl _) with (2 := F1)|apply (Forall_impl _) with (2 := F2)]; intros w N; now apply arg_tame, numeral_arg.
    - exists card. split; [reflexivity|]. exists (str_Z (g_id c)). split; [reflexivity|]. split; [apply py_int_str_Z|now split]. }
  assert (NUM : forall w, w = T "0" \/ w = T "1" -> numeral w) by (intros w [-> | ->]; (split; [discriminate|split; [cbn; lia|reflexivity]])).
  assert (O0 : Forall numeral [T "0"; T "0"; T "0"]) by (repeat (constructor; [apply NUM; auto|]); constructor).
  assert (R0 : Forall numeral (map T ["1"; "0"; "0"; "0"; "1"; "0"; "0"; "0"; "1"]%string)) by (cbn [map]; repeat (constructor; [apply NUM; auto|]); constructor).
  assert (OO : forall o, g_offset c = Some o -> closed (concat_sp (firstn 3 o)) /\ words (concat_sp (firstn 3 o)) = o /\ Forall numeral o /\ length o = 3).
  { intros o H. destruct (GO o H) as [L F]. split; [apply concat_sp_closed|]. rewrite <- L, firstn_all. split; [now apply FileProofs.words_concat_sp|now split]. }
  assert (RR : forall o, g_rot c = Some o -> closed (concat_sp (firstn 9 o)) /\ words (concat_sp (firstn 9 o)) = o /\ Forall numeral o /\ length o = 9).
  { intros o H. destruct (GR o H) as [L F]. split; [apply concat_sp_closed|]. rewrite <- L, firstn_all. split; [now apply FileProofs.words_concat_sp|now split]. }
  destruct (g_fill c) as [f|]; [|exists []; split; [apply block_nil|reflexivity]].
  destruct (g_offset c) as [o|]; destruct (g_rot c) as [m|].
  - destruct (OO o eq_refl) as (A1 & A2 & A3 & A4). destruct (RR m eq_refl) as (B1 & B2 & B3 & B4). now apply MAIN.
  - destruct (OO o eq_refl) as (A1 & A2 & A3 & A4). apply MAIN; [exact A1|exact A2|exact A3|exact A4| |reflexivity|exact R0|reflexivity].
    change (T "1 0 0 0 1 0 0 0 1 ") with (T "1 0 0 0 1 0 0 0 1" ++ [blank]). now apply closed_end.
  - destruct (RR m eq_refl) as (B1 & B2 & B3 & B4). apply MAIN; [|reflexivity|exact O0|reflexivity|exact B1|exact B2|exact B3|exact B4].
    change (T " 0 0 0 ") with (T " 0 0 0" ++ [blank]). now apply closed_end.
  - exists []. split; [apply block_nil|reflexivity].
Qed.

(** ** Materials *)

Lemma nuclides_text c : Forall (fun e => zaid (fst e)) c ->
  closed (concat (map serpent_nuclide c)) /\ words (concat (map serpent_nuclide c)) = flat_map (fun e => [fst e; fmt_e 6 (snd e)]) c.
Proof.
  induction 1 as [|e c Z F [IC IW]]; [split; [apply closed_nil|reflexivity]|]. cbn [map concat flat_map].
  assert (C : closed (serpent_nuclide e)) by (unfold serpent_nuclide; rewrite !app_assoc; now apply closed_end).
  split; [now apply closed_app|]. rewrite words_closed_app, IW by exact C. f_equal. unfold serpent_nuclide.
  destruct (zaid_wordy _ Z) as (A & B & _). destruct (PropFlukaMat.fmt_e_word 6 (snd e)) as [D E]. rewrite words_head; [|exact A|].
  - now rewrite words_head by assumption.
  - destruct Z as [_ Z]. unfold nonspace. rewrite forallb_forall in *. intros x I. specialize (Z x I). destruct (is_space x) eqn:S; [|reflexivity]. apply space_not_digit in S. congruence.
Qed.
Lemma material_block show m : serp_material show m ->
  exists card, block (write_serpent_material show m) [card] /\ mat_card card (m_num m) (m_dens m) (option_map (fun c => words (T c)) (m_colour m)) (m_comp m).
Proof.
  intros (((ZN & ZD) & NM & WD & (v & V & VQ) & NC & ND & FZ) & DN & DC). destruct (nuclides_text _ FZ) as [CN WN].
  set (col := match m_colour m with Some c => T "rgb" :: words (T c) | None => [] end).
  exists (T "mat" :: m_num m :: show (m_dens m) :: col ++ flat_map (fun e => [fst e; fmt_e 6 (snd e)]) (m_comp m)). split.
  - assert (E : write_serpent_material show m = ("%"%char :: (blank :: m_name m) ++ [newline]) ++ T "mat" ++ T " " ++ m_num m ++ T " " ++ show (m_dens m) ++
        match m_colour m with Some c => T " rgb " ++ T c ++ [newline] | None => [newline] end ++ concat (map serpent_nuclide (m_comp m))).
    { unfold write_serpent_material. change (T "% ") with ["%"%char; blank]. change (T "mat ") with (T "mat" ++ T " "). cbn [app]. do 2 f_equal. rewrite <- !app_assoc. reflexivity. }
    rewrite E. apply (block_app _ _ _ []).
    { apply block_comment; [discriminate|]. intros [H|H]; [discriminate|now apply NM]. }
    assert (NS : forall w, forallb is_digit w = true -> nonspace w).
    { intros w Z. unfold nonspace. rewrite forallb_forall in *. intros x I. specialize (Z x I). destruct (is_space x) eqn:S; [|reflexivity]. apply space_not_digit in S. congruence. }
    destruct (numeral_facts _ DN) as (DE & _ & DS & _).
    apply card_block; [| |reflexivity|vm_compute; intuition discriminate|].
    + rewrite !app_assoc. apply closed_app; [|exact CN]. destruct (m_colour m); rewrite ?app_assoc; now apply closed_end.
    + rewrite words_head by (discriminate || reflexivity). rewrite words_head; [|exact ZN|now apply NS]. do 2 f_equal. unfold col.
      destruct (m_colour m) as [c|].
      * change (T " rgb " ++ ?x) with (" "%char :: T "rgb" ++ T " " ++ x). cbn [app]. rewrite words_app_space by reflexivity. rewrite words_single by assumption.
        cbn [app]. f_equal. rewrite <- !app_assoc. rewrite words_head by (discriminate || reflexivity). cbn [app]. f_equal.
        rewrite words_app_space by reflexivity. now rewrite WN.
      * cbn [app]. rewrite words_app_space by reflexivity. rewrite words_single by assumption. now rewrite WN.
    + constructor; [now apply arg_tame, digits_arg|]. constructor; [now apply arg_tame, numeral_arg|]. apply Forall_app. split.
      * unfold col. destruct (m_colour m) as [c|]; [|constructor]. constructor; [literal|]. apply (Forall_impl _) with (2 := DC c eq_refl). intros w H. now apply arg_tame, digits_arg.
      * apply Forall_flat_map. apply (Forall_impl _) with (2 := FZ). intros e [_ Z]. constructor; [now apply arg_tame, digits_arg|]. constructor; [apply arg_tame, fmt_e_arg|constructor].
  - exists (show (m_dens m)), v, (map (fun e => (fst e, fmt_e 6 (snd e))) (m_comp m)). split; [|split; [exact V|split; [exact VQ|]]].
    + assert (X : forall l : dict Q, flat_map (fun e => [fst e; snd e]) (map (fun e => (fst e, fmt_e 6 (snd e))) l) = flat_map (fun e => [fst e; fmt_e 6 (snd e)]) l).
      { clear. induction l as [|e l IH]; [reflexivity|]. cbn [map flat_map]. now rewrite IH. }
      rewrite X. unfold col. destruct (m_colour m); reflexivity.
    + clear. induction (m_comp m) as [|e l IH]; [constructor|]. cbn [map]. constructor; [|exact IH]. split; [reflexivity|]. apply fmt_e6_reads.
Qed.

(** ** The file *)

Lemma block_list {A} (w : A -> text) (P : A -> list (list text) -> Prop) l : Forall (fun a => exists cs, block (w a) cs /\ P a cs) l ->
  exists css, block (concat (map w l)) (concat css) /\ Forall2 P l css.
Proof.
  induction 1 as [|a l (cs & B & H) F (css & BB & FF)]; [exists []; split; [apply block_nil|constructor]|].
  exists (cs :: css). split; [|now constructor]. cbn [map concat]. now apply block_app.
Qed.

(** C77: the file is written, and Serpent reads in it, after each other and with nothing before or between them, a card for
    every surface, the cards of every cell, and a card for every material, which say what the deck says.  Missing from the full
    property: cones and tori that need more than six decimals (C58), and the outside of the model (below). *)
Theorem C77_serpent_file_partial str show d : serp_deck str show d ->
  exists t ss cc mm, lasting (fun fuel => serpent_file str show fuel d) t /\ serpent_reads t = ([], ss ++ concat cc ++ mm) /\
    Forall2 (fun s card => forall sn, surf_sense (fst s) = Some sn -> surf_card str card (s_id (fst s)) sn) (d_surfs d) ss /\
    Forall2 (fun c cs => forall r, expr (toks (g_items c)) r -> cell_cards cs c r) (d_cells d) cc /\
    Forall2 (fun e card => mat_card card (m_num (snd e)) (m_dens (snd e)) (option_map (fun c => words (T c)) (m_colour (snd e))) (m_comp (snd e))) (d_mats d) mm.
Proof.
  intros (NS & FS & FC & FM).
  assert (S1 : exists ts, mapM (fun s => write_serpent_surface str (fst s)) (d_surfs d) = Some ts /\ exists ss, block (concat ts) ss /\
    Forall2 (fun s card => forall sn, surf_sense (fst s) = Some sn -> surf_card str card (s_id (fst s)) sn) (d_surfs d) ss).
  { clear FC FM. induction FS as [|s l (sn & G) F (ts & E & ss & B & H)]; [exists []; split; [reflexivity|]; exists []; split; [apply block_nil|constructor]|].
    destruct (surface_block str (fst s) sn NS G) as (t & card & W & BT & SC). exists (t :: ts). cbn [mapM]. rewrite W, E. split; [reflexivity|].
    exists (card :: ss). cbn [concat]. split; [apply (block_app _ _ _ [card]); assumption|]. constructor; [|exact H]. intros sn2 E2. destruct G as [E1 _]. rewrite E1 in E2. now injection E2 as <-. }
  assert (S2 : exists ts, lasting (fun f => mapM (fun c => seq (write_serpent_cell f (to_w show c)) (Some (serpent_trans c))) (d_cells d)) ts /\
    Forall2 (fun c t => exists cs, block t cs /\ forall r, expr (toks (g_items c)) r -> cell_cards cs c r) (d_cells d) ts).
  { apply lasting_list. apply (Forall_impl _) with (2 := FC). intros c (LI & LM & r & G). destruct (cell_block show c r LI LM G) as (t & card & (k & L) & B & CC).
    destruct (trans_block show c r G) as (rest & BR & HR). exists (t ++ serpent_trans c). split.
    - exists k. intros f LE. now rewrite L by exact LE.
    - exists (card :: rest). split; [now apply (block_app _ _ _ [card])|]. intros r2 E2. exists card, rest. split; [reflexivity|]. split; [now apply CC|exact HR]. }
  destruct S1 as (ts & E1 & ss & B1 & H1). destruct S2 as (cs & (k & E2) & H2).
  assert (S3 : exists cc, block (concat cs) (concat cc) /\ Forall2 (fun c cs => forall r, expr (toks (g_items c)) r -> cell_cards cs c r) (d_cells d) cc).
  { clear - H2. induction H2 as [|c t l ts (u & B & H) F (cc & BB & HH)]; [exists []; split; [apply block_nil|constructor]|].
    exists (u :: cc). cbn [concat]. split; [now apply block_app|now constructor]. }
  destruct S3 as (cc & B2 & H3).
  destruct (block_list (fun e : text * material => write_serpent_material show (snd e))
    (fun e cs => exists card, cs = [card] /\ mat_card card (m_num (snd e)) (m_dens (snd e)) (option_map (fun c => words (T c)) (m_colour (snd e))) (m_comp (snd e))) (d_mats d)) as (mm & B3 & H4).
  { apply (Forall_impl _) with (2 := FM). intros e G. destruct (material_block show (snd e) G) as (card & B & MC). exists [card]. split; [exact B|]. exists card. now split. }
  eexists. exists ss, cc, (concat mm). split; [|split; [|split; [exact H1|split; [exact H3|]]]].
  - exists k. intros f LE. unfold serpent_file, texts. cbn [seqs]. rewrite E1, E2 by exact LE. reflexivity.
  - apply block_cards. unfold write_serpent_materials. rewrite app_nil_r. change (ss ++ concat cc ++ concat mm) with ([] ++ ss ++ [] ++ concat cc ++ [] ++ concat mm).
    assert (CL : forall s, ~ In newline (T s) -> block (T (String "%"%char s) ++ [newline]) []) by (intros s N; apply block_comment; [discriminate|exact N]).
    apply block_app; [apply CL; vm_compute; intuition discriminate|]. apply block_app; [exact B1|]. apply block_app; [apply CL; vm_compute; intuition discriminate|].
    apply block_app; [exact B2|]. change (newline :: ?x) with ([newline] ++ x). rewrite app_assoc. apply block_app; [apply CL; vm_compute; intuition discriminate|exact B3].
  - clear - H4. induction H4 as [|e x l mm (card & -> & H) F IH]; [constructor|]. now constructor.
Qed.
Print Assumptions C77_serpent_file_partial.

(** The deck of C73: three surfaces, a cell of steel, a cell filled with universe 7 that is moved, and a cell of universe 7. *)
Definition show_serp (q : Q) : text := if Qeq_bool q (-78 # 10) then T "-7.8" else show_ex q.
Example C77_deck : serp_deck PropSurfOut.str01 show_serp deck_ex.
Proof.
  assert (NU : forall w : text, (negb (text_eqb w []) && (length w <=? 40) && forallb (fun c => is_digit c || existsb (Ascii.eqb c) (T "-+.e")) w)%bool = true -> numeral w).
  { intros w H. apply andb_true_iff in H as [H H3]. apply andb_true_iff in H as [H1 H2]. split; [intros ->; discriminate|]. split; [now apply Nat.leb_le|exact H3]. }
  split; [|split; [|split]].
  - intro x. unfold PropSurfOut.str01. destruct (Req_EM_T x 0), (Req_EM_T x 1); now apply NU.
  - cbn [d_surfs deck_ex]. repeat (constructor; [eexists; split; [reflexivity|discriminate]|]). constructor.
  - destruct C73_deck as (FC & _). cbn [d_cells deck_ex cells_ex] in *. rewrite Forall_forall in FC.
    constructor; [|constructor; [|constructor; [|constructor]]]; (split; [vm_compute; lia|]); (split; [vm_compute; lia|]).
    + destruct (FC _ (or_introl eq_refl)) as (r & G). exists r. exact G.
    + destruct (FC _ (or_intror (or_introl eq_refl))) as (r & G). exists r. exact G.
    + destruct (FC _ (or_intror (or_intror (or_introl eq_refl)))) as (r & G). exists r. exact G.
  - constructor; [|constructor]. split; [|split; [now apply NU|discriminate]]. cbn [snd]. unfold serpent_good, steel_ex. cbn [m_num m_name m_dens m_colour m_comp].
    split; [split; [discriminate|reflexivity]|]. split; [vm_compute; intuition discriminate|]. split; [repeat split; (discriminate || reflexivity)|].
    split; [eexists; split; [vm_compute; reflexivity|reflexivity]|]. split; [discriminate|].
    split; [constructor; [intros [E|[]]; discriminate|constructor; [intros []|constructor]]|]. repeat (constructor; [split; [discriminate|reflexivity]|]). constructor.
Qed.
Example C77_text : serpent_file PropSurfOut.str01 show_serp 10 deck_ex = Some (
  lf "% --- surface definitions --- %" ++ lf "surf 3 sph 0.0 1.0 0.0 1.0" ++ lf "surf 4 px 1.0" ++ lf "surf 40 pz 0.0" ++
  lf "% --- cell definitions --- %" ++ lf "cell 1 0 12 ( -3 ) " ++ lf "cell 2 0 fill 7 ( ( 3 -4 ) : -40 ) " ++ lf "trans f 2 1.5 0.0 -2e-07 1 0 0 0 1 0 0 0 1 1 " ++
  lf "cell 33 7 void ( # ( -3: 40 ) ) " ++
  lf "% --- material definitions --- %" ++ lf "% M12" ++ lf "mat 12 -7.8" ++ lf "26056 7.500000e-01 " ++ lf "6012 2.500000e-01 ").
Proof.
  unfold serpent_file, texts. cbn [d_surfs d_cells d_mats deck_ex mapM]. unfold write_serpent_surface, serpent_body, numbers.
  cbn [fst s_type s_coef s_bc s_id map option_map]. rewrite PropSurfOut.str01_0, PropSurfOut.str01_1. vm_compute. reflexivity.
Qed.
(** Read again, the eight cards are there. *)
Example C77_example : exists t, serpent_file PropSurfOut.str01 show_serp 10 deck_ex = Some t /\
  map (hd []) (snd (serpent_reads t)) = map T ["surf"; "surf"; "surf"; "cell"; "cell"; "trans"; "cell"; "mat"]%string /\ fst (serpent_reads t) = [].
Proof. eexists. split; [exact C77_text|]. split; vm_compute; reflexivity. Qed.

(** Serpent asks for the region outside of the model as cells with the word outside in place of the material; a cell of
    importance 0, which is the outside of an MCNP model, is written as a void, as if its importance were 1. *)
Theorem C77_outside_refuted : exists show c t, g_imp c = 0%Q /\ g_fill c = None /\ words t = map T ["cell"; "1"; "0"; "void"; "("; "4"; ")"]%string /\
  forall fuel i, write_serpent_cell fuel (to_w show (mkG (g_id c) (g_mat c) (g_dens c) (g_text c) (g_items c) (g_univ c) (g_fill c) (g_offset c) (g_rot c) i)) = Some t.
Proof.
  exists show_serp, (mkG 1 0 (T "0") [T "4"] [Str (T "4")] None None None None 0). eexists. split; [reflexivity|]. split; [reflexivity|].
  split; [|intros fuel i; vm_compute; reflexivity]. vm_compute. reflexivity.
Qed.
Print Assumptions C77_outside_refuted.
