(** Property theorem C73: an MCNP file that is written can be read, and says the same. *)
From Coq Require Import Reals QArith Permutation ZifyBool Lia.
From Verif Require Import PyStr PyStrFacts PyInt PyIntFacts PyDict Formatter FormatterProofs WrapProofs FortranNumber FortranNumberProofs
  RegionSpec RegionFacts CellModel CellProofs CellText CellWriters CellWritersProofs CellWritersOut
  SurfModel GeomSpec SurfSpec SurfProofs SurfWriters SurfWritersProofs TargetSpec PropSurf FlattenModel NamesModel MaterialModel MaterialWriters KeywordModel
  DeckScan ConvertModel FileModel PropSurfOut PropKeyword PropDeck PropMaterialOut FileProofs.
From Verif Require FlattenProofs.
Open Scope nat_scope.
Open Scope list_scope.

(* ------------------------------------------------------------------ *)
(** * Surfaces *)

(** What is asked of a surface: its sides are [sn], and its numbers are printed so that they read back. *)
Definition good_surface (str : R -> text) (s : surface) (sn : sense) : Prop :=
  surf_sense s = Some sn /\ ~ sheeted s /\ s_bc s <> PERIODIC /\ (0 <= s_id s)%Z /\ length (str_Z (s_id s)) <= 60 /\
  Forall (fun x => to_float (str x) = Some x /\ numeral (str x)) (s_coef s).

(** The surface that was read is the one that was written. *)
Definition surface_read (s s' : surface) : Prop :=
  s_id s' = s_id s /\ s_tr s' = None /\ (forall sn, surf_sense s = Some sn -> denotes s' sn) /\
  s_bc s' = TRANSMISSION /\ s_type s' = s_type s /\ PropSurfOut.card_parts s' = PropSurfOut.card_parts s.

Lemma join_chunks ws : ws <> [] -> T " " ++ join_sp ws = flat_map chunk_text (map (pair 1) ws).
Proof.
  intro N. induction ws as [|w [|v ws] IH]; [tauto|cbn [join_sp map flat_map]; now rewrite app_nil_r|].
  change (join_sp (w :: v :: ws)) with (w ++ T " " ++ join_sp (v :: ws)). rewrite IH by discriminate. reflexivity.
Qed.

Lemma flat_map_last {A} (f : A -> text) l x : flat_map f (l ++ [x]) = flat_map f l ++ f x.
Proof. rewrite flat_map_app. cbn [flat_map]. now rewrite app_nil_r. Qed.

Lemma maxrun_snoc x c : maxrun (x ++ [c]) <= S (maxrun x).
Proof.
  assert (K : forall y, lead (y ++ [c]) <= S (lead y)).
  { induction y as [|e y IH]; cbn [app lead]; [destruct (Ascii.eqb c blank); lia|]. destruct (Ascii.eqb e blank); lia. }
  induction x as [|d x IH]; cbn [app maxrun]; [specialize (K []); cbn [app] in K; cbn in *; lia|]. specialize (K (d :: x)). cbn [app] in K. lia.
Qed.

(** A card of words after one or two blanks. *)
Lemma chunk_card w ch : w <> [] -> nonspace w -> length w <= 65 -> ch <> [] -> Forall good_chunk ch ->
  exists l0 ls N, (forall fuel, N <= fuel -> mcnp_line_formatter fuel (w ++ flat_map chunk_text ch ++ [newline]) = Some (with_ends (l0 :: ls))) /\
    loosens (w ++ flat_map chunk_text ch ++ [newline]) (with_ends (l0 :: ls)) /\ wrapped_lines l0 ls /\
    exists t, l0 ++ t = w ++ flat_map chunk_text ch ++ [newline].
Proof.
  intros NE NS L CN F. destruct (chunks_airy ch F) as [A M]. assert (NB : ~ In blank w) by now apply nonspace_no. apply formatter_shape.
  - destruct (exists_last CN) as (ch' & [n v] & ->). apply Forall_app in F as [_ F]. inversion F as [|? ? (_ & VN & _ & VS) _]; subst. cbn [snd] in *.
    destruct (exists_last VN) as (v' & x & ->). rewrite flat_map_last. unfold chunk_text at 2. cbn [fst snd].
    exists (w ++ flat_map chunk_text ch' ++ repeat blank n ++ v'), x. split; [now rewrite <- !app_assoc|].
    unfold nonspace in VS. rewrite forallb_app in VS. apply andb_true_iff in VS as [_ VS]. cbn in VS. now destruct (is_space x).
  - rewrite app_assoc, removelast_last, in_app_iff. intros [I|I]; [revert I; now apply nonspace_no|].
    apply (chunks_space _ _ F) in I as [I|I]; discriminate.
  - apply airy_airless. rewrite airy_word by assumption. rewrite airy_mid by discriminate. now rewrite A.
  - apply runs_maxrun. destruct ch as [|[n v] ch]; [tauto|]. inversion F as [|? ? ([Hn|Hn] & _) _]; subst; cbn [fst] in Hn; subst n;
      cbn [flat_map]; unfold chunk_text at 1; cbn [fst snd repeat app]; rewrite maxrun_app_blank; pose proof (maxrun_noblank w).
    + assert (X : maxrun ((v ++ flat_map chunk_text ch) ++ [newline]) <= 69); [|lia].
      cbn [flat_map] in M. unfold chunk_text at 1 in M. cbn [fst snd repeat app maxrun] in M.
      pose proof (maxrun_snoc (v ++ flat_map chunk_text ch) newline). lia.
    + assert (X : maxrun (blank :: (v ++ flat_map chunk_text ch) ++ [newline]) <= 69); [|lia].
      cbn [flat_map] in M. unfold chunk_text at 1 in M. cbn [fst snd repeat app] in M.
      pose proof (maxrun_snoc (blank :: blank :: v ++ flat_map chunk_text ch) newline) as Y. cbn [app maxrun] in Y, M |- *. lia.
  - apply Forall_forall. intros x I S. rewrite !in_app_iff in I. destruct I as [I|[I|[<-|[]]]]; [|left|now right].
    + exfalso. revert I. now apply nonspace_no.
    + apply (chunks_space _ _ F) in I as [->|I]; [reflexivity|congruence].
Qed.

Lemma surf_card str s sn : good_surface str s sn ->
  exists l0 ls N, (forall fuel b, N <= fuel -> mcnp_surface str fuel (s, b) = Some (with_ends (l0 :: ls))) /\
  good_card (wrapped_card l0 ls) /\ PropDeck.card_text (wrapped_card l0 ls) = lower (with_ends (l0 :: ls)) /\
  concat (card_lines (wrapped_card l0 ls)) = lower (with_ends (l0 :: ls)) /\
  Forall (fun x => is_comment_line x = false /\ exists y, x = y ++ [newline] /\ ~ In newline y) (card_lines (wrapped_card l0 ls)) /\
  (exists s', read_surface (lower (with_ends (l0 :: ls))) = Some s' /\ surface_read s s') /\
  exists bt m vals sn', mcnp_boundary (s_bc s) = Some bt /\ words (lower (with_ends (l0 :: ls))) = (bt ++ str_Z (s_id s)) :: T m :: map str vals /\
    mcnp_means m vals sn' /\ same_sense sn' sn /\ (forall x, In x vals -> In x (s_coef s)) /\
    (In m ["k/x"; "k/y"; "k/z"]%string -> length vals = 4) /\ ~ In m ["kx"; "ky"; "kz"]%string /\
    (In m ["tx"; "ty"; "tz"]%string -> is_torus (s_type s) = true /\ vals = s_coef s) /\ card_parts s = Some (m, vals).
Proof.
  intros (E & NS & NP & PI & LI & P).
  assert (PP : Forall (PropSurfOut.printed str) (s_coef s)).
  { apply (Forall_impl _) with (2 := P). intros x [H N]. destruct (numeral_facts _ N) as (N1 & N2 & N3 & _ & _ & N4 & _).
    split; [exact H|]. split; [repeat split; assumption|exact N4]. }
  destruct (C50_reads_back_partial str s sn E NS NP PI LI PP) as [_ RB].
  destruct (mcnp_form str s sn E NS) as (m & vals & sn' & B & M & SS & IN & NE & LM & WM & DM & FM & TORUS).
  assert (LM2 : lower (T m) = T m) by (inversion M; reflexivity).
  assert (BB : exists bt, mcnp_boundary (s_bc s) = Some bt /\ (bt = [] \/ bt = T "*" \/ bt = T "+"))
    by (destruct (s_bc s); try contradiction; eexists; (split; [reflexivity|auto])).
  destruct BB as (bt & EB & CB).
  assert (NV : Forall numeral (map str vals)).
  { apply Forall_map, Forall_forall. intros x I. rewrite Forall_forall in P. now apply P, IN. }
  set (w := bt ++ str_Z (s_id s)). set (ch := map (pair 1) (T m :: map str vals)).
  assert (ET : mcnp_surface_text str s = Some (w ++ flat_map chunk_text ch ++ [newline])).
  { unfold mcnp_surface_text. rewrite EB, B. f_equal. unfold w. rewrite <- app_assoc. do 2 f_equal. unfold ch. rewrite <- join_chunks by discriminate.
    unfold numbers, spread, nl. destruct vals as [|v vals]; [contradiction|]. cbn [map join_sp]. rewrite <- !app_assoc. reflexivity. }
  assert (WZ := word_str_Z (s_id s)). destruct WZ as [NI SI].
  assert (W1 : w <> []) by (intro A; apply app_eq_nil in A as [_ A]; contradiction).
  assert (W2 : nonspace w) by (unfold w, nonspace in *; rewrite forallb_app, SI; destruct CB as [-> |[-> | ->]]; reflexivity).
  assert (FC : Forall good_chunk ch).
  { unfold ch. cbn [map]. constructor.
    - split; [now left|]. cbn [snd]. destruct WM as [WM1 WM2]. repeat split; [exact WM1|lia|exact WM2].
    - apply Forall_map. apply (Forall_impl _) with (2 := NV). intros v N. destruct (numeral_facts _ N) as (N1 & N2 & N3 & _).
      split; [now left|]. cbn [snd]. repeat split; [exact N1|lia|exact N3]. }
  destruct (chunk_card w ch W1 W2) as (l0 & ls & N & F1 & F2 & F3 & u & F4); [|discriminate|exact FC|].
  { unfold w. rewrite app_length. assert (length bt <= 1) by (destruct CB as [-> |[-> | ->]]; cbn; lia). lia. }
  set (t := w ++ flat_map chunk_text ch ++ [newline]) in *.
  assert (WC : forall c, In c w -> c = "*"%char \/ c = "+"%char \/ is_digit c = true \/ c = "-"%char).
  { intros c I. unfold w in I. apply in_app_iff in I as [I|I].
    - destruct CB as [-> |[-> | ->]]; cbn in I; intuition.
    - right. right. apply (int_word_chars _ (int_word_str (s_id s)) c I). }
  assert (LW : lower w = w).
  { clear - WC. induction w as [|c w IH]; [reflexivity|]. cbn [lower map]. unfold lower in IH. rewrite IH by (intros d D; apply WC; now right). f_equal.
    destruct (WC c (or_introl eq_refl)) as [-> |[-> |[D| ->]]]; try reflexivity. now apply digit_plain. }
  assert (LC : lower (flat_map chunk_text ch) = flat_map chunk_text ch).
  { unfold ch. assert (K : Forall (fun v => lower v = v) (T m :: map str vals)).
    { constructor; [exact LM2|]. apply (Forall_impl _) with (2 := NV). intros v X. now apply numeral_facts in X. }
    clear - K. induction K as [|v l V F IH]; [reflexivity|]. cbn [map flat_map]. rewrite lower_app, IH. f_equal. unfold chunk_text. cbn [fst snd repeat app].
    cbn [lower map]. unfold lower in V. now rewrite V. }
  assert (ND : ~ In "$"%char t).
  { unfold t. rewrite !in_app_iff. intros [I|[I|[I|[]]]]; [|  |discriminate].
    - apply WC in I as [I|[I|[I|I]]]; discriminate.
    - apply in_flat_map in I as (e & J & I). unfold ch in J. apply in_map_iff in J as (v & <- & J). unfold chunk_text in I. cbn [fst snd repeat app] in I.
      destruct I as [I|I]; [discriminate|]. destruct J as [<-|J]; [contradiction|]. rewrite Forall_forall in NV. apply NV in J. now apply numeral_facts in J. }
  destruct w as [|d w'] eqn:EW; [contradiction|].
  assert (HD : t = d :: (w' ++ flat_map chunk_text ch ++ [newline])) by reflexivity.
  assert (SD : is_space d = false) by (unfold nonspace in W2; cbn [forallb] in W2; now destruct (is_space d)).
  assert (CD : lower_char d <> "c"%char).
  { cbn [lower map] in LW. injection LW as LW _. rewrite LW. intros ->. destruct (WC "c"%char (or_introl eq_refl)) as [X|[X|[X|X]]]; discriminate. }
  destruct (wrapped_card_ok _ l0 ls u d _ F2 F3 F4 ND HD SD CD) as (G1 & G2 & G3 & G4).
  exists l0, ls, N. split; [|split; [exact G1|split; [exact G2|split; [exact G3|split; [exact G4|]]]]].
  - intros fuel b LF. unfold mcnp_surface. cbn [fst]. rewrite ET. now apply F1.
  - assert (LT : lower t = t) by (unfold t; rewrite !lower_app, LW, LC; reflexivity).
    assert (LL : lower (with_ends (l0 :: ls)) = with_ends (l0 :: ls)).
    { assert (K : forallb (fun c => Ascii.eqb (lower_char c) c) (with_ends (l0 :: ls)) = true).
      { apply (loosens_forallb _ t); try reflexivity; [exact F2|]. clear - LT. induction t as [|c t IH]; [reflexivity|]. cbn [lower map] in LT. injection LT as L1 L2.
        cbn [forallb]. rewrite IH by exact L2. rewrite L1, Ascii.eqb_refl. reflexivity. }
      clear - K. induction (with_ends (l0 :: ls)) as [|c x IH]; [reflexivity|]. cbn [forallb] in K. apply andb_true_iff in K as [K1 K2].
      cbn [lower map]. apply Ascii.eqb_eq in K1. unfold lower in IH. now rewrite K1, IH. }
    rewrite LL. split.
    2:{ exists bt, m, vals, sn'. split; [exact EB|]. split; [|split; [exact M|split; [exact SS|split; [exact IN|exact TORUS]]]].
        rewrite (loosens_words _ _ F2). unfold t. fold w. rewrite EW. clear - W1 W2 FC. rewrite app_assoc, words_app_space_r by reflexivity.
        assert (KW : forall l, Forall good_chunk (map (pair 1) l) -> words (flat_map chunk_text (map (pair 1) l)) = l).
        { induction l as [|v l IH]; intro F; [reflexivity|]. cbn [map] in F. inversion F as [|? ? (_ & V1 & _ & V2) F']; subst. cbn [snd] in V1, V2. cbn [map flat_map]. unfold chunk_text at 1. cbn [fst snd repeat app].
          rewrite words_cons_space by reflexivity. destruct l as [|v' l]; [cbn [map flat_map]; rewrite app_nil_r; now apply words_single|].
          assert (X : exists y, flat_map chunk_text (map (pair 1) (v' :: l)) = blank :: y) by (eexists; reflexivity). destruct X as (y & X). rewrite X in IH |- *.
          rewrite words_app_space by reflexivity. rewrite (words_single v V1 V2). cbn [app]. f_equal. rewrite words_cons_space in IH by reflexivity. now apply IH. }
        assert (X : exists y, flat_map chunk_text ch = blank :: y) by (eexists; reflexivity). destruct X as (y & X). specialize (KW _ FC). fold ch in KW. rewrite X in KW |- *.
        rewrite words_app_space by reflexivity. rewrite (words_single _ W1 W2). cbn [app]. f_equal. now rewrite words_cons_space in KW by reflexivity. }
    destruct (RB (with_ends (l0 :: ls))) as (s' & R1 & R2 & R3 & R4 & R5).
    { exists t. split; [exact ET|]. exists N. now apply F1. }
    exists s'. split; [exact R1|]. split; [exact R2|]. split; [exact R3|]. split; [|exact R5]. intros sn2 E2. rewrite E in E2. injection E2 as <-. exact R4.
Qed.

(* ------------------------------------------------------------------ *)
(** * The file *)

(** A list of cards, each with its first line and the lines after it. *)
Definition lines_of (cl : list (text * list text)) : list text := flat_map (fun p => fst p :: snd p) cl.
Definition card_good (p : text * list text) : Prop :=
  good_card (wrapped_card (fst p) (snd p)) /\
  PropDeck.card_text (wrapped_card (fst p) (snd p)) = lower (with_ends (fst p :: snd p)) /\
  Forall (fun x => is_comment_line x = false /\ exists y, x = y ++ [newline] /\ ~ In newline y) (card_lines (wrapped_card (fst p) (snd p))).

Lemma with_ends_app a b : with_ends (a ++ b) = with_ends a ++ with_ends b.
Proof. unfold with_ends. now rewrite map_app, concat_app. Qed.
Lemma with_ends_lines cl : with_ends (lines_of cl) = concat (map (fun p => with_ends (fst p :: snd p)) cl).
Proof.
  induction cl as [|p cl IH]; [reflexivity|]. unfold lines_of in *. cbn [flat_map map concat]. rewrite with_ends_app. now rewrite IH.
Qed.
Lemma read_with_ends L : Forall (fun x => ~ In newline x) L -> read_lines (with_ends L) = map (fun l => lower l ++ [newline]) L.
Proof.
  intro F. unfold read_lines, with_ends. rewrite readlines_lines by exact F. rewrite map_map. apply map_ext. intro l. apply lower_app.
Qed.
Lemma lower_lines cl : map (fun l => lower l ++ [newline]) (lines_of cl) = flat_map card_lines (map (fun p => wrapped_card (fst p) (snd p)) cl).
Proof.
  induction cl as [|p cl IH]; [reflexivity|]. unfold lines_of in *. cbn [flat_map map]. rewrite map_app, IH. f_equal.
  unfold card_lines, wrapped_card. cbn [fst snd map]. rewrite !map_map. reflexivity.
Qed.
Lemma lower_no_newline l y : lower l ++ [newline] = y ++ [newline] -> ~ In newline y -> ~ In newline l.
Proof.
  intros E N I. apply app_inj_tail in E as [<- _]. apply N. change newline with (lower_char newline). now apply in_map.
Qed.
Lemma lines_no_newline cl : Forall card_good cl -> Forall (fun x => ~ In newline x) (lines_of cl).
Proof.
  intro F. apply Forall_forall. intros l I. assert (J : In (lower l ++ [newline]) (map (fun l => lower l ++ [newline]) (lines_of cl))) by (apply in_map_iff; eauto).
  rewrite lower_lines in J. apply in_flat_map in J as (k & K & J). apply in_map_iff in K as (p & <- & K). rewrite Forall_forall in F. destruct (F p K) as (_ & _ & H).
  rewrite Forall_forall in H. destruct (H _ J) as (_ & y & E & N). now apply (lower_no_newline l y).
Qed.
Lemma lines_kept cl : Forall card_good cl ->
  drop_comment_lines (map (fun l => lower l ++ [newline]) (lines_of cl)) = flat_map card_lines (map (fun p => wrapped_card (fst p) (snd p)) cl).
Proof.
  intro F. rewrite lower_lines. unfold drop_comment_lines. induction F as [|p cl (_ & _ & H) F IH]; [reflexivity|]. cbn [map flat_map]. rewrite filter_app, IH. f_equal.
  clear - H. induction H as [|x l [C _] H IH]; [reflexivity|]. cbn [filter]. rewrite C. cbn [negb]. now rewrite IH.
Qed.

Lemma drop_app a b : drop_comment_lines (a ++ b) = drop_comment_lines a ++ drop_comment_lines b.
Proof. apply filter_app. Qed.

(** The cells. *)
Lemma cells_written show cells : Forall (fun c => exists r, good_gcell show c r) cells ->
  exists cl N, (forall fuel, N <= fuel -> texts (fun c => write_mcnp_cell fuel true (to_w show c)) cells = Some (with_ends (lines_of cl))) /\ Forall card_good cl /\
    forall f, exists xs, mapM (read_cell_card (S f)) (map PropDeck.card_text (map (fun p => wrapped_card (fst p) (snd p)) cl)) = Some xs /\ Forall2 (cell_read show) cells xs.
Proof.
  intro F. assert (K : exists cl N, (forall fuel, N <= fuel -> mapM (fun c => write_mcnp_cell fuel true (to_w show c)) cells = Some (map (fun p => with_ends (fst p :: snd p)) cl)) /\ Forall card_good cl /\
    forall f, exists xs, mapM (read_cell_card (S f)) (map PropDeck.card_text (map (fun p => wrapped_card (fst p) (snd p)) cl)) = Some xs /\ Forall2 (cell_read show) cells xs).
  { induction F as [|c cells (r & G) F (cl & N & W & FG & R)].
    - exists [], 0. repeat split; [constructor|]. intro f. exists []. split; [reflexivity|constructor].
    - destruct (cell_card show c r G) as (l0 & ls & N0 & W0 & G1 & G2 & G3 & G4 & R0).
      exists ((l0, ls) :: cl), (Nat.max N0 N). split; [|split].
      + intros fuel L. cbn [mapM]. rewrite W0, W by lia. reflexivity.
      + constructor; [|exact FG]. exact (conj G1 (conj G2 G4)).
      + intro f. destruct (R f) as (xs & R1 & R2). destruct (R0 f) as (x & R3 & R4). exists (x :: xs). split; [|now constructor].
        cbn [map mapM fst snd]. rewrite G2, R3, R1. reflexivity. }
  destruct K as (cl & N & W & FG & R). exists cl, N. split; [|now split]. intros fuel L. unfold texts. rewrite W by exact L. cbn [option_map]. now rewrite with_ends_lines.
Qed.

(** The surfaces. *)
Lemma surfs_written str ss : Forall (fun s => exists sn, good_surface str (fst s) sn) ss ->
  exists cl N, (forall fuel, N <= fuel -> texts (mcnp_surface str fuel) ss = Some (with_ends (lines_of cl))) /\ Forall card_good cl /\
    exists xs, mapM read_surface (map PropDeck.card_text (map (fun p => wrapped_card (fst p) (snd p)) cl)) = Some xs /\
      Forall2 (fun s s' => surface_read (fst s) s') ss xs.
Proof.
  intro F. assert (K : exists cl N, (forall fuel, N <= fuel -> mapM (mcnp_surface str fuel) ss = Some (map (fun p => with_ends (fst p :: snd p)) cl)) /\ Forall card_good cl /\
    exists xs, mapM read_surface (map PropDeck.card_text (map (fun p => wrapped_card (fst p) (snd p)) cl)) = Some xs /\ Forall2 (fun s s' => surface_read (fst s) s') ss xs).
  { induction F as [|[s b] ss (sn & G) F (cl & N & W & FG & xs & R1 & R2)].
    - exists [], 0. repeat split; [constructor|]. exists []. split; [reflexivity|constructor].
    - destruct (surf_card str s sn G) as (l0 & ls & N0 & W0 & G1 & G2 & G3 & G4 & (s' & R3 & R4) & _).
      exists ((l0, ls) :: cl), (Nat.max N0 N). split; [|split].
      + intros fuel L. cbn [mapM]. rewrite W0, W by lia. reflexivity.
      + constructor; [|exact FG]. exact (conj G1 (conj G2 G4)).
      + exists (s' :: xs). split; [|now constructor]. cbn [map mapM fst snd]. rewrite G2, R3, R1. reflexivity. }
  destruct K as (cl & N & W & FG & R). exists cl, N. split; [|now split]. intros fuel L. unfold texts. rewrite W by exact L. cbn [option_map]. now rewrite with_ends_lines.
Qed.

(** The material cards have no importances and no transforms. *)
Lemma no_imp l : Forall (fun x => ~ In "i"%char x) l -> forall d, scan_importances None d l = Some d.
Proof.
  induction 1 as [|x l N F IH]; intro d; [reflexivity|]. cbn [scan_importances]. destruct (sub_in (T "imp") x) eqn:S; [|apply IH].
  exfalso. apply N. apply FlattenProofs.sub_in_app in S as (a & b & ->). rewrite !in_app_iff. right. left. now left.
Qed.
Lemma no_tr l : Forall (fun x => is_tr_line x = false) l -> scan_transforms None l = Some [].
Proof. induction 1 as [|x l N F IH]; [reflexivity|]. cbn [scan_transforms]. now rewrite N. Qed.

Lemma mat_data show m : good_material show false m -> Forall (fun e => numeral (show (snd e))) (m_comp m) ->
  Forall (fun x => ~ In "i"%char x /\ is_tr_line x = false) (card_lines (mat_card show false m)).
Proof.
  intros (NU & NM & NE & ND & F) NQ. unfold mat_card. destruct (m_comp m) as [|e es]; [tauto|].
  assert (DI : forall d, forallb is_digit d = true -> ~ In "i"%char d) by (intros d D I; rewrite forallb_forall in D; apply D in I; discriminate).
  assert (K : forall e, zaid (fst e) -> numeral (show (snd e)) -> ~ In "i"%char (nuc_code show false m e)).
  { intros e0 [_ Z] N. unfold nuc_code, token. apply DI in Z. destruct (numeral_facts _ N) as (_ & _ & _ & _ & _ & _ & NI & _).
    rewrite !in_app_iff. intros [I|[[I|[]]|[I|I]]]; try contradiction; cbn in I; intuition discriminate. }
  inversion F as [|? ? (Z & _) F']; subst. inversion NQ as [|? ? Q1 NQ']; subst. destruct NU as [NU1 NU2].
  unfold card_lines. cbn [fst snd]. constructor.
  - unfold printed. cbn [code remark]. split.
    + rewrite !in_app_iff. apply DI in NU2. specialize (K e Z Q1). intros [[I|[I|I]]|I]; try contradiction; cbn in I; intuition discriminate.
    + reflexivity.
  - apply Forall_map, Forall_map. apply Forall_forall. intros x I. rewrite Forall_forall in F', NQ'. destruct (F' x I) as (Zx & _). specialize (K x Zx (NQ' x I)).
    unfold printed. cbn [code remark]. split; [|reflexivity]. rewrite in_app_iff. intros [I0|I0]; [contradiction|cbn in I0; intuition discriminate].
Qed.

(** A deck whose parts can be printed. *)
Definition good_deck (str : R -> text) (show : Q -> text) (d : ConvertModel.deck) : Prop :=
  Forall (fun c => exists r, good_gcell show c r) (d_cells d) /\
  Forall (fun s => exists sn, good_surface str (fst s) sn) (d_surfs d) /\
  (forall k m, In (k, m) (d_mats d) -> k = m_num m /\ good_material show false m /\ Forall (fun e => numeral (show (snd e))) (m_comp m)) /\
  NoDup (keys (d_mats d)).

(** The file, whatever the order in which the materials are written. *)
Lemma file_reads str show d l : good_deck str show d -> Permutation (map m_num l) (keys (d_mats d)) ->
  (forall k m, In (k, m) (d_mats d) <-> In m l /\ k = m_num m) ->
  exists N t, (forall fuel, N <= fuel ->
    seqs [ConvertModel.line "C cell definitions"; texts (fun c => write_mcnp_cell fuel true (to_w show c)) (d_cells d); ConvertModel.line "";
          ConvertModel.line "C surface definitions"; texts (mcnp_surface str fuel) (d_surfs d); ConvertModel.line "";
          option_map (fun t => T "C material definitions" ++ newline :: t) (write_all (write_mcnp_material show false true) l)] = Some t) /\
  forall f, exists p, read_file (S f) t = Some p /\
    Forall2 (cell_read show) (d_cells d) (f_cells p) /\
    Forall2 (fun s s' => surface_read (fst s) s') (d_surfs d) (f_surfs p) /\
    f_imps p = [] /\ f_trans p = [] /\
    keys (f_mats p) = map m_num l /\
    forall k m, dget k (d_mats d) = Some m -> exists m', dget k (f_mats p) = Some m' /\ same_fractions (m_comp m') (m_comp m) /\
      same_libraries false m (m_xs m').
Proof.
  intros (GC & GS & GM & ND) SM SI.
  destruct (cells_written show _ GC) as (cc & NC & WC & FC & RC). destruct (surfs_written str _ GS) as (sc & NS & WS & FS & xs & RS & RS2).
  assert (F : Forall (good_material show false) l).
  { apply Forall_forall. intros m I. apply (GM (m_num m) m). apply SI. now split. }
  assert (FN : Forall (fun m => Forall (fun e => numeral (show (snd e))) (m_comp m)) l).
  { apply Forall_forall. intros m I. apply (GM (m_num m) m). apply SI. now split. }
  assert (NDL : NoDup (map m_num l)).
  { apply (Permutation_NoDup (Permutation_sym SM)). exact ND. }
  destruct (cards_read show false l F) as (ts & R & H).
  destruct (add_read false l ts NDL H []) as (new & A & NW); [intros m _ []|].
  destruct (in_forall2_dget false l new NDL NW) as [KN GN].
  set (ml := flat_map (mat_lines show false true) l).
  assert (MO : mat_out show false true l = with_ends ml).
  { unfold mat_out, ml, with_ends. clear. induction l as [|m l IH]; [reflexivity|]. cbn [map concat flat_map]. now rewrite concat_lines_app, IH. }
  set (L := T "C cell definitions" :: lines_of cc ++ [] :: T "C surface definitions" :: lines_of sc ++ [] :: T "C material definitions" :: ml).
  exists (Nat.max NC NS), (with_ends L). split; [intros fuel LF|intro f; destruct (RC f) as (cs & RC1 & RC2); exists (mkF (T "c cell definitions" ++ [newline]) cs xs [] [] new);
    split; [|cbn [f_cells f_surfs f_imps f_trans f_mats]; repeat split; try assumption]].
  - unfold ConvertModel.line. rewrite WC, WS by lia. rewrite write_all_ok by exact F. rewrite MO. cbn [option_map seqs ConvertModel.seq].
    f_equal. unfold L.
    change (T "C cell definitions" :: lines_of cc ++ [] :: T "C surface definitions" :: lines_of sc ++ [] :: T "C material definitions" :: ml)
      with ([T "C cell definitions"] ++ lines_of cc ++ [[]] ++ [T "C surface definitions"] ++ lines_of sc ++ [[]] ++ [T "C material definitions"] ++ ml).
    rewrite !with_ends_app. rewrite app_nil_r. reflexivity.
  - assert (NM : Forall (fun x => ~ In newline x) ml).
    { unfold ml. apply Forall_flat_map. apply (Forall_impl _) with (2 := F). intros m' G'. now destruct (read_mat_lines show false true m' G'). }
    assert (NH : forall s : text, forallb (fun x => negb (Ascii.eqb x newline)) s = true -> ~ In newline s).
    { intros s S I. rewrite forallb_forall in S. specialize (S _ I). discriminate. }
    assert (NL : Forall (fun x => ~ In newline x) L).
    { unfold L. constructor; [now apply NH|]. apply Forall_app. split; [now apply lines_no_newline|]. constructor; [now apply NH|]. constructor; [now apply NH|].
      apply Forall_app. split; [now apply lines_no_newline|]. constructor; [now apply NH|]. constructor; [now apply NH|exact NM]. }
    assert (DM : drop_comment_lines (map (fun l => lower l ++ [newline]) ml) = flat_map (fun m => card_lines (mat_card show false m)) l).
    { rewrite <- read_with_ends by exact NM. rewrite <- MO. now apply read_mat_out. }
    unfold read_file, split_file. rewrite read_with_ends by exact NL. unfold L. cbn [map set_title].
    match goal with |- context [sub_in (T "message") ?x] => change (sub_in (T "message") x) with false end. cbn iota.
    rewrite map_app. cbn [map]. rewrite map_app. cbn [map].
    rewrite drop_app, lines_kept by exact FC.
    assert (D1 : forall s r, is_comment_line s = true -> drop_comment_lines (s :: r) = drop_comment_lines r) by (intros s r E; unfold drop_comment_lines; cbn [filter]; now rewrite E).
    assert (D2 : forall r, drop_comment_lines ((lower [] ++ [newline]) :: r) = [newline] :: drop_comment_lines r) by reflexivity.
    rewrite D2, D1 by reflexivity. rewrite drop_app, lines_kept by exact FS. rewrite D2, D1 by reflexivity. rewrite DM.
    unfold get_cell_cards. rewrite (scan_closed _ remove_is_strip); [|apply Forall_map; apply (Forall_impl _) with (2 := FC); now intros p [X _]|discriminate|reflexivity].
    unfold get_surface_cards. rewrite (scan_closed strip_dollar_comments (fun x => eq_refl)); [|apply Forall_map; apply (Forall_impl _) with (2 := FS); now intros p [X _]|discriminate|reflexivity].
    assert (FD : Forall (fun x => ~ In "i"%char x /\ is_tr_line x = false) (flat_map (fun m => card_lines (mat_card show false m)) l)).
    { apply Forall_flat_map. apply Forall_forall. intros m I. rewrite Forall_forall in F, FN. now apply mat_data; [apply F|apply FN]. }
    unfold get_importances, get_transform_cards. rewrite no_imp by (apply (Forall_impl _) with (2 := FD); tauto).
    rewrite no_tr by (apply (Forall_impl _) with (2 := FD); tauto). rewrite R. cbn [p_cells p_surfs p_trans p_mats p_imps p_title].
    rewrite RC1, RS. cbn [transform_list]. rewrite A. reflexivity.
  - intros k m D. apply dget_some_in in D. apply SI in D as [I ->]. now apply GN.
Qed.

(** C73: the MCNP file written for a deck is read by the MCNP reader, and every cell, every surface and every material
    is as it was.  Missing from the full property: cones cut to one sheet and surfaces with a periodic boundary (C50),
    materials without nuclides (C68), numbers printed with more than 40 characters and numbers with an exponent as
    universe, fill or importance (C53), for which the cards are read wrongly. *)
Theorem C73_mcnp_file_partial str show d : good_deck str show d ->
  exists N t, (forall fuel, N <= fuel -> mcnp_file str show fuel d = Some t) /\
  forall f, exists p, read_file (S f) t = Some p /\
    Forall2 (cell_read show) (d_cells d) (f_cells p) /\
    Forall2 (fun s s' => surface_read (fst s) s') (d_surfs d) (f_surfs p) /\
    f_imps p = [] /\ f_trans p = [] /\
    Permutation (keys (f_mats p)) (keys (d_mats d)) /\
    forall k m, dget k (d_mats d) = Some m -> exists m', dget k (f_mats p) = Some m' /\ same_fractions (m_comp m') (m_comp m) /\
      same_libraries false m (m_xs m').
Proof.
  intro G. assert (G' := G). destruct G' as (GC & GS & GM & ND).
  destruct (sorted_ok (d_mats d)) as (l & SE & SM & SI); [intros k m I; now apply GM|exact ND|].
  destruct (file_reads str show d l G) as (N & t & W & H); [rewrite SM; apply sort_perm|exact SI|].
  exists N, t. split; [intros fuel L; rewrite <- (W fuel L); unfold mcnp_file, write_mcnp_materials; now rewrite SE|].
  intro f. destruct (H f) as (p & R & C & S & I & TR & K & M). exists p. repeat (split; [assumption|]). split; [rewrite K, SM; apply sort_perm|exact M].
Qed.
Print Assumptions C73_mcnp_file_partial.

(** A deck: a cell of steel in a sphere, a cell filled with a universe that is moved, and the cell of that universe. *)
Definition show_ex (q : Q) : text := if Qeq_bool q 1 then T "1.0" else if Qeq_bool q (3 # 4) then T "0.75" else T "0.25".
Definition cells_ex : list gcell :=
  [mkG 1 12 (T "-7.8") [T "-3"] [Op AND; Str (T "-3")] None None None None 1;
   mkG 2 0 (T "0") [] [Str (T "("); Str (T "3"); Op AND; Str (T "-4"); Str (T ")"); Op UNION; Op AND; Str (T "-40")] None (Some (T "7")) (Some [T "1.5"; T "0.0"; T "-2e-07"]) None 1;
   mkG 33 0 (T "0") [] [Op NOT; Str (T "("); Str (T "-3"); Op UNION; Op AND; Str (T "40"); Str (T ")")] (Some (T "7")) None None
     None (1 # 4)].
Definition steel_ex : material := mkM (T "12") (T "M12") (-78 # 10) [(T "26056", 3 # 4); (T "6012", 1 # 4)]%Q [] None.
Definition deck_ex : ConvertModel.deck :=
  ConvertModel.mkDeck [(mkS 3 None SPHERE_GENERAL [0; 1; 0; 1]%R WHITE, []); (mkS 4 None PLANE_X [1; 0; 0; 1]%R TRANSMISSION, []); (mkS 40 None PLANE_Z [0; 0; 1; 0]%R VACUUM, [])]
    cells_ex [(T "12", steel_ex)] [].

Example C73_deck : good_deck str01 show_ex deck_ex.
Proof.
  assert (N1 : number (T "1.0")) by (exists [], (T "1"), (T ".0"); repeat split; auto; [right; exists (T "0"); repeat split; discriminate|discriminate]).
  assert (N2 : number (T "0.25")) by (exists [], (T "0"), (T ".25"); repeat split; auto; [right; exists (T "25"); repeat split; discriminate|discriminate]).
  assert (N7 : number (T "7")) by (exists [], (T "7"), []; repeat split; auto; discriminate).
  assert (NU : forall w : text, (negb (text_eqb w []) && (length w <=? 40) && forallb (fun c => is_digit c || existsb (Ascii.eqb c) (T "-+.e")) w)%bool = true -> numeral w).
  { intros w H. apply andb_true_iff in H as [H H3]. apply andb_true_iff in H as [H1 H2]. split; [intros ->; discriminate|]. split; [now apply Nat.leb_le|exact H3]. }
  assert (IW : forall w, py_int w <> None -> ~ In "+"%char w -> int_word w).
  { intros w P N. destruct (py_int w) as [z|] eqn:E; [|tauto]. now apply (py_int_int_word w z). }
  assert (WD : forall w, py_int w <> None -> ~ In "+"%char w -> length w <= 60 -> int_word w /\ length w <= 60) by (intros; split; auto).
  assert (IN : forall w : text, forallb (fun x => negb (Ascii.eqb x "+")) w = true -> ~ In "+"%char w).
  { intros w H I. rewrite forallb_forall in H. apply H in I. discriminate. }
  assert (AT : forall w, factor [TAtom w] (RAtom w)) by constructor.
  split; [|split; [|split]].
  - cbn [d_cells deck_ex cells_ex]. constructor; [|constructor; [|constructor; [|constructor]]].
    + exists (RAtom (T "-3")). unfold good_gcell. cbn [g_id g_mat g_dens g_items g_univ g_fill g_offset g_rot g_imp].
      split; [apply Nat.leb_le; reflexivity|]. split; [apply Nat.leb_le; reflexivity|]. split; [lia|].
      split; [intros _; split; [now apply NU|split; [now apply IN|vm_compute; discriminate]]|]. split; [reflexivity|]. split; [repeat constructor|].
      split; [constructor; [|constructor]; apply WD; [vm_compute; discriminate|now apply IN|apply Nat.leb_le; reflexivity]|].
      do 4 (split; [discriminate|]). split; [exact N1|]. split; [apply Nat.leb_le; reflexivity|]. eexists. split; [vm_compute; reflexivity|reflexivity].
    + exists (ROr (RAnd (RAtom (T "3")) (RAtom (T "-4"))) (RAtom (T "-40"))). unfold good_gcell. cbn [g_id g_mat g_dens g_items g_univ g_fill g_offset g_rot g_imp].
      split; [apply Nat.leb_le; reflexivity|]. split; [apply Nat.leb_le; reflexivity|]. split; [lia|].
      split; [tauto|]. split; [reflexivity|]. split.
      { apply (expr_or [TOpen; TAtom (T "3"); TAtom (T "-4"); TClose] _ [TAtom (T "-40")]); [|repeat constructor].
        apply expr_term, term_factor. apply (factor_paren [TAtom (T "3"); TAtom (T "-4")]). apply expr_term. apply (term_and [TAtom (T "3")] _ [TAtom (T "-4")]); repeat constructor. }
      split; [repeat (constructor; [apply WD; [vm_compute; discriminate|now apply IN|apply Nat.leb_le; reflexivity]|]); constructor|].
      split; [discriminate|]. split; [intros f [= <-]; split; [exact N7|apply Nat.leb_le; reflexivity]|].
      split; [intros o [= <-]; split; [reflexivity|repeat (constructor; [now apply NU|]); constructor]|]. split; [discriminate|].
      split; [exact N1|]. split; [apply Nat.leb_le; reflexivity|]. eexists. split; [vm_compute; reflexivity|reflexivity].
    + exists (RNot (ROr (RAtom (T "-3")) (RAtom (T "40")))). unfold good_gcell. cbn [g_id g_mat g_dens g_items g_univ g_fill g_offset g_rot g_imp].
      split; [apply Nat.leb_le; reflexivity|]. split; [apply Nat.leb_le; reflexivity|]. split; [lia|].
      split; [tauto|]. split; [reflexivity|]. split.
      { apply expr_term, term_factor. apply (factor_not [TAtom (T "-3"); TUnion; TAtom (T "40")]).
        apply (expr_or [TAtom (T "-3")] _ [TAtom (T "40")]); repeat constructor. }
      split; [repeat (constructor; [apply WD; [vm_compute; discriminate|now apply IN|apply Nat.leb_le; reflexivity]|]); constructor|].
      split; [intros u [= <-]; split; [exact N7|apply Nat.leb_le; reflexivity]|]. do 3 (split; [discriminate|]).
      split; [exact N2|]. split; [apply Nat.leb_le; reflexivity|]. eexists. split; [vm_compute; reflexivity|reflexivity].
  - assert (P0 : to_float (str01 0) = Some 0%R /\ numeral (str01 0)) by (rewrite str01_0; split; [apply to_float_00|now apply NU]).
    assert (P1 : to_float (str01 1) = Some 1%R /\ numeral (str01 1)) by (rewrite str01_1; split; [apply to_float_10|now apply NU]).
    assert (GS : forall s sn, surf_sense s = Some sn -> ~ sheeted s -> s_bc s <> PERIODIC -> (0 <= s_id s)%Z -> length (str_Z (s_id s)) <= 60 ->
      Forall (fun x => x = 0 \/ x = 1)%R (s_coef s) -> exists sn, good_surface str01 s sn).
    { intros s sn H1 H2 H3 H4 H5 H6. exists sn. do 5 (split; [assumption|]). apply (Forall_impl _) with (2 := H6). intros x [-> | ->]; assumption. }
    cbn [d_surfs deck_ex]. apply Forall_cons; [|apply Forall_cons; [|apply Forall_cons; [|apply Forall_nil]]]; cbn [fst];
      (eapply GS; [reflexivity|intros []|discriminate|cbn; lia|apply Nat.leb_le; reflexivity|cbn [s_coef]; repeat (apply Forall_cons; [tauto|]); apply Forall_nil]).
  - intros k m [E|[]]. injection E as <- <-. split; [reflexivity|]. split.
    + split; [split; [discriminate|reflexivity]|]. split; [cbn; intuition discriminate|]. split; [discriminate|].
      split; [repeat (constructor; [cbn; intuition discriminate|]); constructor|].
      repeat (constructor; [split; [split; [discriminate|reflexivity]|]; split; [|discriminate]; split; [split; [discriminate|split; reflexivity]|
        eexists; split; [vm_compute; reflexivity|reflexivity]]|]). constructor.
    + cbn [m_comp steel_ex]. repeat (constructor; [now apply NU|]). constructor.
  - cbn. repeat constructor. intros [].
Qed.

Definition lf (s : string) : text := T s ++ [newline].
Example C73_text : mcnp_file str01 show_ex 10 deck_ex = Some (
  lf "C cell definitions" ++ lf "1 12 -7.8 -3 IMP:N=1.0" ++ lf "2 0 ( 3 -4 ) : -40 fill=7 (1.5 0.0 -2e-07 ) IMP:N=1.0" ++
  lf "33 0 # ( -3 : 40 ) u=7 IMP:N=0.25" ++ lf "" ++
  lf "C surface definitions" ++ lf "+3 s 0.0 1.0 0.0 1.0" ++ lf "4 px 1.0" ++ lf "40 pz 0.0" ++ lf "" ++
  lf "C material definitions" ++ lf "C Material M12" ++ lf "M12     26056 0.75" ++ lf "     6012 0.25").
Proof.
  unfold mcnp_file, texts. cbn [d_surfs d_cells d_mats deck_ex mapM]. unfold mcnp_surface, mcnp_surface_text, mcnp_body, numbers.
  cbn [fst s_type s_coef s_bc s_id mcnp_boundary map]. rewrite str01_0, str01_1. vm_compute. reflexivity.
Qed.

Example C73_example : exists fuel t p, mcnp_file str01 show_ex fuel deck_ex = Some t /\ read_file 1 t = Some p /\
  Forall2 (cell_read show_ex) cells_ex (f_cells p) /\ length (f_surfs p) = 3 /\ keys (f_mats p) = [T "12"].
Proof.
  destruct (C73_mcnp_file_partial _ _ _ C73_deck) as (N & t & W & H). destruct (H 0) as (p & R & C & S & _ & _ & M & _).
  exists N, t, p. split; [now apply W|]. split; [exact R|]. split; [exact C|]. split; [clear - S; cbn [d_surfs deck_ex] in S; inversion S as [|? ? ? ? _ S1]; subst; inversion S1 as [|? ? ? ? _ S2]; subst; inversion S2 as [|? ? ? ? _ S3]; subst; inversion S3; subst; reflexivity|].
  cbn in M. apply Permutation_sym in M. now apply Permutation_length_1_inv in M.
Qed.

(** C73 is false of importances that Python prints with an exponent (those below 0.0001): the importance is read as
    the digits before the letter. *)
Theorem C73_importance_refuted : exists show c r str t p x k,
  expr (toks (g_items c)) r /\ py_float (show (g_imp c)) = Some (g_imp c) /\
  mcnp_file str show 10 (ConvertModel.mkDeck [] [c] [] []) = Some t /\ read_file 10 t = Some p /\ f_cells p = [(x, k)] /\
  ~ (k_imp k == g_imp c)%Q.
Proof.
  exists (fun _ => T "1e-05"), (mkG 1 0 (T "0") [] [Op AND; Str (T "-3")] None None None None (1 # 100000)), (RAtom (T "-3")), (fun _ => T "0.0").
  eexists _, _, _, _. split; [repeat constructor|]. split; [vm_compute; reflexivity|]. split; [vm_compute; reflexivity|]. split; [vm_compute; reflexivity|].
  split; [reflexivity|]. vm_compute. discriminate.
Qed.
Print Assumptions C73_importance_refuted.
