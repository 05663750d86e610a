(** Property theorem C72: the whole of [process] keeps the geometry. *)
From Coq Require Import QArith Reals Lra Psatz.
From Verif Require Import PyStr PyStrFacts PyInt PyIntFacts FortranNumber FortranNumberProofs RegionSpec RegionFacts GeomSpec SurfModel SurfSpec SurfProofs PropSurf PropTransform
  MacroModel MacroSpec MacroProofs MacroText PropMacro CellModel CellProofs CellText FlattenModel FlattenProofs FlattenDeck PropFlatten
  NotsModel NotsProofs PropNots NamesModel BoundaryModel PropBoundary DedupeModel DedupeProofs PropDedupe ProcessModel ProcessSpec ProcessProofs.
Open Scope nat_scope.
Open Scope list_scope.

(** ** Small facts *)

Lemma item_word c s : toks (c_items c) = map word_tok (c_text c) -> In (Str s) (c_items c) -> is_word s = true ->
  In s (c_text c) /\ word_tok s = TAtom s.
Proof.
  intros E I W. assert (J : In (TAtom s) (toks (c_items c))).
  { unfold toks. apply in_flat_map. exists (Str s). split; [exact I|]. left. unfold item_toks, str_tok.
    unfold is_word in W. destruct (text_eqb s (T "(")), (text_eqb s (T ")")); try discriminate. reflexivity. }
  rewrite E in J. apply in_map_iff in J as (w & Ew & Iw).
  assert (w = s). { destruct (word_tok_cases w) as [[-> Q]|[[-> Q]|[[-> Q]|(_ & _ & _ & Q)]]]; rewrite Q in Ew; try discriminate.
    destruct (text_eqb w (T ")")); [discriminate|]. now injection Ew. }
  subst. auto.
Qed.

Lemma hash_word s : In "#"%char s -> is_word s = true.
Proof.
  intro I. unfold is_word. destruct (text_eqb_spec s (T "(")) as [E|_]; [rewrite E in I; vm_compute in I; intuition discriminate|].
  destruct (text_eqb_spec s (T ")")) as [E|_]; [rewrite E in I; vm_compute in I; intuition discriminate|]. reflexivity.
Qed.

Lemma signed_nohash sg j : (0 <= j)%Z -> ~ In "#"%char (signed_word sg j).
Proof.
  intros P I. unfold signed_word in I. apply in_app_or in I as [I|I].
  - destruct sg; vm_compute in I; intuition discriminate.
  - destruct (sid_digits j P) as [_ D]. now apply (digits_no "#" _ eq_refl D).
Qed.

Lemma signed_int sg j : (0 < j)%Z -> py_int (signed_word sg j) = Some (if sg then - j else j)%Z.
Proof.
  intro P. destruct sg.
  - change (signed_word true j) with (minus (sid j)). rewrite minus_sid by exact P. apply py_int_str_Z.
  - change (signed_word false j) with (str_Z j). apply py_int_str_Z.
Qed.

(** The boundary stage changes nothing but conditions. *)
Definition same_shape (s s' : surface) : Prop :=
  s_id s' = s_id s /\ s_tr s' = s_tr s /\ s_type s' = s_type s /\ s_coef s' = s_coef s.

Lemma same_shape_refl l : Forall2 same_shape l l.
Proof. induction l; constructor; auto. repeat split. Qed.

Lemma same_shape_trans a b c : Forall2 same_shape a b -> Forall2 same_shape b c -> Forall2 same_shape a c.
Proof.
  intro F. revert c. induction F as [|x y a b (A1 & A2 & A3 & A4) F IH]; intros c H; inversion H as [|? z ? c' (B1 & B2 & B3 & B4) H']; subst; constructor; [|auto].
  repeat split; congruence.
Qed.

Lemma set_vacuum_shape id l l' : set_vacuum id l = Some l' -> Forall2 same_shape l l'.
Proof.
  revert l'. induction l as [|s l IH]; intros l' H; cbn [set_vacuum] in H; [discriminate|]. destruct (s_id s =? id)%Z.
  - injection H as <-. constructor; [repeat split|apply same_shape_refl].
  - destruct (set_vacuum id l) as [k|]; [|discriminate]. injection H as <-. constructor; [repeat split|auto].
Qed.

Lemma set_vacuums_shape ids : forall l l', set_vacuums ids l = Some l' -> Forall2 same_shape l l'.
Proof.
  induction ids as [|i ids IH]; intros l l' H; cbn [set_vacuums] in H; [injection H as <-; apply same_shape_refl|].
  destruct (set_vacuum i l) as [k|] eqn:E; [|discriminate]. eapply same_shape_trans; [eapply set_vacuum_shape; exact E|auto].
Qed.

Lemma graveyards_shape cells : forall l l', graveyards cells l = Some l' -> Forall2 same_shape l l'.
Proof.
  induction cells as [|[c q] cells IH]; intros l l' H; cbn [graveyards] in H; [injection H as <-; apply same_shape_refl|].
  destruct (Qeq_bool q 0); [|auto]. destruct (set_vacuums (c_surfs c) l) as [k|] eqn:E; [|discriminate].
  eapply same_shape_trans; [eapply set_vacuums_shape; exact E|auto].
Qed.

Lemma graveyards_none cells l : (forall c q, In (c, q) cells -> ~ (q == 0)%Q) -> graveyards cells l = Some l.
Proof.
  induction cells as [|[c q] cells IH]; intro H; [reflexivity|]. cbn [graveyards].
  destruct (Qeq_bool q 0) eqn:E; [apply Qeq_bool_iff in E; exfalso; exact (H c q (or_introl eq_refl) E)|].
  apply IH. intros c' q' I. apply (H c' q'). now right.
Qed.

(** Importances do not depend on the descriptions. *)
Lemma set_importances_cells vs : forall a b, map snd a = map snd b ->
  match set_importances vs a, set_importances vs b with
  | Some a', Some b' => map snd a' = map snd b' /\ map fst a' = map fst a /\ map fst b' = map fst b
  | None, None => True
  | _, _ => False
  end.
Proof.
  induction vs as [|v vs IH]; intros a b E; [cbn; auto|].
  destruct a as [|[c q] a], b as [|[c' q'] b]; try discriminate; [exact I|].
  cbn [map snd] in E. injection E as _ E. specialize (IH a b E). cbn [set_importances].
  destruct (py_float v); [|exact I]. destruct (set_importances vs a), (set_importances vs b); try contradiction; [|exact I].
  destruct IH as (A & B & C). cbn [map fst snd]. repeat split; congruence.
Qed.

Lemma apply_importances_cells d a b : map snd a = map snd b ->
  match apply_importances d a, apply_importances d b with
  | Some a', Some b' => map snd a' = map snd b' /\ map fst a' = map fst a /\ map fst b' = map fst b
  | None, None => True
  | _, _ => False
  end.
Proof.
  intro E. unfold apply_importances. destruct d as [|x d]; [auto|]. destruct (neutrons (x :: d)); [|exact I].
  now apply set_importances_cells.
Qed.

Lemma map_fst_combine {A B} (a : list A) (b : list B) : length a = length b -> map fst (combine a b) = a.
Proof. revert b. induction a as [|x a IH]; intros [|y b] L; try discriminate; [reflexivity|]. cbn [combine map fst]. f_equal. apply IH. now injection L. Qed.
Lemma map_snd_combine {A B} (a : list A) (b : list B) : length a = length b -> map snd (combine a b) = b.
Proof. revert b. induction a as [|x a IH]; intros [|y b] L; try discriminate; [reflexivity|]. cbn [combine map snd]. f_equal. apply IH. now injection L. Qed.

Lemma forall2_len {A B} (R : A -> B -> Prop) l l' : Forall2 R l l' -> length l = length l'.
Proof. induction 1; cbn; congruence. Qed.

Lemma forall2_pick {A B} (R : A -> B -> Prop) l l' b : Forall2 R l l' -> In b l' -> exists a, In a l /\ R a b.
Proof. induction 1 as [|x y l l' H F IH]; intro I; [destruct I|]. destruct I as [<-|I]; [exists x; split; [now left|exact H]|].
  destruct (IH I) as (a & Ia & Ra). exists a. split; [now right|exact Ra]. Qed.

Lemma forall2_take {A B} (R : A -> B -> Prop) l l' a : Forall2 R l l' -> In a l -> exists b, In b l' /\ R a b.
Proof. induction 1 as [|x y l l' H F IH]; intro I; [destruct I|]. destruct I as [<-|I]; [exists y; split; [now left|exact H]|].
  destruct (IH I) as (b & Ib & Rb). exists b. split; [now right|exact Rb]. Qed.

Lemma expr_unique l r r' : expr l r -> expr l r' -> r = r'.
Proof. intros A B. apply parse_complete in A. apply parse_complete in B. congruence. Qed.

Lemma sense_shape s s' : same_shape s s' -> surf_sense s' = surf_sense s.
Proof. intros (_ & _ & A & B). unfold surf_sense. congruence. Qed.

Lemma forall2_mono {A B} (P Q : A -> B -> Prop) l l' : (forall x y, P x y -> Q x y) -> Forall2 P l l' -> Forall2 Q l l'.
Proof. intros H F. induction F; constructor; auto. Qed.

Lemma forall2_both {A B} (P Q : A -> B -> Prop) l l' : Forall2 P l l' -> Forall2 Q l l' ->
  Forall2 (fun x y => In x l /\ P x y /\ Q x y) l l'.
Proof.
  intro F. induction F as [|x y l l' H F IH]; intro K; inversion K as [|? ? ? ? K1 K2]; subst; constructor.
  - split; [now left|auto].
  - refine (forall2_mono _ _ _ _ _ (IH K2)). intros u v (I & U & V). split; [now right|auto].
Qed.

(** [sense] tells the sides of the surfaces at [p]. *)
Definition sides_at (l : list surface) (p : pt) (sense : Z -> bool) : Prop :=
  forall s sn, In s l -> surf_sense s = Some sn -> side sn p (sense (s_id s)).

(** ** Flattening, complements and transforms *)
Section Stages.
  Context (i : input) (rank : Z -> nat) (G : good_input i rank).
  Let n := last_index (i_surfs i).
  Let cells := map fst (i_cells i).

  Lemma in_cells c : In c cells -> exists q, In (c, q) (i_cells i).
  Proof. intro I. apply in_map_iff in I as ([c' q] & <- & I). now exists q. Qed.

  Lemma flatten_ready : macros_ok (i_surfs i) n /\ Forall (fun c => cell_good c /\ dots_ok (i_surfs i) c) cells.
  Proof.
    split.
    - split; [|split].
      + intros s I M. split; [split; [now apply (g_pos _ _ G)|now apply last_index_le]|].
        destruct (g_surfs _ _ G s I) as [(f & ins & B)|(sn & E)]; [|pose proof (sense_plain _ _ E); congruence].
        destruct (body_facts s f ins 0%Z B) as (x & _ & _ & _ & _ & _ & _ & En). exact En.
      + apply (macro_nodup i rank G).
      + exact (g_suffix _ _ G).
    - apply Forall_forall. intros c I. destruct (in_cells c I) as (q & I'). destruct (g_cells _ _ G c q I') as (_ & CG & _ & W).
      split; [exact CG|]. intros w Iw D.
      assert (A : word_tok w = TAtom w).
      { destruct (word_tok_cases w) as [[-> Q]|[[-> Q]|[[-> Q]|(_ & _ & _ & Q)]]]; try (vm_compute in D; intuition discriminate).
        rewrite Q. destruct (text_eqb_spec w (T ")")) as [E|]; [rewrite E in D; vm_compute in D; intuition discriminate|reflexivity]. }
      destruct (W w Iw A) as [(s & sg & Is & ->)|[(s & sg & k & Is & Ms & K & KR & ->)|(d & q' & Id & -> & _)]].
      + exfalso. apply (signed_nodot sg (s_id s)); [pose proof (g_pos _ _ G s Is); lia|exact D].
      + exists s, sg, k. auto.
      + exfalso. destruct (g_cells _ _ G d q' Id) as (P & _). destruct D as [D|D]; [discriminate|].
        destruct (str_Z_nonneg (c_id d) ltac:(lia)) as [_ Dg]. now apply (digits_no "." _ eq_refl Dg).
  Qed.

  Lemma stages : exists N d cells2 surfs2,
    flatten_macrobodies (mkDeck (i_surfs i) cells n) = Some d /\
    (forall fuel, N <= fuel -> explode_nots fuel (d_cells d) = Done cells2) /\
    mapM (apply_transform (i_cards i)) (d_surfs d) = Some surfs2 /\
    (forall s, In s (i_surfs i) -> is_macrobody s = false -> In (s_id s) (map s_id surfs2)) /\
    NoDup (map s_id surfs2) /\ (forall s, In s surfs2 -> (0 < s_id s)%Z /\ exists sn, surf_sense s = Some sn) /\
    (i_quick i = true \/ forall s, In s surfs2 -> ~ sheeted s /\ torus_ok s) /\
    (forall p env incell, reads_at i p env incell -> exists sense, sides_at surfs2 p sense) /\
    Forall2 (fun c c2 =>
      c_id c2 = c_id c /\ c_mat c2 = c_mat c /\ c_dens c2 = c_dens c /\ laid (c_items c2) /\
      (forall s, In (Str s) (c_items c2) -> is_word s = true -> exists sg j, In j (map s_id surfs2) /\ s = signed_word sg j) /\
      exists r2, expr (toks (c_items c2)) r2 /\
        forall p env incell, reads_at i p env incell -> forall sense, sides_at surfs2 p sense ->
          holds (zenv sense) r2 = incell (str_Z (c_id c))) cells cells2.
  Proof.
    destruct flatten_ready as [MO CG]. pose proof (last_index_pos (i_surfs i)) as Pn. fold n in Pn.
    destruct (C29_flatten_keeps_regions_partial (mkDeck (i_surfs i) cells n)) as
      (d & news & EF & ES & EM & ND & NR & EX & NW & FC); cbn [d_surfs d_cells d_last] in *; [exact MO| |exact Pn|exact CG|].
    { intros s I. split; [now apply (g_pos _ _ G)|now apply last_index_le]. }
    (* where the flattened surfaces come from *)
    assert (Src : forall y, In y (d_surfs d) -> In y (i_surfs i) /\ is_macrobody y = false \/
       In y news /\ exists s c x, In (s, c) (counters (i_surfs i) n) /\ explode_macrobody c s = Some x /\ In y (inherit s (x_surfs x))).
    { intros y I. rewrite ES in I. apply in_app_or in I as [I|I].
      - left. apply filter_In in I as [A B]. split; [exact A|]. now destruct (is_macrobody y).
      - right. split; [exact I|]. exact (NW y I). }
    assert (Macro : forall s c, In (s, c) (counters (i_surfs i) n) -> exists f ins x, body s f ins /\ explode_macrobody c s = Some x /\
       map s_id (x_surfs x) = range c (facets_of s) /\ Forall2 denotes (x_surfs x) (swapped s f) /\ Forall fresh_surface (x_surfs x)).
    { intros s c I. destruct (counters_ids _ _ _ _ I) as (Is & Ms & _).
      destruct (g_surfs _ _ G s Is) as [(f & ins & B)|(sn & E)]; [|pose proof (sense_plain _ _ E); congruence].
      destruct (body_facts s f ins c B) as (x & E & A1 & A2 & _ & A3 & _). exists f, ins, x. auto. }
    assert (Ready : forall y, In y (d_surfs d) -> movable (i_cards i) y /\ exists sn, surf_sense y = Some sn).
    { intros y I. destruct (Src y I) as [[A B]|(_ & s & c & x & Ic & Ex & Iy)].
      - split.
        + intros id Et. destruct (g_tr _ _ G y id A Et) as (t & Ec & H). destruct (H B) as (H1 & H2 & H3). exists t. auto.
        + destruct (g_surfs _ _ G y A) as [(f & ins & Bo)|E]; [pose proof (body_macro _ _ _ Bo); congruence|exact E].
      - destruct (Macro s c Ic) as (f & ins & x' & Bo & Ex' & _ & Fd & Ff). rewrite Ex in Ex'. injection Ex' as <-.
        destruct (counters_ids _ _ _ _ Ic) as (Is & Ms & _). split.
        + apply (movable_inherit (i_cards i) s x Ff); [|exact Iy]. intros id Et. destruct (g_tr _ _ G s id Is Et) as (t & Ec & _). eauto.
        + assert (S : forall z, In z (x_surfs x) -> exists sn, surf_sense z = Some sn).
          { intros z J. destruct (forall2_take _ _ _ z Fd J) as (f' & _ & sn & E & _). eauto. }
          unfold inherit in Iy. destruct (s_tr s); [|auto]. apply in_map_iff in Iy as (z & <- & J). destruct (S z J) as (sn & E). exists sn. exact E. }
    destruct (place_all (i_cards i) (d_surfs d) Ready) as (surfs2 & EP & FP).
    assert (Eid : map s_id surfs2 = map s_id (d_surfs d)).
    { clear - FP. induction FP as [|s s' l l' (A & _) F IH]; [reflexivity|]. cbn [map]. now rewrite A, IH. }
    (* numbers *)
    assert (Pos : forall y, In y (d_surfs d) -> (0 < s_id y)%Z).
    { intros y I. destruct (Src y I) as [[A _]|(J & _)]; [now apply (g_pos _ _ G)|]. specialize (NR y J). lia. }
    assert (Nd : NoDup (map s_id (d_surfs d))).
    { rewrite ES, map_app.
      assert (N1 : NoDup (map s_id (filter (fun s => negb (is_macrobody s)) (i_surfs i)))).
      { pose proof (g_ids _ _ G) as N. revert N. generalize (i_surfs i). clear. induction l as [|s l IH]; intro N; [constructor|].
        cbn [map filter] in *. inversion N as [|? ? A B]. subst. destruct (is_macrobody s); cbn [negb]; [auto|]. cbn [map]. constructor; [|auto].
        intro I. apply A. apply in_map_iff in I as (t & E & I). apply filter_In in I as [I _]. rewrite <- E. now apply in_map. }
      assert (Dj : forall z, In z (map s_id (filter (fun s => negb (is_macrobody s)) (i_surfs i))) -> ~ In z (map s_id news)).
      { intros z I J. apply in_map_iff in I as (s & <- & I). apply filter_In in I as [I _]. apply in_map_iff in J as (t & E & J).
        specialize (NR t J). pose proof (last_index_le _ _ I). unfold n in NR. lia. }
      revert N1 Dj ND. generalize (map s_id (filter (fun s => negb (is_macrobody s)) (i_surfs i))) (map s_id news). clear.
      induction l as [|z l IH]; intros l' N1 Dj N2; [exact N2|]. cbn [app]. inversion N1 as [|? ? A B]. subst. constructor.
      - intro I. apply in_app_or in I as [I|I]; [contradiction|]. apply (Dj z); [now left|exact I].
      - apply IH; auto. intros y Iy. apply Dj. now right. }
    (* complements *)
    assert (Cells1 : forall c1, In c1 (d_cells d) -> exists c, In c cells /\ c_id c1 = c_id c /\
       toks (c_items c1) = map word_tok (c_text c1) /\ laid (c_items c1) /\
       (forall w, In w (c_text c1) -> word_tok w = TAtom w -> 
          (exists sg j, In j (map s_id surfs2) /\ w = signed_word sg j) \/
          (exists e, In e cells /\ w = "#"%char :: str_Z (c_id e) /\ rank (c_id e) < rank (c_id c)))).
    { intros c1 I. destruct (forall2_pick _ _ _ c1 FC I) as (c & Ic & E1 & _ & _ & NM & NDt & TK & WO & LA & _).
      destruct (in_cells c Ic) as (q & Iq). destruct (g_cells _ _ G c q Iq) as (P & _ & La & W).
      exists c. split; [exact Ic|]. split; [exact E1|]. split; [exact TK|]. split; [now apply LA|].
      intros w Iw A. destruct (WO w Iw) as [Iw'|[Q|(s & ct & j & sg & Is & Ij & ->)]]; [|contradiction|].
      - destruct (W w Iw' A) as [(s & sg & Is & ->)|[(s & sg & k & Is & Ms & K & KR & ->)|(e & q' & Ie & -> & R)]].
        + left. exists sg, (s_id s). split; [|reflexivity]. rewrite Eid, ES, map_app. apply in_or_app. left.
          destruct (is_macrobody s) eqn:Ms.
          * exfalso. apply (NM s _ Is Ms Iw). destruct sg; [right; left; reflexivity|left; reflexivity].
          * apply in_map. apply filter_In. split; [exact Is|]. now rewrite Ms.
        + exfalso. apply (NDt _ Iw). apply facet_dot.
        + right. exists e. split; [|auto]. now apply (in_map fst (i_cells i) (e, q')).
      - left. exists sg, j. split; [|reflexivity]. destruct (EX s ct Is) as (x & Ex & Inc).
        destruct (Macro s ct Is) as (_ & _ & x' & _ & Ex' & Er & _). rewrite Ex in Ex'. injection Ex' as <-.
        rewrite Eid. rewrite <- Er in Ij. apply in_map_iff in Ij as (y & <- & Iy).
        unfold inherit in Inc. destruct (s_tr s) as [t|].
        + change (s_id y) with (s_id (mkS (s_id y) (Some t) (s_type y) (s_coef y) (s_bc y))). apply in_map, Inc.
          now apply (in_map (fun z => mkS (s_id z) (Some t) (s_type z) (s_coef z) (s_bc z))).
        + apply in_map, Inc, Iy. }
    assert (Inv : forall c, In c cells -> exists c1, In c1 (d_cells d) /\ c_id c1 = c_id c).
    { intros c I. destruct (forall2_take _ _ _ c FC I) as (c1 & I1 & E & _). eauto. }
    destruct (C31_complements_expand (d_cells d) rank) as (N & cells2 & EN & F31).
    { intros c1 I. destruct (forall2_pick _ _ _ c1 FC I) as (c & Ic & E1 & _ & _ & _ & _ & _ & _ & LA & (r' & Er & _) & _).
      destruct (in_cells c Ic) as (q & Iq). destruct (g_cells _ _ G c q Iq) as (P & _ & La & _). destruct (LA La) as [L1 L2].
      split; [lia|]. split; [exists r'; exact Er|]. auto. }
    { intros c1 s I Is Hs. destruct (Cells1 c1 I) as (c & Ic & E1 & TK & _ & W).
      destruct (item_word c1 s TK Is (hash_word s Hs)) as [It A].
      destruct (W s It A) as [(sg & j & Ij & ->)|(e & Ie & -> & R)].
      - exfalso. apply (signed_nohash sg j); [|exact Hs]. rewrite Eid in Ij. apply in_map_iff in Ij as (y & <- & Iy). specialize (Pos y Iy). lia.
      - destruct (Inv e Ie) as (e1 & Ie1 & Ee). exists e1. split; [exact Ie1|]. rewrite Ee, E1. auto. }
    exists N, d, cells2, surfs2. split; [exact EF|]. split; [exact EN|]. split; [exact EP|]. split.
    { intros s I M. rewrite Eid, ES, map_app. apply in_or_app. left. apply in_map, filter_In. split; [exact I|]. now rewrite M. }
    split; [now rewrite Eid|]. split.
    { intros s' I. destruct (forall2_pick _ _ _ s' FP I) as (s & Is & E & sn & sn' & _ & Es' & _). split; [rewrite E; now apply Pos|eauto]. }
    split.
    { destruct (g_dup _ _ G) as [Q|Q]; [now left|right]. intros s' I.
      destruct (forall2_pick _ _ _ s' FP I) as (s & Is & E & sn & sn' & _ & _ & _ & K). apply K.
      destruct (Src s Is) as [[A _]|(_ & s0 & c & x & Ic & Ex & Iy)]; [now apply Q|].
      destruct (Macro s0 c Ic) as (f & ins & x' & _ & Ex' & _ & _ & Ff). rewrite Ex in Ex'. injection Ex' as <-.
      destruct (counters_ids _ _ _ _ Ic) as (Is0 & _ & _).
      destruct (movable_inherit (i_cards i) s0 x Ff) with (y := s) as (_ & B1 & B2 & _); [|exact Iy|auto].
      intros id Et. destruct (g_tr _ _ G s0 id Is0 Et) as (t & Ec & _). eauto. }
    (* the point is off every surface *)
    assert (Loc : forall s x y, In y (inherit s (x_surfs x)) -> Forall fresh_surface (x_surfs x) -> forall p, local (i_cards i) y p = local (i_cards i) s p).
    { intros s x y Iy Ff p. unfold local, inherit in *. destruct (s_tr s) as [t|] eqn:Et.
      - apply in_map_iff in Iy as (z & <- & _). reflexivity.
      - rewrite Forall_forall in Ff. destruct (Ff y Iy) as (-> & _). reflexivity. }
    assert (Base : forall s x z, In z (x_surfs x) -> exists y, In y (inherit s (x_surfs x)) /\ s_id y = s_id z /\ surf_sense y = surf_sense z).
    { intros s x z Iz. unfold inherit. destruct (s_tr s) as [t|]; [|eauto].
      eexists. split; [apply in_map; exact Iz|]. split; reflexivity. }
    split.
    { intros p env incell Ra. apply choose_sense; [now rewrite Eid|]. intros s' I.
      destruct (forall2_pick _ _ _ s' FP I) as (s & Is & E & sn & sn' & Es & Es' & Sd & _).
      exists sn'. destruct (Src s Is) as [[A _]|(_ & s0 & c & x & Ic & Ex & Iy)].
      - destruct (ra_plain _ _ _ _ Ra s sn A Es) as (b & B & _). exists b. split; [exact Es'|]. now apply Sd.
      - destruct (Macro s0 c Ic) as (f & ins & x' & Bo & Ex' & _ & Fd & Ff). rewrite Ex in Ex'. injection Ex' as <-.
        destruct (counters_ids _ _ _ _ Ic) as (Is0 & _ & _). destruct (ra_macro _ _ _ _ Ra s0 f ins Is0 Bo) as (_ & _ & R3).
        assert (Q : exists b, side sn (local (i_cards i) s0 p) b).
        { assert (Z : exists z, In z (x_surfs x) /\ surf_sense z = Some sn).
          { unfold inherit in Iy. destruct (s_tr s0); [|eauto]. apply in_map_iff in Iy as (z & <- & Iz). exists z. split; [exact Iz|exact Es]. }
          destruct Z as (z & Iz & Ez). destruct (forall2_take _ _ _ z Fd Iz) as (f' & If & sn0 & E0 & Ss). rewrite Ez in E0. injection E0 as <-.
          assert (If' : In f' f). { unfold swapped in If. destruct (s_type s0); auto. destruct f as [|? [|? [|? [|? ?]]]]; auto. cbn in *. tauto. }
          apply In_nth_error in If' as (k & Ek). destruct (R3 k f' Ek) as (b & B & _). exists b. now apply (side_same _ _ _ _ Ss). }
        destruct Q as (b & B). exists b. split; [exact Es'|]. apply Sd. now rewrite (Loc s0 x s Iy Ff). }
    (* the cells *)
    assert (Conv : forall p env incell, reads_at i p env incell -> forall sense, sides_at surfs2 p sense ->
       forall c1 r1, In c1 (d_cells d) -> expr (toks (c_items c1)) r1 ->
       holds (atom_env (by_number sense) incell) r1 = incell (str_Z (c_id c1))).
    { intros p env incell Ra sense Sd c1 r1 I1 E1.
      destruct (forall2_pick _ _ _ c1 FC I1) as (c & Ic & Ei & _ & _ & _ & _ & _ & _ & _ & (r' & Er & SEM) & _).
      rewrite (expr_unique _ _ _ E1 Er). destruct (in_cells c Ic) as (q & Iq).
      destruct (g_cells _ _ G c q Iq) as (_ & (TKc & TK & r & Ec) & _ & W).
      assert (Side : forall y sn, In y (d_surfs d) -> surf_sense y = Some sn -> side sn (local (i_cards i) y p) (sense (s_id y))).
      { intros y sn Iy Es. destruct (forall2_take _ _ _ y FP Iy) as (y' & Iy' & E & sn0 & sn' & Es0 & Es' & S & _).
        rewrite Es in Es0. injection Es0 as <-. apply S. rewrite <- E. now apply Sd. }
      assert (WM : forall w, word_allowed i rank c w -> env w = meaning (counters (i_surfs i) n) (atom_env (by_number sense) incell) w).
      { intro w. apply (word_meaning i rank G p env incell Ra sense n Pn).
        - intros s sn Is Es. apply Side; [|exact Es]. rewrite ES. apply in_or_app. left. apply filter_In. split; [exact Is|].
          now rewrite (sense_plain _ _ Es).
        - intros s ct x y sn Ict Ex Iy Es. destruct (EX s ct Ict) as (x' & Ex' & Inc). rewrite Ex in Ex'. injection Ex' as <-.
          destruct (Base s x y Iy) as (z & Iz & Ez & Esz). rewrite <- Ez.
          destruct (Macro s ct Ict) as (_ & _ & x' & _ & Ex' & _ & _ & Ff). rewrite Ex in Ex'. injection Ex' as <-.
          rewrite <- (Loc s x z Iz Ff). apply Side; [now apply Inc|congruence]. }
      rewrite Ei, <- (ra_cells _ _ _ _ Ra c q r Iq Ec).
      rewrite <- (SEM r Ec (meaning (counters (i_surfs i) n) (atom_env (by_number sense) incell)) (atom_env (by_number sense) incell)).
      - symmetry. apply (holds_atoms_env _ _ _ _ Ec). intros s Is Ws. destruct (item_word c s TK Is Ws) as [It A]. apply WM. now apply W.
      - apply meaning_means; [exact (macro_nodup i rank G)|]. intros s I _. now apply (g_pos _ _ G).
      - intros j P. change (minus (sid j)) with (signed_word true j). change (sid j) with (signed_word false j).
        now rewrite !env_signed. }
    assert (Fin : Forall2 (fun c c2 => exists c1, In c1 (d_cells d) /\ c_id c1 = c_id c /\ c_mat c1 = c_mat c /\ c_dens c1 = c_dens c /\
       c_id c2 = c_id c1 /\ c_mat c2 = c_mat c1 /\ c_dens c2 = c_dens c1 /\
       (forall s, In (Str s) (c_items c2) -> ~ In "#"%char s) /\
       spaced false (c_items c2) = true /\ tight (c_items c2) = true /\
       (forall s, In (Str s) (c_items c2) -> is_word s = true -> exists e, In e (d_cells d) /\ In (Str s) (c_items e)) /\
       exists r', expr (toks (c_items c2)) r' /\
         forall sense incell other,
         (forall e r, In e (d_cells d) -> expr (toks (c_items e)) r ->
            holds (atom_env sense incell) r = incell (str_Z (c_id e))) ->
         holds (atom_env sense other) r' = incell (str_Z (c_id c1))) cells cells2).
    { clear - FC F31. revert F31. 
      assert (H : forall l, incl l (d_cells d) -> forall l0, Forall2 (fun c c' => c_id c' = c_id c /\ c_mat c' = c_mat c /\ c_dens c' = c_dens c) l0 l ->
        forall l2, Forall2 (fun c c' =>
      c_id c' = c_id c /\ c_mat c' = c_mat c /\ c_dens c' = c_dens c /\
      (forall s, In (Str s) (c_items c') -> ~ In "#"%char s) /\
      spaced false (c_items c') = true /\ tight (c_items c') = true /\
      (forall s, In (Str s) (c_items c') -> is_word s = true -> exists e, In e (d_cells d) /\ In (Str s) (c_items e)) /\
      exists r', expr (toks (c_items c')) r' /\
        forall sense incell other,
        (forall e r, In e (d_cells d) -> expr (toks (c_items e)) r ->
           holds (atom_env sense incell) r = incell (str_Z (c_id e))) ->
        holds (atom_env sense other) r' = incell (str_Z (c_id c))) l l2 ->
        Forall2 (fun c c2 => exists c1, In c1 (d_cells d) /\ c_id c1 = c_id c /\ c_mat c1 = c_mat c /\ c_dens c1 = c_dens c /\
       c_id c2 = c_id c1 /\ c_mat c2 = c_mat c1 /\ c_dens c2 = c_dens c1 /\
       (forall s, In (Str s) (c_items c2) -> ~ In "#"%char s) /\
       spaced false (c_items c2) = true /\ tight (c_items c2) = true /\
       (forall s, In (Str s) (c_items c2) -> is_word s = true -> exists e, In e (d_cells d) /\ In (Str s) (c_items e)) /\
       exists r', expr (toks (c_items c2)) r' /\
         forall sense incell other,
         (forall e r, In e (d_cells d) -> expr (toks (c_items e)) r ->
            holds (atom_env sense incell) r = incell (str_Z (c_id e))) ->
         holds (atom_env sense other) r' = incell (str_Z (c_id c1))) l0 l2).
      { intros l Hi l0 F. revert Hi. induction F as [|a b l0 l (A1 & A2 & A3) F IH]; intros Hi l2 H2; inversion H2 as [|? y ? l2' K H2']; subst; constructor.
        - exists b. split; [apply Hi; now left|]. split; [exact A1|]. split; [exact A2|]. split; [exact A3|exact K].
        - apply IH; [|exact H2']. intros z Iz. apply Hi. now right. }
      intro F31. apply (H (d_cells d)); [apply incl_refl| |exact F31].
      clear - FC. induction FC as [|a b l l' (A1 & A2 & A3 & _) F IH]; constructor; auto. }
    clear F31. refine (forall2_mono _ _ _ _ _ Fin). intros c c2 (c1 & I1 & A1 & A2 & A3 & B1 & B2 & B3 & NH & Sp & Ti & Fr & r' & Er & Den).
    split; [congruence|]. split; [congruence|]. split; [congruence|]. split; [split; assumption|].
    assert (Wd : forall s, In (Str s) (c_items c2) -> is_word s = true -> exists sg j, In j (map s_id surfs2) /\ s = signed_word sg j).
    { intros s Is Ws. destruct (Fr s Is Ws) as (e & Ie & Ise). destruct (Cells1 e Ie) as (c0 & _ & _ & TK & _ & W).
      destruct (item_word e s TK Ise Ws) as [It A]. destruct (W s It A) as [H|(e' & _ & -> & _)]; [exact H|].
      exfalso. apply (NH _ Is). now left. }
    split; [exact Wd|]. exists r'. split; [exact Er|]. intros p env incell Ra sense Sd.
    rewrite <- A1, <- (Den (by_number sense) incell incell (Conv p env incell Ra sense Sd)).
    apply (holds_atoms_env _ _ _ _ Er). intros s Is Ws. destruct (Wd s Is Ws) as (sg & j & Ij & ->).
    assert (P : (0 < j)%Z). { rewrite Eid in Ij. apply in_map_iff in Ij as (y & <- & Iy). now apply Pos. }
    now rewrite zenv_signed, env_signed.
  Qed.
End Stages.

(** ** Duplicates *)
Lemma shape_ids l l' : Forall2 same_shape l l' -> map s_id l' = map s_id l.
Proof. induction 1 as [|s s' l l' (A & _) F IH]; [reflexivity|]. cbn [map]. now rewrite A, IH. Qed.

Lemma shape_kind s s' : same_shape s s' -> ~ sheeted s /\ torus_ok s -> ~ sheeted s' /\ torus_ok s'.
Proof. intros (_ & _ & A & B). unfold sheeted, torus_ok. now rewrite A, B. Qed.

Lemma sides_shape l l' p sense : Forall2 same_shape l l' -> sides_at l p sense -> sides_at l' p sense.
Proof.
  intros F H s' sn I E. destruct (forall2_pick _ _ _ s' F I) as (s & Is & Q). pose proof Q as (A & _).
  rewrite A. apply H; [exact Is|]. now rewrite <- (sense_shape s s' Q).
Qed.

Lemma sides_shape_back l l' p sense : Forall2 same_shape l l' -> sides_at l' p sense -> sides_at l p sense.
Proof.
  intros F H s sn I E. destruct (forall2_take _ _ _ s F I) as (s' & Is & Q). pose proof Q as (A & _).
  rewrite <- A. apply H; [exact Is|]. now rewrite (sense_shape s s' Q).
Qed.

Lemma holds_agree items r (P : Z -> Prop) a b : expr (toks items) r -> all_ints items ->
  (forall n, CellProofs.mentions items n -> P n) -> (forall n, P n -> a n = b n) -> holds (zenv a) r = holds (zenv b) r.
Proof.
  intros E AI M H. apply (holds_atoms_env _ _ _ _ E). intros s I W. destruct (AI s I W) as (z & Ez). unfold zenv. rewrite Ez.
  assert (Q : a (Z.abs z) = b (Z.abs z)) by (apply H, M; exists s, z; auto).
  destruct (Z.ltb_spec z 0).
  - replace (- z)%Z with (Z.abs z) by lia. now rewrite Q.
  - now replace z with (Z.abs z) by lia.
Qed.

(** Every word of a description is the text of a number, as Python prints it. *)
Definition canon (l : list item) : Prop := forall s, In (Str s) l -> is_word s = true -> exists z, s = str_Z z.
Lemma signed_canon sg j : (0 < j)%Z -> exists z, signed_word sg j = str_Z z.
Proof. intro P. destruct sg; [exists (- j)%Z; change (signed_word true j) with (minus (sid j)); now apply minus_sid|exists j; reflexivity]. Qed.
Lemma canon_ints l : canon l -> all_ints l.
Proof. intros C s I W. destruct (C s I W) as (z & ->). exists z. apply py_int_str_Z. Qed.
Lemma replace_canon ref new rev l : forall l', replace_surface ref new rev l = Some l' -> canon l -> canon l'.
Proof.
  induction l as [|i l IH]; intros l' E C; cbn [replace_surface] in E; [injection E as <-; exact C|].
  destruct (replace_item ref new rev i) as [i'|] eqn:EI; [|discriminate]. destruct (replace_surface ref new rev l) as [r'|]; [|discriminate]. injection E as <-.
  intros s [->|I] W; [|exact (IH r' eq_refl (fun t It => C t (or_intror It)) s I W)].
  destruct i as [o|t]; [discriminate|]. cbn [replace_item] in EI.
  assert (K : Str t = Str s -> exists z, s = str_Z z) by (intro Q; injection Q as ->; apply C; [now left|exact W]).
  destruct (text_eqb t (T "(") || text_eqb t (T ")")); [apply K; congruence|].
  destruct (py_int t) as [z|]; [|discriminate].
  destruct ((Z.abs z =? new)%Z && (z =? new)%Z); [injection EI as <-; destruct rev; eauto|].
  destruct ((Z.abs z =? new)%Z && negb (z =? new)%Z); [injection EI as <-; destruct rev; eauto|]. apply K; congruence.
Qed.
Lemma replace_all_canon d : forall l l', replace_all d l = Some l' -> canon l -> canon l'.
Proof.
  induction d as [|[k [t rev]] d IH]; intros l l' E C; cbn [replace_all] in E; [injection E as <-; exact C|].
  destruct (replace_surface _ _ rev l) as [l1|] eqn:R; [|discriminate]. apply (IH l1 l' E). now apply (replace_canon _ _ _ _ _ R).
Qed.
Lemma duplicates_canon surfs cells surfs' cells' : remove_duplicates surfs cells = Some (surfs', cells') ->
  Forall2 (fun c c' => canon (c_items c) -> canon (c_items c')) cells cells'.
Proof.
  unfold remove_duplicates. destruct (entries 0 surfs) as [es|]; [|discriminate]. destruct (mapM _ cells) as [cs|] eqn:M; [|discriminate].
  intro E. injection E as _ <-. revert cs M. generalize (find_dups es). intro d. induction cells as [|c cells IH]; intros cs M; cbn [mapM] in M.
  - injection M as <-. constructor.
  - destruct (replace_cell d c) as [c'|] eqn:R; [|discriminate]. destruct (mapM (replace_cell d) cells) as [cs'|]; [|discriminate]. injection M as <-.
    constructor; [|now apply IH]. unfold replace_cell in R. destruct (replace_all d (c_items c)) as [l|] eqn:RA; [|discriminate]. injection R as <-.
    exact (replace_all_canon _ _ _ RA).
Qed.

Lemma finish_good quick surfs cells bc : NoDup (map s_id surfs) ->
  (forall s, In s surfs -> (0 < s_id s)%Z /\ exists sn, surf_sense s = Some sn) ->
  (quick = true \/ forall s, In s surfs -> ~ sheeted s /\ torus_ok s) ->
  (forall c q, In (c, q) cells -> all_ints (c_items c) /\ (exists r, expr (toks (c_items c)) r) /\
     forall n, CellProofs.mentions (c_items c) n -> In n (map s_id surfs)) ->
  exists o, finish quick surfs cells bc = Done o /\ o_bounds o = bc /\ map snd (o_cells o) = map snd cells /\
    incl (o_surfs o) surfs /\ NoDup (map s_id (o_surfs o)) /\
    (quick = false -> forall s t r s1 t1, In s (o_surfs o) -> In t (o_surfs o) -> s <> t -> diff s t true false <> Some ((true, r), s1, t1)) /\
    Forall2 (fun c c' => c_id c' = c_id c /\ c_mat c' = c_mat c /\ c_dens c' = c_dens c /\
      (laid (c_items c) -> laid (c_items c')) /\ (canon (c_items c) -> canon (c_items c')) /\ all_ints (c_items c') /\
      (forall n, CellProofs.mentions (c_items c') n -> In n (map s_id (o_surfs o))) /\
      exists r', expr (toks (c_items c')) r' /\ forall r, expr (toks (c_items c)) r -> forall p sense, sides_at surfs p sense ->
        holds (zenv sense) r' = holds (zenv sense) r) (map fst cells) (map fst (o_cells o)).
Proof.
  intros Nd Hs Hd Hc. assert (HC : forall c, In c (map fst cells) -> all_ints (c_items c) /\ (exists r, expr (toks (c_items c)) r) /\
     forall n, CellProofs.mentions (c_items c) n -> In n (map s_id surfs)).
  { intros c I. apply in_map_iff in I as ([c' q] & <- & I). exact (Hc c' q I). }
  unfold finish. destruct quick.
  - exists (mkOut surfs cells bc). cbn [o_surfs o_cells o_bounds]. split; [reflexivity|]. split; [reflexivity|]. split; [reflexivity|].
    split; [apply incl_refl|]. split; [exact Nd|]. split; [discriminate|].
    assert (K : forall l, incl l (map fst cells) -> Forall2 (fun c c' : cell => c = c' /\ In c (map fst cells)) l l).
    { induction l as [|c l IH]; intro H; constructor; [split; [reflexivity|apply H; now left]|]. apply IH. intros x Ix. apply H. now right. }
    refine (forall2_mono _ _ _ _ _ (K _ (incl_refl _))). intros c c' [<- I]. destruct (HC c I) as (A & (r & E) & M).
    do 3 (split; [reflexivity|]). split; [auto|]. split; [auto|]. split; [exact A|]. split; [exact M|]. exists r. split; [exact E|].
    intros r0 E0 p sense _. now rewrite (expr_unique _ _ _ E E0).
  - destruct Hd as [Hd|Hd]; [discriminate|].
    destruct (C16_dedupe_keeps_regions_partial surfs (map fst cells) Nd Hs) as (surfs' & cells' & ER & F16).
    { intros s o r s' o' I J _ _. destruct (Hd s I), (Hd o J). auto. }
    { intros c I. now apply HC. }
    destruct (C17_dedupe_complete surfs (map fst cells) surfs' cells' Nd (fun s I => proj1 (Hs s I)) (fun c I => proj1 (HC c I)) ER)
      as ((f & Ef) & DD & _ & F17).
    rewrite ER. eexists. split; [reflexivity|]. cbn [o_surfs o_cells o_bounds]. split; [reflexivity|].
    assert (L : length cells' = length (map snd cells)) by (rewrite <- (forall2_len _ _ _ F16), !map_length; reflexivity).
    rewrite (map_fst_combine _ _ L), (map_snd_combine _ _ L). split; [reflexivity|].
    assert (Inc : incl surfs' surfs). { rewrite Ef. intros s I. now apply filter_In in I as [I _]. }
    split; [exact Inc|]. split.
    { rewrite Ef. clear - Nd. induction surfs as [|s l IH]; [constructor|]. cbn [map filter] in *. inversion Nd as [|? ? A B]. subst.
      destruct (f s); [|auto]. cbn [map]. constructor; [|auto]. intro I. apply A. apply in_map_iff in I as (t & E & I).
      apply filter_In in I as [I _]. rewrite <- E. now apply in_map. }
    split; [intros _; exact DD|].
    refine (forall2_mono _ _ _ _ _ (forall2_both _ _ _ _ (forall2_both _ _ _ _ F16 (duplicates_canon _ _ _ _ ER)) F17)). intros c c' (Ic & (_ & (A1 & A2 & A3 & A4 & A5 & A6 & A7) & CN) & M).
    { do 3 (split; [assumption|]). split; [intros [X Y]; split; congruence|]. split; [exact CN|]. split; [exact A6|].
      destruct (HC c Ic) as (_ & (r & E) & M0). split.
      { intros n Mn. destruct (M n Mn) as [(s & Is & <-)|(Mc & No)]; [now apply in_map|]. exfalso.
        specialize (M0 n Mc). apply in_map_iff in M0 as (s & <- & Is). exact (No s Is eq_refl). }
      destruct (A7 r E) as (r' & Er & H). exists r'. split; [exact Er|]. intros r0 E0 p sense Sd. rewrite (expr_unique _ _ _ E0 E).
      apply (H p).
      * intros s sn I Es. specialize (Sd s sn I Es). destruct (sense (s_id s)); cbn [side] in Sd; split; auto; intro Q; exfalso; eapply sense_excl; eauto.
      * intros s sn I _ Es. specialize (Sd s sn I Es). destruct (sense (s_id s)); auto. }
Qed.

(** ** The surfaces recorded with a cell *)
Lemma recorded_in ws : forall ao n, In n (recorded ao ws) -> PropBoundary.mentions ws n.
Proof.
  induction ws as [|w ws IH]; intros ao n I; [destruct I|]. cbn [recorded] in I.
  assert (K : forall ao, In n (recorded ao ws) -> PropBoundary.mentions (w :: ws) n).
  { intros ao' J. destruct (IH ao' n J) as (v & z & Iv & H). exists v, z. split; [now right|exact H]. }
  destruct (text_eqb w (T "(")); [eauto|]. destruct ao; [eauto|]. apply in_app_or in I as [I|I]; [|eauto].
  unfold surf_of in I. destruct (py_int w) as [z|] eqn:E; [|destruct I]. destruct I as [I|[]]. exists w, z. split; [now left|auto].
Qed.

Lemma generalise_recorded ws its sf n : CellModel.generalise ws = Some (its, sf) -> In n sf -> PropBoundary.mentions ws n.
Proof. intros G I. unfold CellModel.generalise in G. apply gen_loop_surfs in G. rewrite G in I. eapply recorded_in. exact I. Qed.

(** Flattening leaves alone a cell that names no macrobody. *)
Definition unnamed (l : list surface) (c : cell) : Prop :=
  Forall token (c_text c) /\ forall s w, In s l -> is_macrobody s = true -> In w (c_text c) -> macro_match (sid (s_id s)) w = false.

Lemma flatten_cell_surfs id x c c' : Forall token (c_text c) -> (forall w, In w (c_text c) -> macro_match id w = false) ->
  flatten_cell id x c = Some c' -> c_text c' = c_text c /\ forall n, In n (c_surfs c') -> In n (c_surfs c) \/ PropBoundary.mentions (c_text c) n.
Proof.
  intros TK NM H. unfold flatten_cell in H. cbn [flatten_words] in H.
  assert (E : existsb (macro_match id) (c_text c) = false).
  { destruct (existsb (macro_match id) (c_text c)) eqn:E; [|reflexivity]. apply existsb_exists in E as (w & I & E). now rewrite NM in E. }
  rewrite E in H. unfold update in H. rewrite drop_dollars_none in H.
  2:{ intro J. apply in_spacify in J as [J|[J|J]]; try discriminate. revert J. apply join_nodollar.
      apply (Forall_impl _) with (2 := TK). intros w. apply token_nodollar. }
  assert (W : words (spacify (join_sp (c_text c))) = c_text c).
  { rewrite words_join. clear - TK. induction TK as [|w l T F IH]; [reflexivity|]. cbn [flat_map]. now rewrite (token_words w T), IH. }
  rewrite W in H. destruct (CellModel.generalise (c_text c)) as [[its sf]|] eqn:G; [|discriminate]. injection H as <-. cbn [c_text c_surfs].
  split; [reflexivity|]. intros n I. apply in_app_or in I as [I|I]; [now left|right]. eapply generalise_recorded; eauto.
Qed.

Definition surfs_kept (l : list surface) (c c' : cell) : Prop :=
  unnamed l c -> forall n, In n (c_surfs c') -> In n (c_surfs c) \/ PropBoundary.mentions (c_text c) n.

Lemma flatten_loop_surfs l : forall d d', flatten_loop l d = Some d' -> Forall2 (surfs_kept l) (d_cells d) (d_cells d').
Proof.
  induction l as [|s l IH]; intros d d' H; cbn [flatten_loop] in H.
  - injection H as <-. induction (d_cells d); constructor; auto. intros _ n I. now left.
  - destruct (flatten_one d s) as [d1|] eqn:E; [|discriminate]. specialize (IH d1 d' H). unfold flatten_one in E.
    destruct (is_macrobody s) eqn:M.
    + destruct (explode_macrobody (d_last d) s) as [x|]; [|discriminate].
      destruct (mapM (flatten_cell (sid (s_id s)) x) (d_cells d)) as [cs|] eqn:MC; [|discriminate]. injection E as <-. cbn [d_cells] in IH.
      apply PropDedupe.mapM_forall2 in MC. clear - MC IH M. revert IH. generalize (d_cells d').
      induction MC as [|c c1 a b H MC IHc]; intros l2 F; inversion F as [|? c2 ? l2' K F']; subst; constructor; [|auto].
      intros (TK & NM) n I. destruct (flatten_cell_surfs _ _ _ _ TK (fun w Iw => NM s w (or_introl eq_refl) M Iw) H) as [ET ES].
      destruct (K ltac:(split; rewrite ET; [exact TK|intros t w It; apply NM; now right]) n I) as [J|J]; [now apply ES|right; now rewrite <- ET].
    + injection E as <-. clear - IH. induction IH as [|c c2 a b K F IHc]; constructor; [|exact IHc]. intros (TK & NM).
      apply K. split; [exact TK|]. intros t w It. apply NM. now right.
Qed.

Lemma flatten_surfs d d' : flatten_macrobodies d = Some d' -> Forall2 (surfs_kept (d_surfs d)) (d_cells d) (d_cells d').
Proof.
  unfold flatten_macrobodies. destruct (flatten_loop (d_surfs d) d) as [d1|] eqn:E; [|discriminate]. intro H. injection H as <-. cbn [d_cells].
  now apply flatten_loop_surfs.
Qed.

Lemma explode_surfs fuel cells cells' : explode_nots fuel cells = Done cells' -> map c_surfs cells' = map c_surfs cells.
Proof.
  assert (NL : forall f before c after c', not_loop f before c after = Done c' -> c_surfs c' = c_surfs c).
  { induction f as [|f IH]; intros before c after c' H; cbn [not_loop] in H; destruct (nots_remaining (c_items c)); try discriminate;
      try (now injection H as <-). destruct (split_nots _ _) as [l|]; [|discriminate]. now rewrite (IH _ _ _ _ H). }
  assert (EC : forall todo before, explode_cells fuel before todo = Done cells' -> map c_surfs cells' = map c_surfs (before ++ todo)).
  { induction todo as [|c todo IH]; intros before H; cbn [explode_cells] in H; [injection H as <-; now rewrite app_nil_r|].
    destruct (not_loop fuel before c todo) as [c'| |] eqn:E; try discriminate. rewrite (IH _ H). rewrite <- app_assoc. cbn [app].
    rewrite !map_app. cbn [map]. now rewrite (NL _ _ _ _ _ E). }
  apply EC.
Qed.

(** A cell of importance 0 that can be handled: read from its card, and it names no macrobody (see C39 for one that
    does). *)
Definition plain_graveyard (i : input) (c : cell) : Prop :=
  CellModel.generalise (c_text c) = Some (c_items c, c_surfs c) /\
  forall s w, In s (i_surfs i) -> is_macrobody s = true -> In w (c_text c) -> ~ names (s_id s) w.

(** ** C72 *)
Theorem C72_process_keeps_geometry_partial i rank : good_input i rank ->
  exists N out, (forall fuel, N <= fuel -> process fuel i = out) /\ out <> Running /\
    ((exists cs, apply_importances (i_imps i) (i_cells i) = Some cs /\ forall c q, In (c, q) cs -> (q == 0)%Q -> plain_graveyard i c) -> out <> Raised) /\
    forall o, out = Done o ->
      NoDup (map s_id (o_surfs o)) /\
      (forall s, In s (o_surfs o) -> (0 < s_id s)%Z /\ exists sn, surf_sense s = Some sn) /\
      (i_quick i = false -> forall s t r s1 t1, In s (o_surfs o) -> In t (o_surfs o) -> s <> t -> diff s t true false <> Some ((true, r), s1, t1)) /\
      (exists cs, apply_importances (i_imps i) (i_cells i) = Some cs /\ map snd (o_cells o) = map snd cs) /\
      (forall p env incell, reads_at i p env incell -> forall s sn, In s (o_surfs o) -> surf_sense s = Some sn -> exists b, side sn p b) /\
      Forall2 (fun cq cq' => let c := fst cq in let c' := fst cq' in
        c_id c' = c_id c /\ c_mat c' = c_mat c /\ c_dens c' = c_dens c /\ laid (c_items c') /\ canon (c_items c') /\
        (forall n, CellProofs.mentions (c_items c') n -> In n (map s_id (o_surfs o))) /\
        exists r', expr (toks (c_items c')) r' /\
          forall p env incell, reads_at i p env incell ->
          forall sense, (forall s sn, In s (o_surfs o) -> surf_sense s = Some sn -> (sense (s_id s) = true <-> pos sn p)) ->
          holds (zenv sense) r' = incell (str_Z (c_id c))) (i_cells i) (o_cells o).
Proof.
  intro G. destruct (stages i rank G) as (N & d & cells2 & surfs2 & EF & EN & EP & IP & Nd & Hs & Hd & Sd & FC).
  assert (L2 : length cells2 = length (map snd (i_cells i))).
  { rewrite <- (forall2_len _ _ _ FC). now rewrite !map_length. }
  set (ic := combine cells2 (map snd (i_cells i))).
  remember (match apply_boundary_conditions (i_imps i) ic surfs2 with
              | None => Raised
              | Some (cells', surfs') =>
                  match bounding_coordinates surfs' [0; 0; 0; 0; 0; 0]%R with
                  | None => Raised
                  | Some bc => finish (i_quick i) surfs' cells' bc
                  end
              end) as out eqn:Eout.
  exists N, out. split.
  { intros fuel HF. unfold process. rewrite EF, (EN fuel HF), EP. now rewrite Eout. }
  pose proof (apply_importances_cells (i_imps i) (i_cells i) ic (eq_sym (map_snd_combine _ _ L2))) as AI.
  unfold apply_boundary_conditions in Eout.
  assert (Fst : map fst ic = cells2) by (apply map_fst_combine; exact L2).
  destruct (apply_importances (i_imps i) ic) as [cells3|] eqn:E3.
  2:{ subst out. destruct (apply_importances (i_imps i) (i_cells i)) as [cs|]; [contradiction|].
      split; [discriminate|]. split; [intros (cs & Q & _); discriminate|]. discriminate. }
  destruct (apply_importances (i_imps i) (i_cells i)) as [cs|] eqn:E0; [|contradiction].
  destruct AI as (Sn & Fi & Fc). rewrite Fst in Fc.
  destruct (graveyards cells3 surfs2) as [surfs3|] eqn:EG.
  2:{ subst out. split; [discriminate|]. split; [|discriminate]. intros (cs' & Q & H). injection Q as <-. exfalso.
      apply C39_fails_iff in EG as (c2 & q & n & I & Z & In2 & Nn).
      pose proof (flatten_surfs _ _ EF) as F1. cbn [d_surfs d_cells] in F1. pose proof (explode_surfs _ _ _ (EN N (le_n N))) as F2.
      assert (F3 : Forall2 (fun c c2 => surfs_kept (i_surfs i) c c2) (map fst cs) (map fst cells3)).
      { rewrite Fi, Fc. clear - F1 F2. revert cells2 F2. induction F1 as [|a b l l' K F IH]; intros [|c2 cells2] E; try discriminate; constructor.
        - cbn [map] in E. injection E as E _. intros U n. rewrite E. now apply K.
        - apply IH. cbn [map] in E. now injection E. }
      assert (X : exists c, In (c, q) cs /\ surfs_kept (i_surfs i) c c2).
      { clear - F3 Sn I. revert cells3 F3 Sn I. induction cs as [|[c r] cs IH]; intros [|[c3 r3] cells3] F Sn I; cbn [map fst snd] in *; inversion F as [|? ? ? ? K F']; subst; [destruct I|].
        injection Sn as <- Sn. destruct I as [I|I]; [injection I as <- <-; exists c; split; [now left|exact K]|].
        destruct (IH cells3 F' Sn I) as (c0 & J & L). exists c0. split; [now right|exact L]. }
      destruct X as (c & Ic & K). destruct (H c q Ic Z) as (GE & NN).
      assert (Ic' : In c (map fst (i_cells i))) by (rewrite <- Fi; now apply (in_map fst cs (c, q))).
      apply in_map_iff in Ic' as ([c' q'] & E & Ic'). cbn [fst] in E. subst c'.
      destruct (g_cells _ _ G c q' Ic') as (_ & (TK & _) & _ & W).
      assert (WW : forall w, In w (c_text c) -> word_tok w <> TAtom w \/ (exists s sg, In s (i_surfs i) /\ is_macrobody s = false /\ w = signed_word sg (s_id s)) \/
        exists d q, In (d, q) (i_cells i) /\ w = "#"%char :: str_Z (c_id d)).
      { intros w Iw. destruct (word_tok_cases w) as [[-> Q]|[[-> Q]|[[-> Q]|(_ & _ & _ & Q)]]]; [left; discriminate..|].
        destruct (text_eqb_spec w (T ")")) as [Ew|Nw]; [left; subst w; discriminate|]. right.
        destruct (W w Iw Q) as [(s & sg & Is & ->)|[(s & sg & k & Is & Ms & K1 & _ & ->)|(d0 & q0 & Id & -> & _)]].
        - left. exists s, sg. split; [exact Is|]. split; [|reflexivity]. destruct (is_macrobody s) eqn:Ms; [|reflexivity]. exfalso.
          apply (NN s _ Is Ms Iw). destruct sg; [right; left; reflexivity|left; reflexivity].
        - exfalso. apply (NN s _ Is Ms Iw). right. right. exists sg, k. split; [|reflexivity]. pose proof (facets_le s). lia.
        - right. eauto. }
      assert (U : unnamed (i_surfs i) c).
      { split; [exact TK|]. intros s w Is Ms Iw. destruct (macro_match (sid (s_id s)) w) eqn:MM; [|reflexivity]. exfalso.
        destruct (WW w Iw) as [Q|[(s' & sg & Is' & Ms' & ->)|(d0 & q0 & Id & ->)]].
        - apply match_shape in MM as [->|[->|S]]; [apply Q, word_tok_sid|apply Q, word_tok_minus|].
          apply sub_in_app in S as (a & b & E). apply word_tok_single_inv in Q as (ch & -> & Dl).
          assert (D : In "."%char [ch]) by (rewrite E, !in_app_iff; right; left; right; now left). destruct D as [->|[]]. discriminate Dl.
        - pose proof (g_pos _ _ G s Is). pose proof (g_pos _ _ G s' Is').
          destruct (after_digits (s_id s) (s_id s')) as [D1 D2]; [lia|lia| |destruct sg; congruence].
          intro E. assert (s = s') by (exact (nodup_map_inj s_id _ _ _ (g_ids _ _ G) Is Is' E)). congruence.
        - apply match_shape in MM as [E|[E|S]].
          + pose proof (sid_nohash (s_id s)) as D. rewrite <- E in D. apply D. now left.
          + discriminate E.
          + pose proof S as S'. apply sub_in_app in S as (a & b & E).
            assert (D : In "."%char ("#"%char :: str_Z (c_id d0))) by (rewrite E, !in_app_iff; right; left; right; now left).
            destruct D as [D|D]; [discriminate|]. revert D. destruct (g_cells _ _ G d0 q0 Id) as (P & _). apply (sid_no "." (c_id d0)); [lia|reflexivity]. }
      apply Nn. assert (MM : PropBoundary.mentions (c_text c) n).
      { destruct (K U n In2) as [J|J]; [|exact J]. exact (generalise_recorded _ _ _ _ GE J). }
      destruct MM as (w & z & Iw & Ez & <-). destruct (WW w Iw) as [Q|[(s' & sg & Is' & Ms' & ->)|(d0 & q0 & Id & ->)]].
      - exfalso. destruct (word_tok_cases w) as [[-> _]|[[-> _]|[[-> _]|(_ & _ & _ & E)]]]; try discriminate Ez. 
        destruct (text_eqb_spec w (T ")")) as [->|_]; [discriminate Ez|contradiction].
      - pose proof (g_pos _ _ G s' Is'). rewrite signed_int in Ez by lia. injection Ez as <-.
        replace (Z.abs (if sg then - s_id s' else s_id s')) with (s_id s') by (destruct sg; lia). now apply IP.
      - exfalso. discriminate Ez. }
  pose proof (graveyards_shape _ _ _ EG) as SH.
  assert (Hs3 : forall s, In s surfs3 -> (0 < s_id s)%Z /\ exists sn, surf_sense s = Some sn).
  { intros s I. destruct (forall2_pick _ _ _ s SH I) as (s0 & I0 & Q). pose proof Q as (A & _). rewrite A, (sense_shape _ _ Q). now apply Hs. }
  destruct (C41_total surfs3) as (bc & EB). { intros s I. destruct (Hs3 s I) as (_ & sn & ->). discriminate. }
  rewrite EB in Eout.
  assert (C2 : forall c2, In c2 cells2 -> all_ints (c_items c2) /\ (exists r, expr (toks (c_items c2)) r) /\
     forall n, CellProofs.mentions (c_items c2) n -> In n (map s_id surfs2)).
  { intros c2 I. destruct (forall2_pick _ _ _ c2 FC I) as (c & _ & _ & _ & _ & _ & W & r2 & Er & _).
    assert (Pw : forall j, In j (map s_id surfs2) -> (0 < j)%Z). { intros j J. apply in_map_iff in J as (s & <- & Is). now apply Hs. }
    split; [|split; [eauto|]].
    - intros s Is Ws. destruct (W s Is Ws) as (sg & j & Ij & ->). eexists. apply signed_int. auto.
    - intros n (s & z & Is & Ez & <-).
      assert (Ws : is_word s = true).
      { unfold is_word. destruct (text_eqb_spec s (T "(")) as [E|_]; [rewrite E in Ez; discriminate|].
        destruct (text_eqb_spec s (T ")")) as [E|_]; [rewrite E in Ez; discriminate|]. reflexivity. }
      destruct (W s Is Ws) as (sg & j & Ij & ->). rewrite signed_int in Ez by auto. injection Ez as <-.
      replace (Z.abs (if sg then - j else j)) with j; [exact Ij|]. specialize (Pw j Ij). destruct sg; lia. }
  destruct (finish_good (i_quick i) surfs3 cells3 bc) as (o & EO & _ & Os & Oi & On & OD & OF).
  { now rewrite (shape_ids _ _ SH). }
  { exact Hs3. }
  { destruct Hd as [Hd|Hd]; [now left|right]. intros s I. destruct (forall2_pick _ _ _ s SH I) as (s0 & I0 & Q).
    apply (shape_kind _ _ Q). now apply Hd. }
  { intros c q I. rewrite (shape_ids _ _ SH). apply C2. rewrite <- Fc. now apply (in_map fst cells3 (c, q)). }
  rewrite EO in Eout. subst out. split; [discriminate|]. split; [discriminate|]. intros o' Q. injection Q as <-.
  split; [exact On|]. split; [intros s I; apply Hs3, Oi, I|]. split; [exact OD|]. split; [exists cs; split; [reflexivity|congruence]|].
  split.
  { intros p env incell Ra s sn I Es. destruct (Sd p env incell Ra) as (sense1 & S1). exists (sense1 (s_id s)).
    exact (sides_shape _ _ _ _ SH S1 s sn (Oi s I) Es). }
  rewrite Fc in OF.
  assert (All : Forall2 (fun c c' => c_id c' = c_id c /\ c_mat c' = c_mat c /\ c_dens c' = c_dens c /\ laid (c_items c') /\ canon (c_items c') /\
        (forall n, CellProofs.mentions (c_items c') n -> In n (map s_id (o_surfs o))) /\
        exists r', expr (toks (c_items c')) r' /\
          forall p env incell, reads_at i p env incell ->
          forall sense, (forall s sn, In s (o_surfs o) -> surf_sense s = Some sn -> (sense (s_id s) = true <-> pos sn p)) ->
          holds (zenv sense) r' = incell (str_Z (c_id c))) (map fst (i_cells i)) (map fst (o_cells o))).
  { clear - G FC OF Sd SH Hs Hs3 Oi. revert OF. generalize (map fst (o_cells o)).
    induction FC as [|c c2 l l2 (A1 & A2 & A3 & La & W & r2 & Er2 & SEM) FC IH]; intros l3 OF;
      inversion OF as [|? c3 ? ? (B1 & B2 & B3 & B4 & B0 & B5 & B6 & r3 & Er3 & B7) OF']; subst; constructor; [|now apply IH].
    split; [congruence|]. split; [congruence|]. split; [congruence|]. split; [now apply B4|].
    split; [apply B0; intros s I Ws; destruct (W s I Ws) as (sg & j & Ij & ->); apply signed_canon; apply in_map_iff in Ij as (x & <- & Ix); now apply Hs|]. split; [exact B6|].
    exists r3. split; [exact Er3|]. intros p env incell Ra sense HS.
    destruct (Sd p env incell Ra) as (sense1 & S1). rewrite <- (SEM p env incell Ra sense1 S1).
    rewrite <- (B7 r2 Er2 p sense1 (sides_shape _ _ _ _ SH S1)).
    apply (holds_agree _ _ (fun n => In n (map s_id (o_surfs o))) _ _ Er3 B5 B6).
    intros n I. apply in_map_iff in I as (s & <- & Is). destruct (Hs3 s (Oi s Is)) as (_ & sn & Es).
    pose proof (sides_shape _ _ _ _ SH S1 s sn (Oi s Is) Es) as K. specialize (HS s sn Is Es).
    destruct (sense1 (s_id s)); cbn [side] in K; [now apply HS|].
    destruct (sense (s_id s)); [|reflexivity]. exfalso. eapply sense_excl; [exact Es|exact K|now apply HS]. }
  clear - All. revert All. generalize (o_cells o) (i_cells i). 
  assert (X : forall (R : cell -> cell -> Prop) (a b : list icell), Forall2 R (map fst a) (map fst b) -> Forall2 (fun x y => R (fst x) (fst y)) a b).
  { intros R a. induction a as [|x a IH]; intros [|y b] F; inversion F; subst; constructor; auto. }
  intros l l0 F. exact (X _ _ _ F).
Qed.
Print Assumptions C72_process_keeps_geometry_partial.

(** A deck with an RPP 3, an RCC 14, a sphere 5 placed by transform 1 and a plane given twice; cell 2 uses a facet and
    a complement, and cell 3 is a graveyard. *)
Definition demo : input :=
  mkIn [mkS 3 None MACRO_RPP [-1; 1; -2; 2; 0; 5]%R TRANSMISSION;
        mkS 5 (Some (T "1")) SPHERE_GENERAL [0; 0; 0; 9]%R TRANSMISSION;
        mkS 14 None MACRO_RCC [0; 0; 0; 0; 0; 4; 1]%R TRANSMISSION;
        mkS 20 None PLANE_X [1; 0; 0; 7]%R TRANSMISSION;
        mkS 21 None PLANE_X [1; 0; 0; 7]%R TRANSMISSION]
       [(card (T "1 0 -3 14 -5"), 1%Q); (card (T "2 0 (3:-14.1) -5 #1"), 1%Q); (card (T "3 0 5:-20 21"), 0%Q)]
       (fun id => if text_eqb id (T "1") then Some (mkTr (1, 0, 0) (1, 0, 0) (0, 1, 0) (0, 0, 1))%R else None)
       [] false.

Definition demo_rank (n : Z) : nat := Z.to_nat n.

Lemma demo_good : good_input demo demo_rank.
Proof.
  assert (RCC : exists facets inside, body (mkS 14 None MACRO_RCC [0; 0; 0; 0; 0; 4; 1]%R TRANSMISSION) facets inside).
  { eexists. eexists. apply (b_rcc 14 None TRANSMISSION (Pt 0 0 0) (Pt 0 0 4) 1). unfold nonzero. intro H. injection H. lra. }
  constructor; cbn [demo i_surfs i_cells i_cards i_imps i_quick].
  - vm_compute. repeat constructor; cbn; intuition discriminate.
  - intros s I. repeat (destruct I as [<-|I]; [cbn; lia|]). destruct I.
  - intros s t u Is It Ms Mt N. cbn [In] in Is, It.
    repeat (destruct Is as [<-|Is]; [try discriminate Ms|]); try (now destruct Is);
      repeat (destruct It as [<-|It]; [try discriminate Mt|]); try (now destruct It); cbn in N; try congruence;
        intros E; apply (f_equal (@rev _)) in E; rewrite rev_app_distr in E; vm_compute in E; discriminate E.
  - intros s I. destruct I as [<-|[<-|[<-|[<-|[<-|[]]]]]].
    + left. eexists. eexists. apply b_rpp.
    + right. eexists. reflexivity.
    + left. exact RCC.
    + right. eexists. reflexivity.
    + right. eexists. reflexivity.
  - intros s id I Et. destruct I as [<-|[<-|[<-|[<-|[<-|[]]]]]]; try discriminate Et. injection Et as <-.
    eexists. split; [reflexivity|]. intros _. split; [intros []|]. split; [reflexivity|].
    intros g m. eapply no_zx; try reflexivity; discriminate.
  - intros c q I. destruct I as [I|[I|[I|[]]]]; injection I as <- <-.
    + split; [vm_compute; reflexivity|]. split; [eapply card_good; [vm_compute; intuition discriminate|eexists; split; vm_compute; reflexivity]|].
      split; [split; vm_compute; reflexivity|]. intros w I A. vm_compute in I.
      destruct I as [<-|[<-|[<-|[]]]]; left; cbn [demo i_surfs].
      * eexists. exists true. split; [left; reflexivity|reflexivity].
      * eexists. exists false. split; [right; right; left; reflexivity|reflexivity].
      * eexists. exists true. split; [right; left; reflexivity|reflexivity].
    + split; [vm_compute; reflexivity|]. split; [eapply card_good; [vm_compute; intuition discriminate|eexists; split; vm_compute; reflexivity]|].
      split; [split; vm_compute; reflexivity|]. intros w I A. vm_compute in I.
      destruct I as [<-|[<-|[<-|[<-|[<-|[<-|[<-|[]]]]]]]]; try (vm_compute in A; discriminate A).
      * left. eexists. exists false. split; [left; reflexivity|reflexivity].
      * right. left. eexists. exists true, 1. split; [right; right; left; reflexivity|]. split; [reflexivity|]. split; [cbn; lia|]. split; reflexivity.
      * left. eexists. exists true. split; [right; left; reflexivity|reflexivity].
      * right. right. eexists. eexists. split; [left; reflexivity|]. split; [reflexivity|]. vm_compute. lia.
    + split; [vm_compute; reflexivity|]. split; [eapply card_good; [vm_compute; intuition discriminate|eexists; split; vm_compute; reflexivity]|].
      split; [split; vm_compute; reflexivity|]. intros w I A. vm_compute in I.
      destruct I as [<-|[<-|[<-|[<-|[]]]]]; try (vm_compute in A; discriminate A); left; cbn [demo i_surfs].
      * eexists. exists false. split; [right; left; reflexivity|reflexivity].
      * eexists. exists true. split; [right; right; right; left; reflexivity|reflexivity].
      * eexists. exists false. split; [right; right; right; right; left; reflexivity|reflexivity].
  - right. intros s I. repeat (destruct I as [<-|I]; [split; [intros []|discriminate]|]). destruct I.
Qed.

(** The point (1/2, 0, 2): in the RPP, the RCC and the sphere, hence in cell 2 only. *)
Definition demo_env (w : text) : bool :=
  match w with [] => false | c :: _ => Ascii.eqb c "-" || text_eqb w (T "#1") || text_eqb w (T "#3") end.

Lemma demo_reads : reads_at demo (Pt (1/2) 0 2) demo_env (text_eqb (T "2")).
Proof.
  assert (L5 : local (i_cards demo) (mkS 5 (Some (T "1")) SPHERE_GENERAL [0; 0; 0; 9]%R TRANSMISSION) (Pt (1/2) 0 2) = Pt (-1/2) 0 2).
  { unfold local. cbn [s_tr demo i_cards]. change (text_eqb (T "1") (T "1")) with true. cbv iota.
    unfold to_aux, motion_of, dot, sub_pt. cbn [pt_of t_shift t_v1 t_v2 t_v3 mo r1 r2 r3 px py pz]. f_equal; lra. }
  constructor.
  - intros s sn I Es. cbn [demo i_surfs In] in I. destruct I as [<-|[<-|[<-|[<-|[<-|[]]]]]]; try discriminate Es; injection Es as <-.
    + exists false. split; [rewrite L5; cbn [side neg pos of_fun px py pz]; unfold sphere; cbn [px py pz]; lra|split; vm_compute; reflexivity].
    + exists false. split; [cbn [side neg pos of_fun local s_tr]; unfold plane; cbn [px py pz]; lra|split; vm_compute; reflexivity].
    + exists false. split; [cbn [side neg pos of_fun local s_tr]; unfold plane; cbn [px py pz]; lra|split; vm_compute; reflexivity].
  - intros s f ins I B. cbn [demo i_surfs In] in I. destruct I as [<-|[<-|[<-|[<-|[<-|[]]]]]]; inversion B; subst.
    + split; [|split; [vm_compute; reflexivity|]].
      * split; [|intros; vm_compute; reflexivity]. intros _. unfold in_rpp, local. cbn [s_tr px py pz]. lra.
      * intros k g E. exists false.
        destruct k as [|[|[|[|[|[|k]]]]]]; cbn in E; [..|destruct k; discriminate E]; injection E as <-;
          (split; [cbn; lra|split; vm_compute; reflexivity]).
    + destruct b as [bx by_ bz], h as [hx hy hz]; cbn [px py pz] in *; subst.
      split; [|split; [vm_compute; reflexivity|]].
      * split; [|intros; vm_compute; reflexivity]. intros _. unfold in_rcc, local, dot, sub_pt, add_pt, scale_pt. cbn [s_tr px py pz].
        exists (1/2)%R. cbn [px py pz]. lra.
      * intros k g E. exists false.
        destruct k as [|[|[|k]]]; cbn in E; [..|destruct k; discriminate E]; injection E as <-;
          (split; [cbn [side neg of_fun local s_tr]; unfold dot, sub_pt, add_pt; cbn [px py pz]; try (replace (0 * 0 + 0 * 0 + 4 * 4)%R with 16%R by lra); lra|split; vm_compute; reflexivity]).
  - intros c q I. cbn [demo i_cells In] in I. destruct I as [I|[I|[I|[]]]]; injection I as <- <-; vm_compute; reflexivity.
  - intros c q r I E. cbn [demo i_cells In] in I. apply parse_complete in E.
    destruct I as [I|[I|[I|[]]]]; injection I as <- <-; vm_compute in E; injection E as <-; vm_compute; reflexivity.
Qed.

(** So whatever is written holds the point in the second cell and in no other. *)
Example C72_example : exists fuel o, process fuel demo = Done o /\ length (o_cells o) = 3 /\
  forall sense, (forall s sn, In s (o_surfs o) -> surf_sense s = Some sn -> (sense (s_id s) = true <-> pos sn (Pt (1/2) 0 2))) ->
  Forall2 (fun cq b => exists r, expr (toks (c_items (fst cq))) r /\ holds (zenv sense) r = b) (o_cells o) [false; true; false].
Proof.
  destruct (C72_process_keeps_geometry_partial demo demo_rank demo_good) as (N & out & R & NR & NX & H).
  assert (A : out <> Raised).
  { apply NX. exists (i_cells demo). split; [reflexivity|]. intros c q I. cbn [demo i_cells In] in I.
    destruct I as [I|[I|[I|[]]]]; injection I as <- <-; intro Q; try (vm_compute in Q; discriminate Q).
    split; [vm_compute; reflexivity|]. intros s w Is Ms Iw. vm_compute in Iw.
    assert (D : forall z v, ~ In "."%char v -> names z v -> v = sid z \/ v = minus (sid z)).
    { intros z v ND [E|[E|(sg & k & _ & ->)]]; [now left|now right|destruct ND; apply facet_dot]. }
    assert (W : ~ In "."%char w) by (clear - Iw; intro J; destruct Iw as [<-|[<-|[<-|[<-|[]]]]]; vm_compute in J; intuition discriminate).
    destruct Is as [<-|[<-|[<-|[<-|[<-|[]]]]]]; try discriminate Ms; cbn [s_id]; intro Nm; apply (D _ _ W) in Nm; clear - Nm Iw;
      destruct Iw as [<-|[<-|[<-|[<-|[]]]]]; destruct Nm as [Nm|Nm]; vm_compute in Nm; discriminate Nm. }
  destruct out as [o| |]; try congruence. exists N, o. split; [apply R; lia|].
  destruct (H o eq_refl) as (_ & _ & _ & _ & _ & F). split; [symmetry; exact (forall2_len _ _ _ F)|]. intros sense HS. cbv zeta in F.
  cbn [demo i_cells] in F.
  inversion F as [|? c1 ? l1 K1 F1]; subst. inversion F1 as [|? c2 ? l2 K2 F2]; subst. inversion F2 as [|? c3 ? l3 K3 F3]; subst.
  inversion F3; subst.
  destruct K1 as (_ & _ & _ & _ & _ & _ & r1 & E1 & K1), K2 as (_ & _ & _ & _ & _ & _ & r2 & E2 & K2), K3 as (_ & _ & _ & _ & _ & _ & r3 & E3 & K3).
  repeat (apply Forall2_cons || apply Forall2_nil).
  - exists r1. split; [exact E1|]. rewrite (K1 _ _ _ demo_reads sense HS). vm_compute. reflexivity.
  - exists r2. split; [exact E2|]. rewrite (K2 _ _ _ demo_reads sense HS). vm_compute. reflexivity.
  - exists r3. split; [exact E3|]. rewrite (K3 _ _ _ demo_reads sense HS). vm_compute. reflexivity.
Qed.
