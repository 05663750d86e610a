(** Lemmas for the whole of [process]: the surfaces, and what the words mean. *)
From Coq Require Import QArith Reals Lra Psatz.
From Verif Require Import PyStr PyStrFacts PyInt PyIntFacts RegionSpec RegionFacts GeomSpec SurfModel SurfSpec SurfProofs PropSurf PropTransform
  MacroModel MacroSpec MacroProofs MacroText PropMacro CellModel CellProofs FlattenModel FlattenProofs FlattenDeck
  NotsModel NotsProofs BoundaryModel ProcessModel ProcessSpec.
Open Scope nat_scope.
Open Scope list_scope.

Lemma sense_excl s sn p : surf_sense s = Some sn -> neg sn p -> pos sn p -> False.
Proof.
  destruct s as [id tr ty l bc]. unfold surf_sense. cbn [s_type s_coef].
  destruct ty; cbn [sem]; intro E; dl l; injection E as <-; cbn [neg pos of_fun one_sheet]; try lra;
    (intros [A B] [C|[C D]]; [lra|specialize (B C); lra]).
Qed.

Lemma side_det s sn p a b : surf_sense s = Some sn -> side sn p a -> side sn p b -> a = b.
Proof. intros E A B. destruct a, b; try reflexivity; exfalso; eapply sense_excl; eauto. Qed.

Lemma side_same a b p x : same_sense a b -> (side a p x <-> side b p x).
Proof. intro H. destruct (H p). destruct x; cbn [side]; tauto. Qed.

(** ** Transformed surfaces *)

(** What [apply_transform] needs. *)
Definition movable (cards : text -> option trans) (s : surface) : Prop :=
  forall id, s_tr s = Some id -> exists t, cards id = Some t /\ ~ sheeted s /\ is_torus (s_type s) = false /\
    forall g m, SurfModel.generalise s = Some g -> transform g t = Some m -> ~ only_zx m.

Lemma simplify_type s s' : simplify s = Some s' -> s_type s = GENERAL_QUADRATIC -> ~ sheeted s' /\ is_torus (s_type s') = false.
Proof.
  destruct s as [id tr ty l bc]. unfold simplify. cbn [s_type s_coef]. intros H ->.
  repeat match type of H with context [if ?b then _ else _] => destruct b end.
  - destruct l as [|? [|? [|? [|? [|? [|? [|? [|? [|? [|? ?]]]]]]]]]]; try discriminate. injection H as <-. cbn. tauto.
  - destruct l as [|? [|? [|? [|? [|? [|? [|? [|? [|? [|? ?]]]]]]]]]]; try discriminate. injection H as <-. cbn. tauto.
  - injection H as <-. cbn. tauto.
Qed.

Lemma place_ok cards s sn : surf_sense s = Some sn -> movable cards s ->
  exists s' sn', apply_transform cards s = Some s' /\ s_id s' = s_id s /\ surf_sense s' = Some sn' /\
    (forall p b, side sn' p b <-> side sn (local cards s p) b) /\
    (~ sheeted s /\ torus_ok s -> ~ sheeted s' /\ torus_ok s').
Proof.
  intros Es M. destruct (s_tr s) as [id|] eqn:Et.
  - destruct (M id Et) as (t & Ec & NS & NT & NZ).
    destruct (C22_apply_transform_partial cards s t id sn Et Ec Es NS NT NZ) as (s' & Ea & Ei & sn' & Es' & Ss).
    exists s', sn'. split; [exact Ea|]. split; [exact Ei|]. split; [exact Es'|]. split.
    + intros p b. rewrite (side_same _ _ p b Ss). unfold local. rewrite Et, Ec. destruct b; cbn; tauto.
    + intros _. unfold apply_transform in Ea. rewrite Et in Ea. 
      assert (NM : is_macrobody s = false).
      { destruct s as [i tr ty l bc]. unfold surf_sense in Es. cbn [s_type s_coef] in Es. destruct ty; try reflexivity; discriminate Es. }
      rewrite NM in Ea. destruct (generalise_sense s sn Es NS) as (g & Eg & _ & Tg & _ & (sg & Esg & Sg) & _ & Qg).
      rewrite Eg, Ec in Ea. destruct (transform_gq g t _ sg (Qg NT) ltac:(congruence) eq_refl Esg) as (m & Em & _ & _ & _ & Tm & _).
      rewrite Em in Ea. destruct (simplify_type _ _ Ea Tm) as [A B]. split; [exact A|]. intro C. congruence.
  - exists s, sn. unfold apply_transform, local. rewrite Et. repeat split; tauto.
Qed.

(** ** Exploded macrobodies *)

(** The facets in the order of the code. *)
Definition swapped (s : surface) (f : list sense) : list sense :=
  match s_type s, f with MACRO_RCC, [a; b; c] => [a; c; b] | _, _ => f end.

Lemma plane_movable i id a b c d bc t : forall g m,
  SurfModel.generalise (mkS i (Some id) PLANE_GENERAL [a; b; c; d] bc) = Some g -> transform g t = Some m -> ~ only_zx m.
Proof.
  intros g m. apply (no_zx _ t id (of_fun (plane a b c d)) g m); try reflexivity; discriminate.
Qed.

(** The same surface with a transform. *)
Definition given (s : surface) (id : option text) : surface := mkS (s_id s) id (s_type s) (s_coef s) (s_bc s).

(** A surface made by [explode_macrobody]. *)
Definition fresh_surface (y : surface) : Prop :=
  s_tr y = None /\ ~ sheeted y /\ is_torus (s_type y) = false /\
  forall id t g m, SurfModel.generalise (given y (Some id)) = Some g -> transform g t = Some m -> ~ only_zx m.

Lemma fresh_plane n a b c d : fresh_surface (new_plane n a b c d).
Proof.
  split; [reflexivity|]. split; [intros []|]. split; [reflexivity|]. intros id t. apply plane_movable.
Qed.

Lemma fresh_axis n ty l sn : surf_sense (mkS n None ty l TRANSMISSION) = Some sn -> is_torus ty = false ->
  ty <> GENERAL_QUADRATIC -> is_cone ty = false -> fresh_surface (mkS n None ty l TRANSMISSION).
Proof.
  intros E T Q C. split; [reflexivity|]. split.
  { unfold sheeted. cbn [s_type s_coef]. destruct ty; try discriminate; try tauto. }
  split; [exact T|]. intros id t g m. unfold given. cbn [s_id s_type s_coef s_bc].
  apply (no_zx _ t id sn g m); auto. cbn [s_type]. congruence.
Qed.

Lemma unit_axis x y z : (x, y, z) <> (0, 0, 0)%R -> ((x / norm3 x y z) ^ 2 + (y / norm3 x y z) ^ 2 + (z / norm3 x y z) ^ 2 = 1)%R.
Proof.
  intro N. pose proof (norm3_sq x y z) as S. pose proof (norm3_pos x y z N) as P.
  set (w := norm3 x y z) in *. replace (((x / w) ^ 2 + (y / w) ^ 2 + (z / w) ^ 2)%R) with ((x ^ 2 + y ^ 2 + z ^ 2) / (w * w))%R by (field; lra).
  rewrite <- S. field. lra.
Qed.

Lemma body_facts s facets inside n : body s facets inside -> exists x, explode_macrobody n s = Some x /\
  map s_id (x_surfs x) = range n (facets_of s) /\ Forall2 denotes (x_surfs x) (swapped s facets) /\
  (forall q, all_neg (x_surfs x) q <-> inside q) /\ Forall fresh_surface (x_surfs x) /\
  is_macrobody s = true /\ enough s.
Proof.
  intros [i tr bc x0 x1 y0 y1 z0 z1|i tr bc v a b c O NA NB NC|i tr bc b h r NH].
  - exists (explode_rpp n x0 x1 y0 y1 z0 z1). split; [reflexivity|]. split; [reflexivity|].
    split; [apply C28_rpp_facets|]. split; [intro q; apply rpp_inside|]. split; [|split; [reflexivity|cbn; lia]].
    unfold explode_rpp. cbn [x_surfs].
    repeat (apply Forall_cons; [first [apply fresh_plane | eapply fresh_axis; [reflexivity|reflexivity|discriminate|reflexivity]]|]). constructor.
  - exists (explode_box n (px v) (py v) (pz v) (px a) (py a) (pz a) (px b) (py b) (pz b) (px c) (py c) (pz c)).
    split; [reflexivity|]. split.
    { unfold explode_box, range. cbn [x_surfs app map s_id new_plane facets_of s_type seq]. repeat (apply (f_equal2 (@cons Z)); [lia|]). reflexivity. }
    split; [now apply C28_box_facets|]. split; [intro q; now apply box_inside|]. split; [|split; [reflexivity|cbn; lia]].
    unfold explode_box. cbn [x_surfs app]. repeat (apply Forall_cons; [apply fresh_plane|]). constructor.
  - exists (explode_rcc n (px b) (py b) (pz b) (px h) (py h) (pz h) r). split; [reflexivity|]. split; [reflexivity|].
    split. { destruct (C28_rcc_facets_partial n b h r NH) as (f1 & f2 & f3 & E & F). unfold swapped. cbn [s_type]. rewrite E. exact F. }
    split; [intro q; now apply rcc_inside|]. split; [|split; [reflexivity|cbn; lia]].
    unfold explode_rcc. cbn [x_surfs]. apply Forall_cons; [|repeat (apply Forall_cons; [apply fresh_plane|]); constructor].
    split; [reflexivity|]. split; [intros []|]. split; [reflexivity|]. intros id t g m Eg Em. injection Eg as <-.
    exact (no_zx_tube _ id TRANSMISSION _ _ _ _ _ _ _ t m (unit_axis _ _ _ NH) Em).
Qed.

Lemma movable_inherit cards s x : Forall fresh_surface (x_surfs x) ->
  (forall id, s_tr s = Some id -> exists t, cards id = Some t) ->
  forall y, In y (inherit s (x_surfs x)) -> movable cards y /\ ~ sheeted y /\ torus_ok y /\ is_torus (s_type y) = false.
Proof.
  intros F C y I. rewrite Forall_forall in F. unfold inherit in I. destruct (s_tr s) as [id|] eqn:Et.
  - apply in_map_iff in I as (z & <- & Iz). destruct (F z Iz) as (Nt & NS & NT & NZ).
    split; [|split; [exact NS|split; [intro Q; cbn [s_type] in Q; congruence|exact NT]]].
    intros id' E. cbn [s_tr] in E. injection E as <-. destruct (C id eq_refl) as (t & Ec). exists t.
    split; [exact Ec|]. split; [exact NS|]. split; [exact NT|]. intros g m. apply (NZ id t g m).
  - destruct (F y I) as (Nt & NS & NT & NZ). split; [|split; [exact NS|split; [intro Q; congruence|exact NT]]].
    intros id E. congruence.
Qed.

(** ** The sides of all surfaces at a point *)

Lemma choose_sense l p : NoDup (map s_id l) ->
  (forall s, In s l -> exists sn b, surf_sense s = Some sn /\ side sn p b) ->
  exists sense, forall s sn, In s l -> surf_sense s = Some sn -> side sn p (sense (s_id s)).
Proof.
  induction l as [|s l IH]; intros N H.
  { exists (fun _ => false). intros s sn []. }
  cbn [map] in N. inversion N as [|? ? Ns N']. subst.
  destruct (IH N' (fun t I => H t (or_intror I))) as (f & F). destruct (H s (or_introl eq_refl)) as (sn & b & E & B).
  exists (fun j => if (j =? s_id s)%Z then b else f j). intros t sn' [<-|I] E'.
  - rewrite Z.eqb_refl. rewrite E in E'. now injection E' as <-.
  - destruct (Z.eqb_spec (s_id t) (s_id s)) as [Q|Q]; [|auto]. exfalso. apply Ns. rewrite <- Q. now apply in_map.
Qed.

(** ** What a word means in terms of the new surfaces *)

Fixpoint meaning (cts : list (surface * Z)) (env' : text -> bool) (w : text) : bool :=
  match cts with
  | [] => env' w
  | (s, c) :: r =>
      if names_dec (s_id s) w then
        if text_eqb w (sid (s_id s)) then negb (forallb (fun j => env' (minus (sid j))) (range c (facets_of s)))
        else if text_eqb w (minus (sid (s_id s))) then forallb (fun j => env' (minus (sid j))) (range c (facets_of s))
        else match facet_of (s_id s) w with Some (sg, k) => env' (signed_word sg (c + Z.of_nat k)) | None => env' w end
      else meaning r env' w
  end.

Lemma meaning_own cts env' s c : NoDup (map (fun sc => s_id (fst sc)) cts) -> (forall t d, In (t, d) cts -> (0 < s_id t)%Z) ->
  In (s, c) cts -> forall w, names (s_id s) w ->
  meaning cts env' w =
    (if text_eqb w (sid (s_id s)) then negb (forallb (fun j => env' (minus (sid j))) (range c (facets_of s)))
     else if text_eqb w (minus (sid (s_id s))) then forallb (fun j => env' (minus (sid j))) (range c (facets_of s))
     else match facet_of (s_id s) w with Some (sg, k) => env' (signed_word sg (c + Z.of_nat k)) | None => env' w end).
Proof.
  induction cts as [|[t d] r IH]; intros N P I w W; [destruct I|]. cbn [meaning].
  cbn [map fst] in N. inversion N as [|? ? Nt N']. subst.
  destruct I as [I|I].
  - injection I as -> ->. destruct (names_dec (s_id s) w); [reflexivity|contradiction].
  - destruct (names_dec (s_id t) w) as [Q|Q].
    + exfalso. apply Nt. assert (E : s_id t = s_id s).
      { apply (names_names _ _ w); auto; [specialize (P t d (or_introl eq_refl)); lia|specialize (P s c (or_intror I)); lia]. }
      rewrite E. now apply (in_map (fun sc => s_id (fst sc)) r (s, c)).
    + apply IH; auto. intros t' d' I'. apply (P t' d'). now right.
Qed.

Lemma meaning_other cts env' w : (forall s c, In (s, c) cts -> ~ names (s_id s) w) -> meaning cts env' w = env' w.
Proof.
  induction cts as [|[t d] r IH]; intro H; [reflexivity|]. cbn [meaning].
  destruct (names_dec (s_id t) w) as [Q|Q]; [exfalso; exact (H t d (or_introl eq_refl) Q)|].
  apply IH. intros s c I. apply (H s c). now right.
Qed.

Lemma counters_names l : forall n, map (fun sc => s_id (fst sc)) (counters l n) = map s_id (filter is_macrobody l).
Proof.
  induction l as [|s l IH]; intro n; [reflexivity|]. cbn [counters filter]. destruct (is_macrobody s); [|apply IH].
  cbn [map fst]. now rewrite IH.
Qed.

Lemma counters_has l s : forall n, In s l -> is_macrobody s = true -> exists c, In (s, c) (counters l n).
Proof.
  induction l as [|t l IH]; intros n I M; [destruct I|]. cbn [counters]. destruct I as [->|I].
  - rewrite M. exists n. now left.
  - destruct (is_macrobody t); [|now apply IH]. destruct (IH (n + Z.of_nat (facets_of t))%Z I M) as (c & J). exists c. now right.
Qed.

Lemma sid_not_minus m : (0 <= m)%Z -> minus (sid m) <> sid m.
Proof.
  intros P E. apply (f_equal (@length _)) in E. unfold minus in E. cbn [length] in E. rewrite app_length in E. cbn in E. lia.
Qed.

Lemma meaning_means l n env' : NoDup (map s_id (filter is_macrobody l)) ->
  (forall s, In s l -> is_macrobody s = true -> (0 < s_id s)%Z) -> means l n env' (meaning (counters l n) env').
Proof.
  intros N P. split.
  - intros s c I. destruct (counters_ids _ _ _ _ I) as (Is & Ms & _). pose proof (P s Is Ms) as Ps.
    assert (O := meaning_own (counters l n) env' s c ltac:(rewrite counters_names; exact N)
      ltac:(intros t d It; destruct (counters_ids _ _ _ _ It) as (A & B & _); now apply P) I).
    assert (Nm : minus (sid (s_id s)) <> sid (s_id s)) by (apply sid_not_minus; lia).
    split; [|split].
    + rewrite O by (right; left; reflexivity). destruct (text_eqb_spec (minus (sid (s_id s))) (sid (s_id s))) as [E|_]; [contradiction|].
      now rewrite text_eqb_refl.
    + rewrite (O (sid (s_id s))) by (left; reflexivity). rewrite text_eqb_refl. rewrite (O (minus (sid (s_id s)))) by (right; left; reflexivity).
      destruct (text_eqb_spec (minus (sid (s_id s))) (sid (s_id s))) as [E|_]; [contradiction|]. now rewrite text_eqb_refl.
    + intros sg k K. pose proof (facets_le s) as FL.
      rewrite O by (right; right; exists sg, k; split; [lia|reflexivity]).
      pose proof (facet_dot sg (s_id s) k) as D.
      destruct (text_eqb_spec (facet_word sg (s_id s) k) (sid (s_id s))) as [E|_].
      { exfalso. apply (signed_nodot false (s_id s) ltac:(lia)). unfold signed_word. cbn [sgn app]. now rewrite <- E. }
      destruct (text_eqb_spec (facet_word sg (s_id s) k) (minus (sid (s_id s)))) as [E|_].
      { exfalso. apply (signed_nodot true (s_id s) ltac:(lia)). unfold signed_word. cbn [sgn]. unfold minus in E. now rewrite <- E. }
      rewrite facet_of_word by lia. reflexivity.
  - intros w H. now apply meaning_other.
Qed.

(** Sides of surfaces as texts. *)
Definition by_number (sense : Z -> bool) (w : text) : bool := match py_int w with Some z => sense z | None => false end.

Lemma env_signed sense incell sg j : (0 < j)%Z ->
  atom_env (by_number sense) incell (signed_word sg j) = (if sg then negb (sense j) else sense j).
Proof.
  intro P. unfold signed_word. destruct (sid_digits j ltac:(lia)) as [N D].
  assert (B : by_number sense (sid j) = sense j) by (unfold by_number, sid; now rewrite py_int_str_Z).
  destruct sg; cbn [sgn T list_ascii_of_string app].
  - cbn [atom_env]. change (Ascii.eqb "-" "#") with false. change (Ascii.eqb "-" "-") with true. cbv iota. now rewrite B.
  - destruct (sid j) as [|c r] eqn:E; [congruence|]. cbn [atom_env].
    pose proof (digits_no "#" _ eq_refl D) as N1. pose proof (digits_no "-" _ eq_refl D) as N2.
    destruct (Ascii.eqb_spec c "#") as [->|_]; [exfalso; apply N1; now left|].
    destruct (Ascii.eqb_spec c "-") as [->|_]; [exfalso; apply N2; now left|]. exact B.
Qed.

Lemma zenv_signed sense sg j : (0 < j)%Z -> zenv sense (signed_word sg j) = (if sg then negb (sense j) else sense j).
Proof.
  intro P. destruct sg.
  - change (signed_word true j) with (minus (sid j)). now apply zenv_minus.
  - change (signed_word false j) with (sid j). now apply zenv_sid.
Qed.

(** ** All surfaces *)

(** What becomes of a surface when the transforms are applied. *)
Definition placed (cards : text -> option trans) (s s' : surface) : Prop :=
  s_id s' = s_id s /\ exists sn sn', surf_sense s = Some sn /\ surf_sense s' = Some sn' /\
    (forall p b, side sn' p b <-> side sn (local cards s p) b) /\
    (~ sheeted s /\ torus_ok s -> ~ sheeted s' /\ torus_ok s').

Lemma place_all cards l : (forall s, In s l -> movable cards s /\ exists sn, surf_sense s = Some sn) ->
  exists l', mapM (apply_transform cards) l = Some l' /\ Forall2 (placed cards) l l'.
Proof.
  induction l as [|s l IH]; intro H; [exists []; split; [reflexivity|constructor]|].
  destruct (H s (or_introl eq_refl)) as (M & sn & E). destruct (place_ok cards s sn E M) as (s' & sn' & A & I & E' & S & T).
  destruct (IH (fun t J => H t (or_intror J))) as (l' & L & F). exists (s' :: l'). cbn [mapM]. rewrite A, L.
  split; [reflexivity|]. constructor; [|exact F]. split; [exact I|]. exists sn, sn'. auto.
Qed.

Lemma last_index_le l s : In s l -> (s_id s <= last_index l)%Z.
Proof.
  unfold last_index. assert (G : forall l m, (m <= fold_left (fun m s => if (m <? s_id s)%Z then s_id s else m) l m)%Z /\
    forall s, In s l -> (s_id s <= fold_left (fun m s => if (m <? s_id s)%Z then s_id s else m) l m)%Z).
  { clear. induction l as [|t l IH]; intro m; cbn [fold_left]; [split; [lia|intros s []]|].
    destruct (Z.ltb_spec m (s_id t)) as [L|L].
    - destruct (IH (s_id t)) as [A B]. split; [lia|]. intros s [<-|I]; auto.
    - destruct (IH m) as [A B]. split; [lia|]. intros s [<-|I]; [lia|auto]. }
  intro I. now apply G.
Qed.

Lemma last_index_pos l : (0 <= last_index l)%Z.
Proof.
  unfold last_index. assert (G : forall l m, (m <= fold_left (fun m s => if (m <? s_id s)%Z then s_id s else m) l m)%Z).
  { clear. induction l as [|t l IH]; intro m; cbn [fold_left]; [lia|]. destruct (Z.ltb_spec m (s_id t)) as [L|L]; [specialize (IH (s_id t)); lia|apply IH]. }
  apply G.
Qed.

Lemma names_nohash m n : (0 <= m)%Z -> ~ names m ("#"%char :: n).
Proof.
  intros P. destruct (sid_digits m P) as [N D]. pose proof (digits_no "#" _ eq_refl D) as NH.
  assert (G : forall sg r, "#"%char :: n = sgn sg ++ sid m ++ r -> False).
  { intros [|] r E; cbn [sgn T list_ascii_of_string app] in E; [discriminate|].
    destruct (sid m) as [|c t] eqn:Es; [congruence|]. cbn [app] in E. injection E as <- _. apply NH. now left. }
  intros [E|[E|(sg & k & _ & E)]].
  - apply (G false []). now rewrite app_nil_r.
  - discriminate.
  - apply (G sg (T "." ++ str_Z (Z.of_nat k))). exact E.
Qed.

Lemma body_macro s facets inside : body s facets inside -> is_macrobody s = true.
Proof. intro B. destruct B; reflexivity. Qed.

Lemma sense_plain s sn : surf_sense s = Some sn -> is_macrobody s = false.
Proof. destruct s as [i tr ty l bc]. unfold surf_sense. cbn [s_type s_coef]. intro E. destruct ty; try reflexivity; discriminate E. Qed.

Section Words.
  Context (i : input) (rank : Z -> nat) (G : good_input i rank) (p : pt) (env incell : text -> bool) (Ra : reads_at i p env incell).
  Context (sense : Z -> bool) (n : Z) (Hn : (0 <= n)%Z).
  Context (Hplain : forall s sn, In s (i_surfs i) -> surf_sense s = Some sn -> side sn (local (i_cards i) s p) (sense (s_id s))).
  Context (Hnew : forall s c x y sn, In (s, c) (counters (i_surfs i) n) -> explode_macrobody c s = Some x -> In y (x_surfs x) ->
    surf_sense y = Some sn -> side sn (local (i_cards i) s p) (sense (s_id y))).
  Let env' := atom_env (by_number sense) incell.

  Lemma macro_nodup : NoDup (map s_id (filter is_macrobody (i_surfs i))).
  Proof.
    pose proof (g_ids _ _ G) as N. revert N. generalize (i_surfs i). induction l as [|s l IH]; intro N; [constructor|].
    cbn [map filter] in *. inversion N as [|? ? A B]. subst. destruct (is_macrobody s); [|auto]. cbn [map]. constructor; [|auto].
    intro I. apply A. apply in_map_iff in I as (t & E & I). apply filter_In in I as [I _]. rewrite <- E. now apply in_map.
  Qed.

  Lemma same_id s t : In s (i_surfs i) -> In t (i_surfs i) -> s_id s = s_id t -> s = t.
  Proof.
    intros I J E. pose proof (g_ids _ _ G) as N. revert N I J. generalize (i_surfs i). induction l as [|a l IH]; intros N I J; [destruct I|].
    cbn [map] in N. inversion N as [|? ? A B]. subst. destruct I as [->|I], J as [->|J]; auto.
    - exfalso. apply A. rewrite E. now apply in_map.
    - exfalso. apply A. rewrite <- E. now apply in_map.
  Qed.

  Lemma word_meaning c w : word_allowed i rank c w -> env w = meaning (counters (i_surfs i) n) env' w.
  Proof.
    assert (MM : means (i_surfs i) n env' (meaning (counters (i_surfs i) n) env')).
    { apply meaning_means; [apply macro_nodup|]. intros s I _. now apply (g_pos _ _ G). }
    destruct MM as [MM MO].
    intros [(s & sg & Is & ->)|[(s & sg & k & Is & Ms & K & KR & ->)|(d & q & Id & -> & _)]].
    - (* a surface or a macrobody *)
      pose proof (g_pos _ _ G s Is) as Ps.
      destruct (g_surfs _ _ G s Is) as [(fs & ins & B)|(sn & E)].
      + pose proof (body_macro _ _ _ B) as Ms. destruct (counters_has _ s n Is Ms) as (ct & Ict).
        destruct (counters_ids _ _ _ _ Ict) as (_ & _ & Lct).
        destruct (MM s ct Ict) as (M1 & M2 & _). destruct (ra_macro _ _ _ _ Ra s fs ins Is B) as (R1 & R2 & _).
        destruct (body_facts s fs ins ct B) as (x & Ex & Eids & Fd & An & _ & _).
        assert (Q : forallb (fun j => env' (minus (sid j))) (range ct (facets_of s)) = env (minus (sid (s_id s)))).
        { rewrite <- Eids.
          assert (X : forallb (fun j => env' (minus (sid j))) (map s_id (x_surfs x)) = true <-> all_neg (x_surfs x) (local (i_cards i) s p)).
          { assert (Pj : forall y, In y (x_surfs x) -> (0 < s_id y)%Z).
            { intros y I. assert (J : In (s_id y) (range ct (facets_of s))) by (rewrite <- Eids; now apply in_map).
              unfold range in J. apply in_map_iff in J as (j & <- & J). apply in_seq in J. lia. }
            assert (Sn : forall y, In y (x_surfs x) -> exists sn, surf_sense y = Some sn).
            { intros y I. clear - Fd I. induction Fd as [|a b l l' (sn & E & _) F IH]; [destruct I|]. destruct I as [<-|I]; [eauto|auto]. }
            unfold all_neg. rewrite forallb_forall, Forall_forall. split.
            - intros H y I. destruct (Sn y I) as (sn & E). exists sn. split; [exact E|].
              pose proof (Hnew s ct x y sn Ict Ex I E) as Sd. specialize (H (s_id y) (in_map s_id _ _ I)).
              change (minus (sid (s_id y))) with (signed_word true (s_id y)) in H. unfold env' in H. rewrite env_signed in H by auto.
              destruct (sense (s_id y)); [discriminate|exact Sd].
            - intros H j J. apply in_map_iff in J as (y & <- & I). destruct (H y I) as (sn & E & Ng).
              pose proof (Hnew s ct x y sn Ict Ex I E) as Sd.
              change (minus (sid (s_id y))) with (signed_word true (s_id y)). unfold env'. rewrite env_signed by auto.
              destruct (sense (s_id y)); [exfalso; exact (sense_excl _ _ _ E Ng Sd)|reflexivity]. }
          rewrite An in X. rewrite <- R1 in X.
          destruct (forallb (fun j => env' (minus (sid j))) (map s_id (x_surfs x))), (env (minus (sid (s_id s)))); try reflexivity.
          - symmetry. now apply X.
          - now apply X. }
        destruct sg.
        * change (signed_word true (s_id s)) with (minus (sid (s_id s))). rewrite M1. now symmetry.
        * change (signed_word false (s_id s)) with (sid (s_id s)). rewrite M2, M1, Q. exact R2.
      + assert (NN : forall t c0, In (t, c0) (counters (i_surfs i) n) -> ~ names (s_id t) (signed_word sg (s_id s))).
        { intros t c0 It. destruct (counters_ids _ _ _ _ It) as (It' & Mt & _). pose proof (g_pos _ _ G t It').
          apply names_signed; try lia. intro Q. assert (t = s) by now apply same_id. subst. pose proof (sense_plain _ _ E). congruence. }
        rewrite MO by exact NN. unfold env'. rewrite env_signed by exact Ps.
        destruct (ra_plain _ _ _ _ Ra s sn Is E) as (b & Sd & E1 & E2).
        assert (b = sense (s_id s)) by (eapply side_det; [exact E|exact Sd|now apply Hplain]).
        destruct sg; [change (signed_word true (s_id s)) with (minus (sid (s_id s)))|change (signed_word false (s_id s)) with (sid (s_id s))]; congruence.
    - (* a facet *)
      destruct (g_surfs _ _ G s Is) as [(fs & ins & B)|(sn & E)]; [|pose proof (sense_plain _ _ E); congruence].
      pose proof (g_pos _ _ G s Is) as Ps. destruct (counters_has _ s n Is Ms) as (ct & Ict).
      destruct (counters_ids _ _ _ _ Ict) as (_ & _ & Lct).
      destruct (MM s ct Ict) as (_ & _ & M3). rewrite M3 by exact K.
      destruct (body_facts s fs ins ct B) as (x & Ex & Eids & Fd & _).
      destruct (ra_macro _ _ _ _ Ra s fs ins Is B) as (_ & _ & R3).
      assert (Y : exists y f, nth_error (x_surfs x) (k - 1) = Some y /\ nth_error fs (k - 1) = Some f /\ denotes y f /\ s_id y = (ct + Z.of_nat k)%Z).
      { assert (L : length (x_surfs x) = facets_of s).
        { apply (f_equal (@length _)) in Eids. rewrite map_length in Eids. unfold range in Eids. now rewrite map_length, seq_length in Eids. }
        destruct (nth_error (x_surfs x) (k - 1)) as [y|] eqn:Ey; [|apply nth_error_None in Ey; lia].
        assert (F : exists f, nth_error (swapped s fs) (k - 1) = Some f /\ denotes y f).
        { clear - Fd Ey. set (j := k - 1) in *. clearbody j.
          assert (H : forall (l : list surface) (l' : list GeomSpec.sense), Forall2 denotes l l' -> forall j, nth_error l j = Some y -> exists f, nth_error l' j = Some f /\ denotes y f).
          { induction 1 as [|a b l l' D F IH]; intros [|j'] E; try discriminate; cbn [nth_error] in *; [injection E as ->; eauto|auto]. }
          exact (H _ _ Fd j Ey). }
        destruct F as (f & Ef & Df). exists y, f. split; [reflexivity|]. split; [|split; [exact Df|]].
        - rewrite <- Ef. unfold swapped. destruct (s_type s) eqn:Ty; try reflexivity. rewrite (KR eq_refl). destruct fs as [|? [|? [|? [|? ?]]]]; reflexivity.
        - assert (J : nth_error (map s_id (x_surfs x)) (k - 1) = Some (s_id y)) by now apply map_nth_error.
          rewrite Eids in J. unfold range in J. rewrite (nth_error_nth' _ 0%Z) in J by (rewrite map_length, seq_length; lia).
          injection J as <-. rewrite (nth_indep _ 0%Z (ct + Z.of_nat 0)%Z) by (rewrite map_length, seq_length; lia).
          rewrite (map_nth (fun q => (ct + Z.of_nat q)%Z)). rewrite seq_nth by lia. lia. }
      destruct Y as (y & f & Ey & Ef & (sn & E & Ss) & Iy). destruct (R3 _ _ Ef) as (b & Sd & E1 & E2).
      replace (S (k - 1)) with k in * by lia.
      pose proof (Hnew s ct x y sn Ict Ex (nth_error_In _ _ Ey) E) as Sd'. apply (side_same _ _ _ _ Ss) in Sd as Sd1.
      assert (b = sense (s_id y)) by (eapply side_det; eauto). rewrite Iy in *.
      unfold env'. rewrite env_signed by lia. destruct sg; congruence.
    - (* a complement *)
      rewrite MO.
      + rewrite (ra_hash _ _ _ _ Ra d q Id). reflexivity.
      + intros s ct I. destruct (counters_ids _ _ _ _ I) as (A & _ & _). apply names_nohash. pose proof (g_pos _ _ G s A). lia.
  Qed.
End Words.
