(** What can be said, from the cards of a file, of the texts and numbers that are in the deck in memory: numbers of surfaces
    and materials, names, densities, coefficients that are printed with six digits (csg2csg/MCNPInput.py 306-383, 884-956). *)
From Coq Require Import QArith Reals Lra Lia.
From Verif Require Import PyStr PyStrFacts PyInt PyIntFacts PyDict FortranNumber RegionSpec LexSpec CellModel CellProofs CellText CellWritersProofs CellWritersOut
  SurfModel GeomSpec SurfSpec SurfWritersProofs SurfTargets FlattenModel FlattenProofs MacroModel MacroText FlattenDeck NotsModel BoundaryModel MaterialModel
  MaterialProofs PropMaterial PropMaterialOut KeywordModel DeckScan FileModel FileProofs PropKeyword PropDeck ProcessModel PropProcess PropRead ConvertModel
  MainModel PropPlace PropMain PropCards.
From Verif Require Import PropProgram.
Open Scope nat_scope.
Open Scope list_scope.

(** ** The stages of reading *)

Lemma load_stages str show fuel quick s p d : read_file fuel s = Some p -> load str show fuel quick s = Done d ->
  exists imps o pls cs, process fuel (in_of quick p imps) = Done o /\
    reorganise_materials show (f_mats p) (map (fun x => mkC (MInt (c_mat (fst x))) (c_dens (fst x))) (f_cells p)) = Some (d_mats d, cs) /\
    d_surfs d = map (fun s => (s, cone_box s (o_bounds o))) (o_surfs o) /\
    d_cells d = gcells str show (o_cells o) (map snd (f_cells p)) pls cs.
Proof.
  intros R. unfold load, in_memory. rewrite R. destruct (process_importances (f_imps p)) as [imps|]; [|discriminate].
  destruct (process fuel _) as [o| |] eqn:EP; try discriminate.
  destruct (mapM (universe_placing (f_trans p)) (map snd (f_cells p))) as [ps|]; [|discriminate].
  destruct (reorganise_materials show (f_mats p) _) as [[ms cs]|] eqn:ER; [|discriminate]. intro E. injection E as <-.
  exists imps, o, ps, cs. cbn [ConvertModel.d_surfs ConvertModel.d_cells ConvertModel.d_mats]. auto.
Qed.

(** ** The numbers of surfaces *)

Lemma explode_ids n s x : explode_macrobody n s = Some x -> Forall (fun t => (n < s_id t <= n + Z.of_nat (length (x_surfs x)))%Z) (x_surfs x) /\ length (x_surfs x) <= 6.
Proof.
  assert (G : forall k y, good_x n k y -> k <= 6 -> Forall (fun t => (n < s_id t <= n + Z.of_nat (length (x_surfs y)))%Z) (x_surfs y) /\ length (x_surfs y) <= 6).
  { intros k y (E & _) LK. assert (L : length (x_surfs y) = k) by (rewrite <- (map_length s_id); unfold ids_of in E; now rewrite E, map_length, seq_length).
    split; [|lia]. apply Forall_forall. intros t I. apply (in_map s_id) in I. unfold ids_of in E. rewrite E in I. apply in_map_iff in I as (i & <- & I). apply in_seq in I. lia. }
  unfold explode_macrobody. intro E. destruct (s_type s); try (injection E as <-; cbn [x_surfs length]; split; [constructor|lia]).
  all: revert E; generalize (s_coef s); intros l E;
      repeat (match type of E with match ?l with _ => _ end = _ => destruct l as [|? ?] end; try discriminate E);
      injection E as <-.
  all: first [apply (G 6); [first [apply good_rpp|apply good_box]|lia]|apply (G 3); [apply good_rcc|lia]].
Qed.

Lemma loop_ids l : forall d d', flatten_loop l d = Some d' -> Forall (fun s => (s_id s <= d_last d)%Z) (FlattenModel.d_surfs d) ->
  Forall (fun s => (s_id s <= d_last d')%Z) (FlattenModel.d_surfs d') /\ (d_last d <= d_last d' <= d_last d + 6 * Z.of_nat (length l))%Z.
Proof.
  induction l as [|s l IH]; intros d d' E F; cbn [flatten_loop] in E; [injection E as <-; split; [exact F|cbn [length]; lia]|].
  destruct (flatten_one d s) as [d1|] eqn:O; [|discriminate].
  assert (Q : Forall (fun s => (s_id s <= d_last d1)%Z) (FlattenModel.d_surfs d1) /\ (d_last d <= d_last d1 <= d_last d + 6)%Z).
  { unfold flatten_one in O. destruct (is_macrobody s); [|injection O as <-; split; [exact F|lia]].
    destruct (explode_macrobody _ s) as [x|] eqn:EX; [|discriminate]. destruct (mapM _ _) as [cs|]; [|discriminate]. injection O as <-.
    cbn [FlattenModel.d_surfs d_last]. destruct (explode_ids _ _ _ EX) as [FX LX].
    assert (LI : length (inherit s (x_surfs x)) = length (x_surfs x)) by (unfold inherit; destruct (s_tr s); [apply map_length|reflexivity]). rewrite LI.
    split; [|lia]. apply Forall_app. split; [apply (Forall_impl _) with (2 := F); intros; lia|].
    rewrite Forall_forall in FX. apply Forall_forall. intros t I. unfold inherit in I. destruct (s_tr s); [|specialize (FX _ I); lia].
    apply in_map_iff in I as (u & <- & I). specialize (FX _ I). cbn [s_id]. lia. }
  destruct Q as [Q1 Q2]. destruct (IH d1 d' E Q1) as [H1 H2]. split; [exact H1|]. cbn [length]. lia.
Qed.

Lemma last_index_bound l b : (0 <= b)%Z -> Forall (fun s => (s_id s <= b)%Z) l -> Forall (fun s => (s_id s <= last_index l)%Z) l /\ (last_index l <= b)%Z.
Proof.
  unfold last_index. intros B F.
  assert (G : forall l m, (m <= b)%Z -> Forall (fun s => (s_id s <= b)%Z) l ->
    let r := fold_left (fun m s => if (m <? s_id s)%Z then s_id s else m) l m in (m <= r <= b)%Z /\ Forall (fun s => (s_id s <= r)%Z) l).
  { clear. induction l as [|s l IH]; intros m M F; cbn [fold_left]; [split; [lia|constructor]|]. inversion F as [|? ? H F']; subst. cbv zeta in *.
    destruct (Z.ltb_spec m (s_id s)) as [L|L].
    - destruct (IH (s_id s) H F') as [H1 H2]. split; [lia|]. constructor; [lia|exact H2].
    - destruct (IH m M F') as [H1 H2]. split; [lia|]. constructor; [lia|exact H2]. }
  destruct (G l 0%Z B F) as [H1 H2]. split; [exact H2|lia].
Qed.

Lemma transform_id cards s t : apply_transform cards s = Some t -> s_id t = s_id s.
Proof.
  assert (G : forall s g, SurfModel.generalise s = Some g -> s_id g = s_id s).
  { clear. intros s g. unfold SurfModel.generalise. destruct (s_type s) eqn:TS, (s_coef s) as [|? [|? [|? [|? [|? [|? [|? [|? [|? [|? ?]]]]]]]]]]; try discriminate;
      intro E; injection E as <-; reflexivity. }
  unfold apply_transform. destruct (s_tr s) as [id|]; [|intro E; now injection E as <-]. destruct (is_macrobody s); [intro E; now injection E as <-|].
  destruct (SurfModel.generalise s) as [g|] eqn:EG; [|discriminate]. apply G in EG. rewrite <- EG. clear s EG G.
  destruct (cards id) as [tr|]; [|intro E; now injection E as <-]. destruct (transform g tr) as [m|] eqn:TR; [|discriminate].
  assert (M : s_id m = s_id g).
  { unfold transform in TR. destruct (s_tr g); [|now injection TR as <-].
    destruct (s_coef g) as [|? [|? [|? [|? [|? [|? [|? [|? [|? [|? ?]]]]]]]]]]; try discriminate TR.
    destruct (t_shift tr) as [[? ?] ?], (t_v1 tr) as [[? ?] ?], (t_v2 tr) as [[? ?] ?], (t_v3 tr) as [[? ?] ?]. now injection TR as <-. }
  rewrite <- M. clear. unfold simplify. destruct (s_type m); try (intro E; now injection E as <-).
  destruct (forallb _ (firstn 5 _)); [|destruct (forallb _ (firstn 7 _)); [|intro E; now injection E as <-]].
  - destruct (s_coef m) as [|? [|? [|? [|? [|? [|? [|? [|? [|? [|? ?]]]]]]]]]]; try discriminate. intro E. now injection E as <-.
  - destruct (s_coef m) as [|? [|? [|? [|? [|? [|? [|? [|? [|? [|? ?]]]]]]]]]]; try discriminate. intro E. now injection E as <-.
Qed.

(** No surface has a number above the largest of the file by more than six for each surface of the file. *)
Lemma load_ids str show fuel quick s p d b : read_file fuel s = Some p -> load str show fuel quick s = Done d ->
  (0 <= b)%Z -> Forall (fun x => (s_id x <= b)%Z) (f_surfs p) -> forall x, In x (d_surfs d) -> (s_id (fst x) <= b + 6 * Z.of_nat (length (f_surfs p)))%Z.
Proof.
  intros R L B F. destruct (load_stages _ _ _ _ _ _ _ R L) as (imps & o & pls & cs & EP & _ & ES & _). intros x I. rewrite ES in I. apply in_map_iff in I as (y & <- & I). cbn [fst].
  revert y I. apply Forall_forall. apply (process_after (fun y => (s_id y <= b + 6 * Z.of_nat (length (f_surfs p)))%Z) fuel (in_of quick p imps)); [| | |exact EP].
  - cbn [in_of i_surfs i_cells]. intros d0 FL. unfold flatten_macrobodies in FL. cbn [FlattenModel.d_surfs] in FL. destruct (flatten_loop _ _) as [d'|] eqn:FLL; [|discriminate].
    injection FL as <-. cbn [FlattenModel.d_surfs]. destruct (last_index_bound _ _ B F) as [H1 H2]. destruct (loop_ids _ _ _ FLL) as [H3 H4]; [exact H1|].
    cbn [FlattenModel.d_surfs d_last] in H4. apply Forall_forall. intros y I. apply filter_In in I as [I _]. rewrite Forall_forall in H3. specialize (H3 y I). cbv beta in H3. lia.
  - intros cards y t E H. now rewrite (transform_id _ _ _ E).
  - intros y H. exact H.
Qed.

(** ** Cones and tori are never moved *)

Definition few_digits (s : surface) : Prop := fixed_point (s_type s) = true -> length (s_coef s) <= 6 /\ Forall fine6 (s_coef s).
Lemma few_new n s x t : explode_macrobody n s = Some x -> In t (inherit s (x_surfs x)) -> few_digits t.
Proof.
  assert (K : explode_macrobody n s = Some x -> Forall (fun t => fixed_point (s_type t) = false) (x_surfs x)).
  { unfold explode_macrobody. generalize (s_coef s). intros l E. destruct (s_type s); try (injection E as <-; constructor);
      repeat (match type of E with match ?l with _ => _ end = _ => destruct l as [|? ?] end; try discriminate E);
      injection E as <-; cbn [x_surfs]; repeat (constructor; [reflexivity|]); constructor. }
  intros E I. specialize (K E). rewrite Forall_forall in K. unfold few_digits, inherit in *. destruct (s_tr s); [apply in_map_iff in I as (u & <- & I); cbn [s_type]|]; now rewrite (K _ I).
Qed.
Lemma few_moved cards s t : apply_transform cards s = Some t -> few_digits s -> few_digits t.
Proof.
  intros E F. unfold apply_transform in E. destruct (s_tr s) as [id|]; [|now injection E as <-]. destruct (is_macrobody s); [now injection E as <-|].
  assert (G : forall g, SurfModel.generalise s = Some g -> few_digits g).
  { clear - F. intros g. unfold SurfModel.generalise. destruct (s_type s) eqn:TS, (s_coef s) as [|? [|? [|? [|? [|? [|? [|? [|? [|? [|? ?]]]]]]]]]] eqn:CS; try discriminate;
      intro E; injection E as <-; first [exact F|unfold few_digits; cbn; discriminate]. }
  destruct (SurfModel.generalise s) as [g|]; [|discriminate]. specialize (G g eq_refl).
  destruct (cards id) as [tr|]; [|now injection E as <-]. destruct (transform g tr) as [m|] eqn:TR; [|discriminate].
  assert (M : few_digits m).
  { clear - TR G. unfold transform in TR. destruct (s_tr g); [|now injection TR as <-].
    destruct (s_coef g) as [|? [|? [|? [|? [|? [|? [|? [|? [|? [|? ?]]]]]]]]]] eqn:CG; try discriminate TR.
    destruct (t_shift tr) as [[? ?] ?], (t_v1 tr) as [[? ?] ?], (t_v2 tr) as [[? ?] ?], (t_v3 tr) as [[? ?] ?]. injection TR as <-.
    intro H. exfalso. cbn [set_tc s_type] in H. destruct (G H) as [L _]. rewrite CG in L. cbn [length] in L. lia. }
  clear - M E. unfold simplify in E. destruct (s_type m) eqn:TM; try (now injection E as <-).
  destruct (forallb _ (firstn 5 _)); [|destruct (forallb _ (firstn 7 _)); [|now injection E as <-]].
  - destruct (s_coef m) as [|? [|? [|? [|? [|? [|? [|? [|? [|? [|? ?]]]]]]]]]]; try discriminate. injection E as <-. intro H. discriminate.
  - destruct (s_coef m) as [|? [|? [|? [|? [|? [|? [|? [|? [|? [|? ?]]]]]]]]]]; try discriminate. injection E as <-. intro H. discriminate.
Qed.

(** The cards of cones and tori have numbers of at most six digits behind the point. *)
Definition six_digits (ss : list (card * surf_says)) : Prop :=
  Forall (fun x => forall m vals, spells (card_words (fst x)) (ss_tr (snd x)) m vals ->
    In m ["k/x"; "k/y"; "k/z"; "kx"; "ky"; "kz"; "tx"; "ty"; "tz"]%string -> Forall fine6 vals) ss.
Lemma cards_few ss fs : says_surfs ss -> six_digits ss ->
  Forall2 (fun x y => surf_got (snd x) y /\ read_surface (PropDeck.card_text (fst x)) = Some y) ss fs -> Forall few_digits fs.
Proof.
  intros SS SD FS. unfold says_surfs in SS. unfold six_digits in SD. rewrite Forall_forall in SS, SD. apply Forall_forall. intros y I.
  destruct (forall2_pick _ _ _ _ FS I) as (x & IX & SG & RS). destruct (SS x IX) as [GC SY].
  destruct (got_stored x y GC SY SG RS) as (m & vals & SP & [H|ST]).
  - unfold is_macrobody, few_digits in *. destruct (s_type y); discriminate.
  - intro FP. assert (Z0 : fine6 0) by (exists 0%Z; lra).
    assert (V : In m ["k/x"; "k/y"; "k/z"; "kx"; "ky"; "kz"; "tx"; "ty"; "tz"]%string -> Forall fine6 vals) by (now apply (SD x IX)).
    revert V FP. destruct ST; intros V FP; try discriminate FP;
      (match type of V with In ?n _ -> _ => assert (V' : Forall fine6 _) by (apply V; cbn [In]; tauto) end);
      repeat (match goal with H : Forall _ (_ :: _) |- _ => inversion H; subst; clear H end); (split; [cbn [length]; lia|]); repeat (constructor; [assumption|]); constructor.
Qed.

(** ** The materials *)

Lemma free_bound fuel : forall i ks t, (0 < i)%Z -> free_from fuel i ks = Some t -> exists n, (0 < n < i + Z.of_nat fuel)%Z /\ t = str_Z n.
Proof.
  induction fuel as [|fuel IH]; cbn [free_from]; intros i ks t P E; [discriminate|]. destruct (existsb _ ks); [|injection E as <-; exists i; split; [lia|reflexivity]].
  destruct (IH (i + 1)%Z ks t) as (n & B & ->); [lia|exact E|]. exists n. split; [lia|reflexivity].
Qed.
Lemma length_dset {V} k (v : V) d : length (dset k v d) <= S (length d).
Proof. induction d as [|[k' v'] d IH]; cbn [dset length]; [lia|]. destruct (text_eqb k' k); cbn [length]; lia. Qed.

Section Materials.
Context (show : Q -> text) (D : Q -> Prop) (bound : Z) (P : text -> material -> Prop).
Context (PD : forall k m d, P k m -> D d -> P k (with_dens m d)).
Context (PC : forall k m d z n, P k m -> D d -> (0 < n <= bound)%Z ->
  P (str_Z n) (mkM (str_Z n) (T "Copy of Material " ++ str_Z z ++ T " with density " ++ show d) d (m_comp m) (m_xs m) (m_colour m))).
Context (PF : forall k m m', P k m -> finish_material m = Some m' -> P k m').

Lemma copies_texts mat ds : forall ms cs ms' cs', copies show mat ds ms cs = Some (ms', cs') ->
  Forall D ds -> (Z.of_nat (length ms + length ds) < bound)%Z -> (forall k a, In (k, a) ms -> P k a) ->
  (forall k a, In (k, a) ms' -> P k a) /\ length ms' <= length ms + length ds.
Proof.
  induction ds as [|d ds IH]; cbn [copies]; intros ms cs ms' cs' E FD B F; [injection E as <- <-; split; [exact F|lia]|].
  destruct (dget (str_Z mat) ms) as [m|] eqn:EM; [|discriminate]. destruct (next_free_int (keys ms)) as [n|] eqn:EN; [|discriminate].
  inversion FD as [|? ? Dd FD']; subst. unfold next_free_int in EN. destruct (free_bound _ _ _ _ Z.lt_0_1 EN) as (z & BZ & ->). unfold keys in BZ. rewrite map_length in BZ.
  cbn [length] in B. set (c := mkM (str_Z z) _ d (m_comp m) (m_xs m) (m_colour m)) in *. assert (LD := length_dset (str_Z z) c ms).
  apply IH in E as [E1 E2]; [split; [exact E1|cbn [length]; lia]|exact FD'|lia|].
  intros k a I. apply in_dset in I as [[-> ->]|I]; [|now apply F]. apply (PC (str_Z mat)); [apply F; now apply dget_some_in|exact Dd|lia].
Qed.

Definition all_densities (l : list (Z * list Q)) : list Q := flat_map snd l.

Lemma split_texts l : forall ms cs ms' cs', split_materials show l ms cs = Some (ms', cs') ->
  Forall D (all_densities l) -> (Z.of_nat (length ms + length (all_densities l)) < bound)%Z -> (forall k a, In (k, a) ms -> P k a) ->
  (forall k a, In (k, a) ms' -> P k a).
Proof.
  induction l as [|[mat [|d ds]] l IH]; cbn [split_materials]; intros ms cs ms' cs' E FD B F; [injection E as <- <-; exact F|discriminate|].
  unfold set_density in E. destruct (dget (str_Z mat) ms) as [m|] eqn:EM; [|discriminate]. unfold all_densities in *. cbn [flat_map snd app] in FD, B.
  inversion FD as [|? ? Dd FD']; subst. apply Forall_app in FD' as [FD1 FD2]. cbn [length] in B. rewrite app_length in B.
  destruct (copies show mat ds (dset (str_Z mat) (with_dens m d) ms) cs) as [[ms2 cs2]|] eqn:EC; [|discriminate].
  assert (LD := length_dset (str_Z mat) (with_dens m d) ms).
  apply copies_texts in EC as [F2 L2]; [|exact FD1|lia|]; [apply (IH _ _ _ _ E); [exact FD2|lia|exact F2]|].
  intros k a I. apply in_dset in I as [[-> ->]|I]; [|now apply F]. apply PD; [apply F; now apply dget_some_in|exact Dd].
Qed.

Lemma finish_texts ms : forall ms', finish_all ms = Some ms' -> (forall k a, In (k, a) ms -> P k a) -> forall k a, In (k, a) ms' -> P k a.
Proof.
  induction ms as [|[k m] ms IH]; cbn [finish_all]; intros ms' E N k' a' I; [injection E as <-; destruct I|].
  destruct (finish_material m) as [m'|] eqn:EM; [|discriminate]. destruct (finish_all ms) as [r|]; [|discriminate]. injection E as <-.
  destruct I as [I|I]; [|apply (IH r eq_refl); [intros; apply N; now right|exact I]]. injection I as <- <-. apply (PF k m); [apply N; now left|exact EM].
Qed.

Lemma add_density_all z d l : length (all_densities (add_density z d l)) <= S (length (all_densities l)) /\
  forall q, In q (all_densities (add_density z d l)) -> q = d \/ In q (all_densities l).
Proof.
  induction l as [|[m ds] l [IH1 IH2]]; cbn [add_density]; [cbn; split; [lia|intros q [<-|[]]; now left]|].
  unfold all_densities in *. destruct (m =? z)%Z; cbn [flat_map snd]; rewrite !app_length.
  - destruct (existsb (Qeq_bool d) ds); [split; [lia|auto]|]. rewrite app_length. cbn [length]. split; [lia|]. intros q I.
    rewrite !in_app_iff in *. cbn [In] in I. intuition.
  - split; [lia|]. intros q I. rewrite !in_app_iff in *. destruct I as [I|I]; [auto|]. destruct (IH2 q I); auto.
Qed.
Lemma densities_texts cs : length (all_densities (densities cs)) <= length cs /\ forall q, In q (all_densities (densities cs)) -> exists c, In c cs /\ k_dens c = q.
Proof.
  unfold densities.
  assert (G : forall cs acc, let r := fold_left (fun l c => match k_mat c with MInt z => add_density z (k_dens c) l | MStr _ => l end) cs acc in
    length (all_densities r) <= length (all_densities acc) + length cs /\ forall q, In q (all_densities r) -> In q (all_densities acc) \/ exists c, In c cs /\ k_dens c = q).
  { clear. induction cs as [|c cs IH]; intros acc; cbn [fold_left length]; cbv zeta in *; [split; [lia|auto]|]. destruct (k_mat c) as [z|t].
    - destruct (IH (add_density z (k_dens c) acc)) as [H1 H2]. destruct (add_density_all z (k_dens c) acc) as [A1 A2]. split; [lia|].
      intros q I. destruct (H2 q I) as [H|(c' & I' & E)]; [|right; exists c'; split; [now right|exact E]]. destruct (A2 q H) as [-> |H']; [|now left]. right. exists c. split; [now left|reflexivity].
    - destruct (IH acc) as [H1 H2]. split; [lia|]. intros q I. destruct (H2 q I) as [H|(c' & I' & E)]; [now left|right; exists c'; split; [now right|exact E]]. }
  destruct (G cs []) as [H1 H2]. split; [cbn [length all_densities flat_map plus] in H1; exact H1|]. intros q I. destruct (H2 q I) as [[]|H]. exact H.
Qed.
Lemma insert_all e l : length (all_densities (insert_mat e l)) = length (all_densities (e :: l)) /\ forall q, In q (all_densities (insert_mat e l)) -> In q (all_densities (e :: l)).
Proof.
  unfold all_densities. induction l as [|e' l [IH1 IH2]]; cbn [insert_mat]; [auto|]. destruct (fst e <=? fst e')%Z; [auto|]. cbn [flat_map] in *. rewrite !app_length in *.
  split; [lia|]. intros q I. rewrite !in_app_iff in *. destruct I as [I|I]; [auto|]. specialize (IH2 q I). rewrite in_app_iff in IH2. tauto.
Qed.
Lemma sort_all l : length (all_densities (sort_mats l)) = length (all_densities l) /\ forall q, In q (all_densities (sort_mats l)) -> In q (all_densities l).
Proof.
  unfold sort_mats. induction l as [|e l [IH1 IH2]]; cbn [fold_right]; [auto|]. destruct (insert_all e (fold_right insert_mat [] l)) as [H1 H2]. unfold all_densities in *.
  cbn [flat_map] in *. rewrite !app_length in *. split; [lia|]. intros q I. apply H2 in I. rewrite !in_app_iff in *. destruct I as [I|I]; auto.
Qed.
Lemma filter_all f l : length (all_densities (filter f l)) <= length (all_densities l) /\ forall q, In q (all_densities (filter f l)) -> In q (all_densities l).
Proof.
  unfold all_densities. induction l as [|e l [IH1 IH2]]; cbn [filter]; [auto|]. destruct (f e); cbn [flat_map]; rewrite !app_length; (split; [lia|]); intros q I; rewrite !in_app_iff in *; [destruct I as [I|I]|]; auto.
Qed.

(** A material number that was used for a cell has one of the densities of the cells. *)
Lemma reorganised_texts ms cs ms' cs' : reorganise_materials show ms cs = Some (ms', cs') ->
  (forall c z, In c cs -> k_mat c = MInt z -> z <> 0%Z -> D (k_dens c)) -> (forall c, In c cs -> exists z, k_mat c = MInt z) ->
  (Z.of_nat (length ms + length cs) < bound)%Z -> (forall k a, In (k, a) ms -> P k a) -> forall k a, In (k, a) ms' -> P k a.
Proof.
  unfold reorganise_materials. cbv zeta. intros E FD FI B F. destruct (filter _ (densities cs)) as [|e l] eqn:EF; [injection E as <- <-; exact F|].
  destruct (split_materials show (sort_mats (e :: l)) ms cs) as [[ms1 cs1]|] eqn:ES; [|discriminate].
  destruct (finish_all ms1) as [ms2|] eqn:EA; [|discriminate]. injection E as <- <-. apply (finish_texts _ _ EA). apply (split_texts _ _ _ _ _ ES); [| |exact F].
  - apply Forall_forall. intros q I. apply (proj2 (sort_all _)) in I. rewrite <- EF in I.
    assert (G : exists z, z <> 0%Z /\ exists ds, In (z, ds) (densities cs) /\ In q ds).
    { unfold all_densities in I. apply in_flat_map in I as ([z ds] & I & IQ). apply filter_In in I as [I NZ]. cbn [fst snd] in *. exists z. split; [|now exists ds].
      apply negb_true_iff, Z.eqb_neq in NZ. exact NZ. }
    destruct G as (z & NZ & ds & I1 & I2).
    assert (K : forall cs acc z ds q, In (z, ds) (fold_left (fun l c => match k_mat c with MInt z => add_density z (k_dens c) l | MStr _ => l end) cs acc) -> In q ds ->
      (exists ds', In (z, ds') acc /\ In q ds') \/ exists c, In c cs /\ k_mat c = MInt z /\ k_dens c = q).
    { clear. induction cs as [|c cs IH]; intros acc z ds q I1 I2; cbn [fold_left] in I1; [left; eauto|]. destruct (IH _ _ _ _ I1 I2) as [(ds' & J1 & J2)|(c' & J & H)]; [|right; exists c'; split; [now right|exact H]].
      destruct (k_mat c) as [y|t] eqn:EC; [|left; eauto].
      assert (A : forall l, In (z, ds') (add_density y (k_dens c) l) -> (exists d2, In (z, d2) l /\ In q d2) \/ (z = y /\ q = k_dens c)).
      { clear - J2. induction l as [|[m dl] l IH]; cbn [add_density]; [intros [E|[]]; injection E as <- <-; right; split; [reflexivity|]; destruct J2 as [<-|[]]; reflexivity|].
        destruct (Z.eqb_spec m y) as [->|N].
        - intros [E|I]; [|left; exists ds'; split; [now right|exact J2]]. injection E as <- <-. destruct (existsb (Qeq_bool (k_dens c)) dl); [left; exists dl; split; [now left|exact J2]|].
          apply in_app_iff in J2 as [J2|[<-|[]]]; [left; exists dl; split; [now left|exact J2]|now right].
        - intros [E|I]; [injection E as <- <-; left; exists dl; split; [now left|exact J2]|]. destruct (IH I) as [(d2 & K1 & K2)|K]; [left; exists d2; split; [now right|exact K2]|now right]. }
      destruct (A acc J1) as [H|[-> ->]]; [left; exact H|]. right. exists c. split; [now left|]. auto. }
    destruct (K cs [] z ds q I1 I2) as [(ds' & [] & _)|(c & IC & EC & <-)]. now apply (FD c z).
  - rewrite (proj1 (sort_all _)), <- EF. pose proof (proj1 (filter_all (fun e => negb (fst e =? 0)%Z) (densities cs))) as H. pose proof (proj1 (densities_texts cs)) as H'. lia.
Qed.
End Materials.

(** A material as it is read. *)
Lemma read_file_fresh f s p : read_file f s = Some p -> forall k a, In (k, a) (f_mats p) -> m_name a = "M"%char :: k /\ m_dens a = 0%Q /\ m_colour a = None.
Proof.
  unfold read_file. destruct (split_file s) as [q|]; [|discriminate]. destruct (mapM (read_cell_card f) (p_cells q)); [|discriminate].
  destruct (mapM read_surface (p_surfs q)); [|discriminate]. destruct (transform_list (p_trans q) []); [|discriminate].
  destruct (add_materials [] (p_mats q)) as [ms|] eqn:E; [|discriminate]. injection 1 as <-. cbn [f_mats].
  assert (G : forall cards ms ms', add_materials ms cards = Some ms' -> (forall k a, In (k, a) ms -> m_name a = "M"%char :: k /\ m_dens a = 0%Q /\ m_colour a = None) ->
    forall k a, In (k, a) ms' -> m_name a = "M"%char :: k /\ m_dens a = 0%Q /\ m_colour a = None).
  { clear. induction cards as [|[n t] cards IH]; cbn [add_materials]; intros ms ms' E N; [injection E as <-; exact N|].
    destruct (add_material ms n t) as [ms1|] eqn:EA; [|discriminate]. apply (IH _ _ E). unfold add_material in EA. unfold read_mcnp_material in EA.
    destruct (mcnp_composition t) as [[c x]|]; [|discriminate]. cbn [m_dens m_num] in EA. change (negb (Qle_bool 0 0)) with false in EA. cbv iota in EA. injection EA as <-.
    intros k a I. apply in_dset in I as [[-> ->]|I]; [cbn [m_name m_dens m_colour m_num]; auto|now apply N]. }
  apply (G _ _ _ E). intros k a [].
Qed.

(** ** Lengths of numbers *)

Lemma dec_length fuel : forall n k, (n < 10 ^ N.of_nat (S k))%N -> length (dec_digits fuel n) <= S k.
Proof.
  induction fuel as [|fuel IH]; intros n k B; cbn [dec_digits]; [cbn [length]; lia|]. destruct (N.ltb_spec n 10) as [L|L]; [cbn [length]; lia|].
  rewrite app_length. cbn [length]. destruct k as [|k]; [change (10 ^ N.of_nat 1)%N with 10%N in B; lia|].
  assert (H : (n / 10 < 10 ^ N.of_nat (S k))%N). { apply N.div_lt_upper_bound; [lia|]. rewrite <- N.pow_succ_r'. rewrite <- Nat2N.inj_succ. exact B. }
  specialize (IH (n / 10)%N k H). lia.
Qed.
Lemma str_length k z : (Z.abs z < 10 ^ Z.of_nat (S k))%Z -> length (str_Z z) <= S (S k).
Proof.
  intro B. assert (H : (Z.abs_N z < 10 ^ N.of_nat (S k))%N).
  { apply N2Z.inj_lt. rewrite N2Z.inj_abs_N, N2Z.inj_pow. change (Z.of_N 10) with 10%Z. rewrite nat_N_Z. exact B. }
  unfold str_Z, str_N. destruct (Z.ltb_spec z 0) as [L|L]; [cbn [length]; apply le_n_S|apply Nat.le_trans with (S k); [|lia]]; apply dec_length.
  - rewrite <- Zabs2N.abs_N_nonneg by lia. now rewrite Zabs2N.inj_opp.
  - rewrite <- Zabs2N.abs_N_nonneg by lia. exact H.
Qed.
Lemma str_zaid z : (0 <= z)%Z -> zaid (str_Z z).
Proof.
  intro P. destruct (str_Z_shape z) as (d & N & D & [E|E]); rewrite E; [now split|]. exfalso. unfold str_Z in E. destruct (Z.ltb_spec z 0); [lia|].
  destruct (str_N_ok (Z.to_N z)) as (_ & F & _). rewrite E in F. discriminate F.
Qed.

(** ** What is asked of the file so that its numbers fit the lines that are written *)

(** A density is printed so that it can be read with its value; so is an importance. *)
Definition density_shown (show : Q -> text) (q : Q) : Prop :=
  numeral (show q) /\ ~ In "+"%char (show q) /\ get_fortran_formatted_number (show q) <> None /\ exists v, py_float (show q) = Some v /\ (v == q)%Q.
Definition importance_shown (show : Q -> text) (q : Q) : Prop :=
  number (show q) /\ length (show q) <= 40 /\ exists v, py_float (show q) = Some v /\ (v == q)%Q.

Definition big : Z := (10 ^ 40)%Z.
Record printable (show : Q -> text) (cells : list cell_says) (ss : list (card * surf_says)) (ds : list data_says) : Prop := {
  pr_cells : forall c, In c cells -> (cs_id c < big)%Z;
  pr_surfs : forall s, In s ss -> (ss_id (snd s) + 6 * Z.of_nat (length ss) < big)%Z;
  pr_mats : (Z.of_nat (length (mats_of ds) + length cells) < big)%Z;
  pr_names : forall n, In n (map fst (mats_of ds)) -> length n <= 40;
  pr_dens : forall c m q, In c cells -> cs_mat c = Some (m, q) -> density_shown show q;
  pr_imps : forall k c q, nth_error cells k = Some c -> importance ds k c q -> importance_shown show q;
  pr_univ : forall c v, In c cells -> has_kw (KU v) (cs_keys c) -> length v <= 40;
  pr_fill : forall c star v tr, In c cells -> has_kw (KFill star v tr) (cs_keys c) ->
    length v <= 40 /\ match tr with Some (_, inner) => Forall numeral (words inner) | None => True end }.

Lemma big_length z : (Z.abs z < big)%Z -> length (str_Z z) <= 41.
Proof. apply (str_length 39). Qed.

Lemma says_entries cs c : says_cells cs -> In c (map snd cs) -> Forall good_entry (cs_keys c).
Proof.
  intros S I. apply in_map_iff in I as (x & <- & I). unfold says_cells in S. rewrite Forall_forall in S.
  destruct (S x I) as [_ (head & tail & wid & wm & geom & _ & _ & _ & GE & _)]. exact GE.
Qed.

(** The deck with what is known of its texts. *)
Record deck_prints (show : Q -> text) (cells : list cell_says) (ds : list data_says) (d : ConvertModel.deck) : Prop := {
  dp_ids : forall x, In x (d_surfs d) -> (s_id (fst x) < big)%Z;
  dp_keys : forall k a, In (k, a) (d_mats d) -> zaid k /\ length k <= 41 /\ ~ In newline (m_name a) /\ m_colour a = None /\
    (m_dens a = 0%Q \/ exists c m, In c cells /\ cs_mat c = Some (m, m_dens a)) }.

Lemma deck_printed str show quick s cells ss ds d N :
  describes s cells ss ds -> printable show cells ss ds ->
  (forall c m q, In c cells -> cs_mat c = Some (m, q) -> ~ In newline (show q)) ->
  (forall s, In s (map snd ss) -> (0 < ss_id s)%Z) ->
  (forall fuel, N <= fuel -> load str show fuel quick s = Done d) -> deck_prints show cells ds d /\ Forall (fun c => Forall good_entry (cs_keys c)) cells.
Proof.
  intros (title & noisy & cs & b1 & b2 & dd & H1 & H2 & H3 & H4 & H5 & H6 & H7 & SC & SS & SD & -> & ->) PR NL POS L.
  destruct (file_read s title noisy cs b1 ss b2 dd) as (p & R & _ & FC & FS & _ & _ & MG); auto.
  assert (LD : load str show (S N) quick s = Done d) by (apply L; lia).
  split; [|apply Forall_forall; intros c I; now apply (says_entries cs)].
  assert (LF := forall2_len _ _ _ FS).
  split.
  - intros x I. destruct ss as [|s0 ss'] eqn:ES.
    + (* no surfaces *)
      assert (E : f_surfs p = []) by (destruct (f_surfs p); [reflexivity|discriminate LF]).
      assert (H := load_ids str show (S N) quick s p d 0 (R N) LD (Z.le_refl 0)). rewrite E in H. specialize (H (Forall_nil _) x I). cbn [length] in H. unfold big. lia.
    + rewrite <- ES in *. assert (B : exists b, (0 <= b)%Z /\ (b + 6 * Z.of_nat (length ss) < big)%Z /\ Forall (fun y => (s_id y <= b)%Z) (f_surfs p)).
      { exists (big - 6 * Z.of_nat (length ss) - 1)%Z. assert (IS : In s0 ss) by (rewrite ES; now left). pose proof (pr_surfs _ _ _ _ PR s0 IS) as P0.
        assert (0 < ss_id (snd s0))%Z by (apply POS; now apply in_map). split; [lia|]. split; [lia|]. apply Forall_forall. intros y IY.
        destruct (forall2_pick _ _ _ _ FS IY) as (z & IZ & (EID & _) & _). rewrite EID. pose proof (pr_surfs _ _ _ _ PR z IZ). lia. }
      destruct B as (b & B0 & B1 & B2). pose proof (load_ids str show (S N) quick s p d b (R N) LD B0 B2 x I) as H. rewrite <- LF in H. lia.
  - destruct (load_stages _ _ _ _ _ _ _ (R N) LD) as (imps & o & pls & cs2 & _ & ER & _).
    set (D := fun q : Q => exists c m, In c (map snd cs) /\ cs_mat c = Some (m, q)).
    apply (reorganised_texts show D big (fun k a => zaid k /\ length k <= 41 /\ ~ In newline (m_name a) /\ m_colour a = None /\ (m_dens a = 0%Q \/ D (m_dens a)))) with (4 := ER).
    + intros k m q (A & B & C & E & _) DQ. cbn [with_dens m_name m_colour m_dens]. tauto.
    + intros k m q z n (A & B & C & E & _) DQ BN. cbn [m_name m_colour m_dens]. split; [apply str_zaid; lia|]. split; [|split; [|tauto]].
      * apply Nat.le_trans with 41; [|lia]. assert (n = big \/ (n < big))%Z as [-> |LT] by lia; [vm_compute; lia|apply big_length; lia].
      * assert (NZ : ~ In newline (str_Z z)) by (intro I; destruct (int_word_chars _ (int_word_str z) _ I) as [X|X]; discriminate).
        rewrite !in_app_iff. intros [I|[I|[I|I]]]; [revert I; vm_compute; intuition discriminate|tauto|revert I; vm_compute; intuition discriminate|].
        destruct DQ as (c & m0 & IC & EC). now apply (NL c m0 q IC EC).
    + intros k m m' H E. unfold finish_material in E. destruct (normalise (m_comp m)) as [c1|]; [|discriminate]. destruct (explode_elements c1 (m_xs m)) as [[? ?]|]; [|discriminate].
      injection E as <-. exact H.
    + intros c z IC EC NZ. apply in_map_iff in IC as (x & <- & IX). cbn [k_mat k_dens] in *. injection EC as <-.
      destruct (forall2_pick _ _ _ _ FC IX) as (y & IY & (_ & CM & _) & _). destruct (cs_mat (snd y)) as [[m q]|] eqn:EM; [|contradiction].
      destruct CM as [_ ->]. exists (snd y), m. split; [now apply in_map|exact EM].
    + intros c IC. apply in_map_iff in IC as (x & <- & IX). cbn [k_mat]. eauto.
    + rewrite map_length, <- (forall2_len _ _ _ FC). pose proof (pr_mats _ _ _ _ PR) as PM. rewrite map_length in PM.
      assert (LM : length (f_mats p) <= length (mats_of (map snd dd))).
      { destruct MG as [MG _]. rewrite <- (map_length fst (f_mats p)), <- (map_length fst (mats_of _)). apply NoDup_incl_length; [apply (read_file_mats _ _ _ (R 0))|].
        intros k I. now apply MG. }
      lia.
    + intros k a I. destruct (read_file_fresh _ _ _ (R 0) k a I) as (EN & ED & EC). rewrite EN, ED, EC.
      assert (IK : In k (map fst (mats_of (map snd dd)))) by (apply MG; unfold keys; apply in_map_iff; now exists (k, a)).
      assert (ZK : zaid k).
      { apply in_map_iff in IK as ([k' es] & <- & IK). cbn [fst]. unfold mats_of in IK. apply in_flat_map in IK as (x & IX & IK). destruct x; cbn [In] in IK; try contradiction.
        destruct IK as [E|[]]. injection E as <- <-. apply in_map_iff in IX as ([c x] & EX & IX). cbn [snd] in EX. subst x. destruct SD as [SD _]. rewrite Forall_forall in SD.
        destruct (SD _ IX) as [_ (rest & (_ & NE & DG & _) & _)]. now split. }
      split; [exact ZK|]. split; [pose proof (pr_names _ _ _ _ PR k IK); lia|]. split; [|auto].
      intros [Q|I']; [discriminate|]. destruct ZK as [_ ZK]. rewrite forallb_forall in ZK. specialize (ZK _ I'). discriminate.
Qed.

Lemma deck_few str show quick s cells ss ds d N : describes s cells ss ds -> six_digits ss ->
  (forall fuel, N <= fuel -> load str show fuel quick s = Done d) -> forall x, In x (d_surfs d) -> few_digits (fst x).
Proof.
  intros (title & noisy & cs & b1 & b2 & dd & H1 & H2 & H3 & H4 & H5 & H6 & H7 & SC & SS & SD & -> & ->) S6 L.
  destruct (file_read s title noisy cs b1 ss b2 dd) as (p & R & _ & FC & FS & _); auto.
  apply (load_surfaces str show few_digits (S N) quick s p d); [intros n x y t _; apply few_new|apply few_moved|intros y H; exact H|apply R|now apply (cards_few ss)|apply L; lia].
Qed.

(** Every cell can be written on the lines of the formats that have them. *)
Lemma cell_printed str show cells surfs ss ds d k c g : (forall x, numeral (str x)) -> deck_means str show cells surfs ds d -> deck_prints show cells ds d ->
  printable show cells ss ds -> (forall c, In c cells -> (0 < cs_id c)%Z) -> Forall (fun c => Forall good_entry (cs_keys c)) cells ->
  (forall c star v tr, In c cells -> has_kw (KFill star v tr) (cs_keys c) -> exists m, fill_means (trs_of ds) star tr m) ->
  nth_error cells k = Some c -> nth_error (d_cells d) k = Some g ->
  length (str_Z (g_id g)) <= 41 /\ length (str_Z (g_mat g)) <= 41 /\ forall r, expr (toks (g_items g)) r -> good_gcell show g r.
Proof.
  intros NS D DP PR POS GE GF HC HG. assert (M := dm_cells _ _ _ _ _ _ D k c g HC HG). assert (IC := nth_error_In _ _ HC).
  rewrite Forall_forall in GE. specialize (GE c IC).
  assert (L1 : length (str_Z (g_id g)) <= 41).
  { apply big_length. rewrite (cm_id _ _ _ _ _ _ _ _ _ M). pose proof (POS c IC). pose proof (pr_cells _ _ _ _ PR c IC). lia. }
  assert (L2 : length (str_Z (g_mat g)) <= 41 /\ (0 <= g_mat g)%Z).
  { destruct (cs_mat c) as [[m q]|] eqn:EM.
    - destruct (cm_mat _ _ _ _ _ _ _ _ _ M m q EM) as (_ & P & a & A & _). split; [|lia]. apply dget_some_in in A. now apply (dp_keys _ _ _ _ DP _ _ A).
    - rewrite (cm_void _ _ _ _ _ _ _ _ _ M EM). split; [vm_compute; lia|lia]. }
  destruct L2 as [L2 P2]. split; [exact L1|]. split; [exact L2|]. intros r EX.
  assert (KW : forall v tr, has_kw tr (cs_keys c) -> kvalue tr = v -> number v).
  { intros v tr H <-. apply in_map_iff in H as (e & <- & I). rewrite Forall_forall in GE. apply (GE e I). }
  assert (FILL : (exists star v tr m, has_kw (KFill star v tr) (cs_keys c) /\ g_fill g = Some v /\ motion_shown str g m) \/ (g_fill g = None /\ g_offset g = None /\ g_rot g = None)).
  { destruct (has_fill c) as [(st & v & t & H)|N]; [|right; now apply (cm_nofill _ _ _ _ _ _ _ _ _ M)]. left. destruct (GF c st v t IC H) as (m & FM).
    exists st, v, t, m. split; [exact H|]. exact (cm_fill _ _ _ _ _ _ _ _ _ M st v t m H FM). }
  assert (NW : forall w, In w (placing_words g) -> numeral w).
  { intros w I. destruct (cm_words _ _ _ _ _ _ _ _ _ M w I) as [(x & ->)|(st & v & sep & inner & H & IW)]; [apply NS|].
    destruct (pr_fill _ _ _ _ PR c st v _ IC H) as [_ F]. rewrite Forall_forall in F. now apply F. }
  assert (LN : forall l vs, Forall2 (PropMain.shows str) l vs -> length l = length vs) by (induction 1; cbn [length]; congruence).
  destruct (cm_laid _ _ _ _ _ _ _ _ _ M) as [[SP _] CN].
  unfold good_gcell. split; [lia|]. split; [lia|]. split; [exact P2|]. split.
  { intro NZ. destruct (cs_mat c) as [[m q]|] eqn:EM; [|now elim NZ; apply (cm_void _ _ _ _ _ _ _ _ _ M)].
    destruct (cm_mat _ _ _ _ _ _ _ _ _ M m q EM) as (-> & _). destruct (pr_dens _ _ _ _ PR c m q IC EM) as (A & B & C & _). auto. }
  split; [exact SP|]. split; [exact EX|]. split.
  { apply Forall_forall. intros w IW. unfold words_of in IW. apply in_flat_map in IW as (x & IX & IW). destruct x as [o0|s0]; [destruct IW|].
    destruct (is_word s0) eqn:EW; [|destruct IW]. destruct IW as [<-|[]]. destruct (CN s0 IX EW) as (z & E). subst s0. split; [apply int_word_str|].
    assert (IM : In (Z.abs z) (map (fun s => s_id (fst s)) (d_surfs d))).
    { apply (cm_surfs _ _ _ _ _ _ _ _ _ M). exists (str_Z z), z. split; [exact IX|]. split; [apply py_int_str_Z|reflexivity]. }
    apply in_map_iff in IM as (x & E & IM). pose proof (dp_ids _ _ _ _ DP x IM) as B. apply Nat.le_trans with 41; [apply big_length; lia|lia]. }
  split.
  { intros u E. destruct (has_univ c) as [(v & H)|N]; [|rewrite (cm_nouniv _ _ _ _ _ _ _ _ _ M N) in E; discriminate].
    rewrite (cm_univ _ _ _ _ _ _ _ _ _ M v H) in E. injection E as <-. split; [now apply (KW v (KU v))|now apply (pr_univ _ _ _ _ PR c v)]. }
  split.
  { intros f E. destruct FILL as [(st & v & tr & m & H & F & _)|(F & _)]; [|congruence]. rewrite F in E. injection E as <-.
    split; [now apply (KW v (KFill st v tr))|now apply (pr_fill _ _ _ _ PR c st v tr)]. }
  split.
  { intros o E. destruct FILL as [(st & v & tr & m & H & F & M1 & M2)|(_ & F & _)]; [|congruence]. rewrite E in M1. split; [exact (LN _ _ M1)|].
    apply Forall_forall. intros w I. apply NW. unfold placing_words. rewrite E. apply in_app_iff. now left. }
  split.
  { intros o E. destruct FILL as [(st & v & tr & m & H & F & M1 & M2)|(_ & _ & F)]; [|congruence]. rewrite E in M2. split; [exact (LN _ _ M2)|].
    apply Forall_forall. intros w I. apply NW. unfold placing_words. rewrite E. apply in_app_iff. now right. }
  exact (pr_imps _ _ _ _ PR k c _ HC (cm_imp _ _ _ _ _ _ _ _ _ M)).
Qed.

Lemma numeral_wordy w : numeral w -> wordy w.
Proof.
  intros N. destruct (numeral_facts w N) as (NE & _ & NSP & _ & _ & _ & _ & LO & _). split; [exact NE|]. split; [|exact LO]. destruct N as (_ & _ & F).
  unfold nonspace in NSP. rewrite forallb_forall in *. intros c I. rewrite (NSP c I). specialize (F c I). apply orb_true_iff in F as [F|F].
  - destruct c as [[][][][][][][][]]; try discriminate F; reflexivity.
  - apply existsb_exists in F as (d & J & E). apply Ascii.eqb_eq in E. subst d. cbn in J. destruct J as [<-|[<-|[<-|[<-|[]]]]]; reflexivity.
Qed.
Lemma numeral_newline w : numeral w -> ~ In newline w.
Proof. intro N. now destruct (numeral_facts w N) as (_ & _ & _ & _ & H & _). Qed.

Lemma nth_forall2 {A B} (P : A -> B -> Prop) l : forall l', length l = length l' -> (forall k a b, nth_error l k = Some a -> nth_error l' k = Some b -> P a b) -> Forall2 P l l'.
Proof.
  induction l as [|a l IH]; intros [|b l'] L H; try discriminate; constructor; [now apply (H 0)|]. apply IH; [now injection L|]. intros k x y H1 H2. now apply (H (S k)).
Qed.
