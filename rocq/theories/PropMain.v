(** C83: from the characters of an MCNP file to the deck that the writers are given (csg2csg/MCNPInput.py 1303-1378). *)
From Coq Require Import QArith Qabs Reals Lra Lia Psatz.
From Verif Require Import PyStr PyStrFacts PyInt PyIntFacts PyDict FortranNumber RegionSpec RegionFacts CellModel CellProofs CellText
  SurfModel GeomSpec SurfSpec SurfProofs PropSurf PropTransform FlattenModel FlattenProofs FlattenDeck NotsModel NamesModel BoundaryModel DedupeModel
  MaterialModel MaterialProofs PropMaterial PropReorg KeywordModel DeckScan FileModel PropKeyword PropDeck MacroModel MacroSpec MacroProofs MacroText
  ProcessModel ProcessSpec ProcessProofs PropProcess PropRead ConvertModel MainModel PropPlace.
From Verif Require CellWritersOut PropBoundary.
Open Scope nat_scope.
Open Scope list_scope.

(* ------------------------------------------------------------------ *)
(** * What a file means at a point *)

(** The point [p] in the coordinates in which a surface with transform [tr] is written. *)
Inductive placed (trs : list (text * motion)) : option text -> pt -> pt -> Prop :=
| pl_here p : placed trs None p p
| pl_moved id m p : last_for id trs m -> placed trs (Some id) p (to_aux m p).

(** At the point [p], which is on no surface and no facet, [env] gives the truth of every word of the file and [incell]
    tells the cells the point is in. *)
Record means_at (cells : list cell_says) (surfs : list surf_says) (trs : list (text * motion)) (p : pt) (env incell : text -> bool) : Prop := {
  (* a surface: n its positive side, -n its negative side *)
  ma_plain : forall s sn q, In s surfs -> ss_shape s = Plain sn -> placed trs (ss_tr s) p q ->
    exists b, side sn q b /\ env (sid (ss_id s)) = b /\ env (minus (sid (ss_id s))) = negb b;
  (* a macrobody: -n its inside, n its outside, n.k and -n.k the sides of its k-th facet *)
  ma_body : forall s facets inside q, In s surfs -> ss_shape s = Body facets inside -> placed trs (ss_tr s) p q ->
    (env (minus (sid (ss_id s))) = true <-> inside q) /\ env (sid (ss_id s)) = negb (env (minus (sid (ss_id s)))) /\
    forall k f, nth_error facets k = Some f ->
      exists b, side f q b /\ env (facet_word false (ss_id s) (S k)) = b /\ env (facet_word true (ss_id s) (S k)) = negb b;
  (* #n: not in cell n *)
  ma_hash : forall c, In c cells -> env ("#"%char :: str_Z (cs_id c)) = negb (incell (str_Z (cs_id c)));
  (* the cells *)
  ma_cells : forall c, In c cells -> holds env (cs_region c) = incell (str_Z (cs_id c)) }.

(** ** What is asked of a file *)

(** What an atom of the region of cell [c] may be: a surface or macrobody, a facet, or a complement; [rank] witnesses that
    complements have no cycle.  (Facets 2 and 3 of an RCC, the macrobody with three facets, are exchanged, see C28.) *)
Definition atom_allowed (cells : list cell_says) (surfs : list surf_says) (rank : Z -> nat) (c : cell_says) (w : text) : Prop :=
  (exists s sg, In s surfs /\ w = signed_word sg (ss_id s)) \/
  (exists s facets inside sg k, In s surfs /\ ss_shape s = Body facets inside /\ 1 <= k <= length facets /\ (length facets = 3 -> k = 1) /\
     w = facet_word sg (ss_id s) k) \/
  (exists d, In d cells /\ w = "#"%char :: str_Z (cs_id d) /\ rank (cs_id d) < rank (cs_id c)).

(** The importance of the k-th cell: its value on the last card for neutrons, else that of its own keyword, else 1. *)
Definition last_imp (ds : list data_says) (vs : list text) : Prop :=
  exists a b, ds = a ++ DImp NEUTRON vs :: b /\ forall ws, ~ In (DImp NEUTRON ws) b.
Definition importance (ds : list data_says) (k : nat) (c : cell_says) (q : Q) : Prop :=
  (exists vs v, last_imp ds vs /\ nth_error vs k = Some v /\ py_float v = Some q) \/
  ((forall vs, last_imp ds vs -> length vs <= k) /\
   ((exists v, has_kw (KImp v) (cs_keys c) /\ py_float v = Some q) \/ ((forall v, ~ has_kw (KImp v) (cs_keys c)) /\ q = 1%Q))).

(** The fraction an entry of a material card gives. *)
Definition fraction (e : PropMaterial.entry) : Q :=
  match e with
  | Keyword _ => 0%Q
  | Nuclide _ f => match get_fortran_formatted_number f with Some q => q | None => 0%Q end
  end.

(** A material card: every nuclide is a zaid, written in one way only; no isotope stands next to its element; an element is
    given by atoms and has natural isotopes (see C36, C65); the fractions do not add up to nothing. *)
Record good_entries (es : list PropMaterial.entry) : Prop := {
  ge_zaid : forall z, lists z es -> exists n, py_int z = Some n /\ (0 < n)%Z;
  ge_once : forall z z', lists z es -> lists z' es -> py_int z = py_int z' -> z = z';
  ge_apart : forall z z' y n, lists z es -> lists z' es -> py_int z = Some (1000 * y)%Z -> py_int z' = Some n -> (n mod 1000 <> 0)%Z -> (n / 1000 <> y)%Z;
  ge_elem : forall z y, lists z es -> py_int z = Some (1000 * y)%Z -> isotopes y <> [] /\ (0 <= total (map (listed z) es))%Q;
  ge_sum : ~ (total (map fraction es) == 0)%Q }.

(** A composition is that of a card, divided by the sum of its fractions, with every element replaced by its natural isotopes. *)
Definition made_of (es : list PropMaterial.entry) (c : dict Q) : Prop :=
  NoDup (keys c) /\ exists k, (0 < k /\ k * Qabs (total (map fraction es)) == 1)%Q /\
    (forall z n, lists z es -> py_int z = Some n -> (n mod 1000 <> 0)%Z ->
       exists v, dget z c = Some v /\ (v == k * total (map (listed z) es))%Q) /\
    (forall z y i a, lists z es -> py_int z = Some (1000 * y)%Z -> In (i, a) (isotopes y) ->
       exists v, dget (str_Z i) c = Some v /\ (v == k * total (map (listed z) es) * (a / 100))%Q) /\
    (forall t, In t (keys c) -> (lists t es /\ exists n, py_int t = Some n /\ (n mod 1000 <> 0)%Z) \/
       exists z y i a, lists z es /\ py_int z = Some (1000 * y)%Z /\ In (i, a) (isotopes y) /\ t = str_Z i).

(** The libraries of a composition: those of the card; the isotopes that stand for an element have none. *)
Definition libraries (es : list PropMaterial.entry) (x : dict text) : Prop :=
  (forall z n l, library z es l -> py_int z = Some n -> (n mod 1000 <> 0)%Z -> dget z x = Some l) /\
  (forall z y i a, lists z es -> py_int z = Some (1000 * y)%Z -> In (i, a) (isotopes y) -> dget (str_Z i) x = Some []).

(** ** Lists *)

Lemma last_exists {A} k (l : list (text * A)) : In k (map fst l) -> exists v, last_for k l v.
Proof.
  induction l as [|[k' v'] l IH]; cbn [map fst In]; [tauto|]. intro H.
  destruct (in_dec (list_eq_dec ascii_dec) k (map fst l)) as [I|N].
  - destruct (IH I) as (v & a & b & -> & NB). exists v, ((k', v') :: a), b. now split.
  - destruct H as [->|H]; [|contradiction]. exists v', [], l. now split.
Qed.
(** The last card for a particle. *)
Lemma last_particle ds p : (exists a b vs, ds = a ++ DImp p vs :: b /\ forall ws, ~ In (DImp p ws) b) \/ (forall vs, ~ In (DImp p vs) ds).
Proof.
  induction ds as [|d ds [(a & b & vs & -> & N)|N]].
  - right. intros vs [].
  - left. exists (d :: a), b, vs. now split.
  - destruct d as [p' vs| | |]; try (right; intros ws [E|I]; [discriminate|now apply (N ws)]).
    destruct (particle_beq p' p) eqn:E.
    + apply particle_beq_eq in E. subst p'. left. exists [], ds, vs. now split.
    + right. intros ws [H|I]; [|now apply (N ws)]. injection H as -> _. rewrite (proj2 (particle_beq_eq p p) eq_refl) in E. discriminate.
Qed.

Lemma neutrons_pget d : neutrons d = pget NEUTRON d.
Proof. induction d as [|[q t] d IH]; [reflexivity|]. cbn [neutrons pget]. now destruct q. Qed.

(* ------------------------------------------------------------------ *)
(** * Importances *)

Lemma word_char c t : In c t -> is_space c = false -> exists w, In w (words t) /\ In c w.
Proof.
  intros I S. induction t as [|d t IH]; [destruct I|]. cbn [words]. destruct (is_space d) eqn:D.
  - destruct I as [<-|I]; [congruence|]. exact (IH I).
  - destruct I as [<-|I].
    + destruct t as [|e t]; [exists [d]; split; now left|]. destruct (is_space e); [exists [d]; split; now left|].
      destruct (words (e :: t)) as [|w ws]; eexists; (split; [left; reflexivity|now left]).
    + destruct (IH I) as (w & IW & IC). destruct t as [|e t]; [destruct I|]. destruct (is_space e); [exists w; split; [now right|exact IC]|].
      destruct (words (e :: t)) as [|v ws]; [destruct IW|]. destruct IW as [->|IW]; [exists (d :: w); split; [now left|now right]|exists w; split; [now right|exact IC]].
Qed.

Definition no_shorthand (ds : list data_says) : Prop :=
  forall p vs v, In (DImp p vs) ds -> In v vs -> ~ In "i"%char v /\ ~ In "r"%char v.

Lemma imps_processed ds d : imps_got ds d -> no_shorthand ds -> process_importances d = Some d.
Proof.
  intros [G1 G2] NS. destruct d as [|[p t] d]; [reflexivity|]. cbn [process_importances].
  assert (PG : pget p ((p, t) :: d) = Some t) by (cbn [pget]; now rewrite (proj2 (particle_beq_eq p p) eq_refl)).
  destruct (last_particle ds p) as [(a & b & vs & E & L)|N].
  - destruct (G2 a b p vs E L) as (t' & P & W). rewrite PG in P. injection P as <-.
    assert (H : forall c, is_space c = false -> (forall v, In v vs -> ~ In c v) -> has c t = false).
    { intros c SC NV. unfold has. apply not_true_iff_false. intro X. apply existsb_exists in X as (c' & IC & EC). apply Ascii.eqb_eq in EC. subst c'.
      destruct (word_char c t IC SC) as (w & IW & IC'). rewrite W in IW. now apply (NV w). }
    assert (IN : In (DImp p vs) ds) by (rewrite E; apply in_app_iff; right; now left).
    rewrite !H; [reflexivity|reflexivity|intros v IV; apply (NS p vs v IN IV)|reflexivity|intros v IV; apply (NS p vs v IN IV)].
  - rewrite (G1 p N) in PG. discriminate.
Qed.

Lemma set_importances_ok vs : forall xs, length vs <= length xs -> Forall (fun v => py_float v <> None) vs ->
  exists cs, set_importances vs xs = Some cs /\ map fst cs = map fst xs /\
    forall k x y, nth_error xs k = Some x -> nth_error cs k = Some y ->
      match nth_error vs k with Some v => py_float v = Some (snd y) | None => snd y = snd x end.
Proof.
  induction vs as [|v vs IH]; intros xs L F.
  - exists xs. split; [now destruct xs|]. split; [reflexivity|]. intros k x y H1 H2. rewrite H1 in H2. injection H2 as <-. now destruct k.
  - destruct xs as [|[c q] xs]; cbn [length] in L; [lia|]. inversion F as [|? ? FV F']; subst. destruct (IH xs) as (cs & E & M & H); [lia|exact F'|].
    cbn [set_importances]. destruct (py_float v) as [qv|] eqn:EV; [|contradiction]. rewrite E. eexists. split; [reflexivity|]. split; [cbn [map fst]; now rewrite M|].
    intros [|k] x y H1 H2; cbn [nth_error] in *; [injection H2 as <-; exact EV|]. now apply H.
Qed.

(** The importances of the data block can be given to the cells. *)
Definition good_imps (ds : list data_says) (n : nat) : Prop :=
  no_shorthand ds /\
  ((exists p vs, In (DImp p vs) ds) -> exists vs, last_imp ds vs /\ length vs <= n /\ Forall (fun v => py_float v <> None) vs).

Lemma last_imp_unique ds d vs ws : imps_got ds d -> last_imp ds vs -> last_imp ds ws -> vs = ws.
Proof.
  intros [_ G] (a & b & E & N) (a' & b' & E' & N'). destruct (G a b _ _ E N) as (t & P & W). destruct (G a' b' _ _ E' N') as (t' & P' & W'). congruence.
Qed.

Lemma imps_applied ds d xs : imps_got ds d -> good_imps ds (length xs) ->
  exists cs, apply_importances d xs = Some cs /\ map fst cs = map fst xs /\
    forall k x y, nth_error xs k = Some x -> nth_error cs k = Some y ->
      (exists vs v, last_imp ds vs /\ nth_error vs k = Some v /\ py_float v = Some (snd y)) \/
      ((forall vs, last_imp ds vs -> length vs <= k) /\ snd y = snd x).
Proof.
  intros G [_ GI]. pose proof G as [G1 G2]. unfold apply_importances. destruct d as [|[p t] d].
  - exists xs. split; [reflexivity|]. split; [reflexivity|]. intros k x y H1 H2. right. split; [|congruence].
    intros vs (a & b & E & N). destruct (G2 a b _ _ E N) as (t & P & _). discriminate.
  - destruct GI as (vs & L & LN & F).
    + destruct (last_particle ds p) as [(a & b & vs & E & _)|N]; [exists p, vs; rewrite E; apply in_app_iff; right; now left|].
      specialize (G1 p N). cbn [pget] in G1. rewrite (proj2 (particle_beq_eq p p) eq_refl) in G1. discriminate.
    + rewrite neutrons_pget. pose proof L as (a & b & E & N). destruct (G2 a b _ _ E N) as (u & -> & <-).
      destruct (set_importances_ok (words u) xs LN F) as (cs & E1 & M & H). exists cs. split; [exact E1|]. split; [exact M|].
      intros k x y H1 H2. specialize (H k x y H1 H2). destruct (nth_error (words u) k) as [v|] eqn:EV.
      * left. eauto.
      * right. split; [|exact H]. intros ws LW. rewrite <- (last_imp_unique ds _ _ _ G L LW). now apply nth_error_None.
Qed.

(* ------------------------------------------------------------------ *)
(** * Materials *)

Lemma total_plus {A} (f g : A -> Q) l : (total (map (fun x => f x + g x) l) == total (map f l) + total (map g l))%Q.
Proof. induction l as [|x l IH]; cbn [map total]; [reflexivity|]. rewrite IH. ring. Qed.
Lemma total_zero {A} (f : A -> Q) l : (forall x, In x l -> f x == 0)%Q -> (total (map f l) == 0)%Q.
Proof. induction l as [|x l IH]; cbn [map total]; intro H; [reflexivity|]. rewrite IH, (H x); [ring|now left|]. intros y I. apply H. now right. Qed.

Lemma listed_once e ks : NoDup ks -> (forall z, lists z [e] -> In z ks) -> (total (map (fun z => listed z e) ks) == fraction e)%Q.
Proof.
  intros ND H. destruct e as [w|w f]; [apply total_zero; reflexivity|]. cbn [listed fraction].
  set (q := match get_fortran_formatted_number f with Some q => q | None => 0%Q end).
  assert (I : In (before_dot w) ks) by (apply H; exists w, f; split; [now left|reflexivity]). clear H.
  induction ks as [|k ks IH]; [destruct I|]. inversion ND as [|? ? NI ND']; subst. cbn [map total]. destruct (text_eqb_spec (before_dot w) k) as [E|E].
  - rewrite (total_zero _ ks); [ring|]. intros z IZ. destruct (text_eqb_spec (before_dot w) z) as [E'|E']; [congruence|reflexivity].
  - destruct I as [I|I]; [congruence|]. rewrite (IH ND' I). ring.
Qed.

Lemma total_listed es ks : NoDup ks -> (forall z, lists z es -> In z ks) ->
  (total (map (fun z => total (map (listed z) es)) ks) == total (map fraction es))%Q.
Proof.
  intros ND. induction es as [|e es IH]; intro H; cbn [map total].
  - apply total_zero. reflexivity.
  - rewrite (total_plus (fun z => listed z e) (fun z => total (map (listed z) es))), IH, listed_once; [reflexivity|exact ND| |].
    + intros z (w & f & [I|[]] & E). apply H. exists w, f. split; [now left|exact E].
    + intros z (w & f & I & E). apply H. exists w, f. split; [now right|exact E].
Qed.

(** A composition as it is read. *)
Definition read_comp (es : list PropMaterial.entry) (c : dict Q) : Prop :=
  NoDup (keys c) /\ forall z, (In z (keys c) <-> lists z es) /\ forall v, dget z c = Some v -> (v == total (map (listed z) es))%Q.

Definition read_xs (es : list PropMaterial.entry) (x : dict text) : Prop := forall z l, library z es l -> dget z x = Some l.

Lemma comp_total es c : read_comp es c -> (total (map snd c) == total (map fraction es))%Q.
Proof.
  intros [ND R]. rewrite <- (total_listed es (keys c) ND); [|intros z L; now apply R].
  unfold keys. rewrite map_map. apply total_ext. intros [z v] I. cbn [fst snd]. apply R. now apply in_dget.
Qed.

Lemma nodup_map_on {A B} (f : A -> B) l : NoDup l -> (forall x y, In x l -> In y l -> f x = f y -> x = y) -> NoDup (map f l).
Proof.
  induction 1 as [|x l N ND IH]; intro H; cbn [map]; constructor.
  - intro I. apply in_map_iff in I as (y & E & IY). apply N. rewrite <- (H y x); [exact IY|now right|now left|exact E].
  - apply IH. intros a b IA IB. apply H; now right.
Qed.

Lemma forall2_in_right {A B} (R : A -> B -> Prop) l l' b : Forall2 R l l' -> In b l' -> exists a, In a l /\ R a b.
Proof. induction 1 as [|x y l l' H F IH]; intros []; [subst; exists x; split; [now left|exact H]|]. destruct (IH H0) as (a & I & RA). exists a. split; [now right|exact RA]. Qed.
Lemma forall2_in_left {A B} (R : A -> B -> Prop) l l' a : Forall2 R l l' -> In a l -> exists b, In b l' /\ R a b.
Proof. induction 1 as [|x y l l' H F IH]; intros []; [subst; exists y; split; [now left|exact H]|]. destruct (IH H0) as (b & I & RA). exists b. split; [now right|exact RA]. Qed.

Lemma comp_finishes es c x : good_entries es -> read_comp es c -> read_xs es x ->
  exists comp c' x', normalise c = Some comp /\ explode_elements comp x = Some (c', x') /\ made_of es c' /\ libraries es x'.
Proof.
  intros G R RX. pose proof R as [ND RZ]. destruct (C34_normalise c) as (comp & k & E & KP & F & _ & KS).
  { rewrite (comp_total es c R). apply G. }
  exists comp.
  assert (KK : map fst comp = map fst c) by (clear - F; induction F as [|a b l l' [H _] F IH]; [reflexivity|cbn [map]; congruence]).
  assert (LS : forall z, In z (map fst comp) <-> lists z es) by (intro z; rewrite KK; apply RZ).
  assert (VAL : forall z v, In (z, v) comp -> (v == k * total (map (listed z) es))%Q).
  { intros z v I. destruct (forall2_in_right _ _ _ _ F I) as ([z' v'] & I' & E1 & E2). cbn [fst snd] in *. subst z'. rewrite E2.
    destruct (RZ z) as [_ RV]. rewrite (RV v'); [reflexivity|]. now apply in_dget. }
  assert (IK : forall e, In e comp -> lists (fst e) es) by (intros e I; apply LS; now apply in_map).
  assert (P : plain_comp comp).
  { split.
    - apply Forall_forall. intros e I. now apply (ge_zaid es G), IK.
    - rewrite <- (map_map fst py_int). apply nodup_map_on; [rewrite KK; exact ND|]. intros a b IA IB. apply (ge_once es G); now apply LS.
    - intros e e' z z' I I' Ez Ez' M. apply (ge_apart es G (fst e) (fst e')); auto. }
  assert (EL : forall z f y, In (z, f) comp -> py_int z = Some (1000 * y)%Z -> (0 <= f)%Q /\ isotopes y <> []).
  { intros z f y I Ez. destruct (ge_elem es G z y (IK _ I) Ez) as [H1 H2]. split; [|exact H1]. rewrite (VAL z f I). apply Qmult_le_0_compat; [now apply Qlt_le_weak|exact H2]. }
  destruct (C35_explode_atoms comp x P EL) as (c' & x' & EX & NC & _ & A1 & A2 & _).
  destruct (explode_shape comp x P) as (x2 & EX2 & _). rewrite EX in EX2. injection EX2 as EC _.
  exists c', x'. split; [exact E|]. split; [exact EX|]. split.
  2:{ destruct (explode_libraries comp x c' x' P EX) as [X1 X2]. split.
      - intros z n l L Ez M. rewrite X2; [now apply RX|]. intro I. apply exploded_key in I as (z' & f & y & i & a & I & Ez' & Ii & E').
        assert (LZ : lists z es) by (destruct L as (a0 & w & f0 & b0 & -> & B & _); exists w, f0; split; [apply in_app_iff; right; now left|exact B]).
        apply (ge_apart es G z' z y n (IK _ I) LZ Ez' Ez M). apply isotopes_zaid in Ii as (C & _). rewrite E', py_int_str_Z in Ez. injection Ez as <-. exact C.
      - intros z y i a L Ez Ii. apply X1. apply LS in L. apply in_map_iff in L as ([z' f] & E' & I). cbn [fst] in E'. subst z'. unfold keys. apply in_map_iff.
        exists (str_Z i, iso_fraction (1000 * y) f i a). split; [reflexivity|]. apply in_flat_map. exists (z, f). split; [exact I|]. rewrite (exploded_elem z f y Ez).
        apply in_map_iff. now exists (i, a). }
  split; [exact NC|]. exists k. split; [split; [exact KP|rewrite <- (comp_total es c R); exact KS]|].
  assert (GET : forall z, lists z es -> exists f, In (z, f) comp).
  { intros z L. apply LS in L. apply in_map_iff in L as ([z' f] & <- & I). now exists f. }
  split; [|split].
  - intros z n L Ez M. destruct (GET z L) as [f I]. exists f. split; [now apply (A1 z f n)|now apply VAL].
  - intros z y i a L Ez Ii. destruct (GET z L) as [f I]. destruct (A2 z f y i a I Ez Ii) as (v & Ev & V). exists v. split; [exact Ev|]. rewrite V, (VAL z f I). reflexivity.
  - intros t I. rewrite EC in I. unfold keys in I. rewrite map_app in I. apply in_app_or in I as [I|I].
    + left. apply in_map_iff in I as (e & <- & I). apply filter_In in I as [I NE]. split; [now apply IK|].
      destruct (ge_zaid es G (fst e) (IK e I)) as (n & En & _). exists n. split; [exact En|]. unfold is_elem in NE. rewrite En in NE.
      apply negb_true_iff, Z.eqb_neq in NE. exact NE.
    + right. apply exploded_key in I as (z & f & y & i & a & I & Ez & Ii & ->). exists z, y, i, a. split; [now apply (IK (z, f))|auto].
Qed.

(* ------------------------------------------------------------------ *)
(** * Material numbers *)

Lemma in_dset {V} k (a v : V) k0 d : In (k, a) (dset k0 v d) -> (k = k0 /\ a = v) \/ In (k, a) d.
Proof.
  induction d as [|[k1 v1] d IH]; cbn [dset]; [intros [E|[]]; injection E as <- <-; auto|]. destruct (text_eqb_spec k1 k0) as [E|E].
  - intros [I|I]; [injection I as <- <-; left; auto|right; now right].
  - intros [I|I]; [right; now left|]. destruct (IH I) as [H|H]; [now left|right; now right].
Qed.

Definition number_ref (r : matref) : Prop := (exists n, r = MInt n) \/ exists n, (0 < n)%Z /\ r = MStr (str_Z n).
Definition renumbered (c0 c : mcell) : Prop := k_mat c = k_mat c0 \/ exists n, (0 < n)%Z /\ k_mat c = MStr (str_Z n).
Lemma number_key r : number_ref r -> ref_key r = str_Z (mat_number r).
Proof. intros [(n & ->)|(n & _ & ->)]; cbn [ref_key mat_number]; [reflexivity|]. now rewrite py_int_str_Z. Qed.

Lemma free_number fuel : forall i ks t, (0 < i)%Z -> free_from fuel i ks = Some t -> exists n, (0 < n)%Z /\ t = str_Z n.
Proof.
  induction fuel as [|fuel IH]; cbn [free_from]; intros i ks t P E; [discriminate|]. destruct (existsb _ ks); [|injection E as <-; eauto].
  apply (IH (i + 1)%Z ks); [lia|exact E].
Qed.

Lemma copies_refs show base mat ds : forall ms cs ms' cs', copies show mat ds ms cs = Some (ms', cs') ->
  Forall2 renumbered base cs -> (forall k a, In (k, a) ms -> m_num a = k) ->
  Forall2 renumbered base cs' /\ (forall k a, In (k, a) ms' -> m_num a = k).
Proof.
  induction ds as [|d ds IH]; cbn [copies]; intros ms cs ms' cs' E F N; [injection E as <- <-; auto|].
  destruct (dget (str_Z mat) ms) as [m|]; [|discriminate]. destruct (next_free_int (keys ms)) as [n|] eqn:NF; [|discriminate].
  apply IH in E; [exact E| |].
  - clear - F NF. induction F as [|c0 c l l' H F IH]; cbn [map]; constructor; [|exact IH]. unfold renumber. destruct (is_mat mat (k_mat c) && Qeq_bool (k_dens c) d)%bool; [|exact H].
    right. cbn [k_mat]. destruct (free_number _ _ _ _ Z.lt_0_1 NF) as (z & P & ->). eauto.
  - intros k a I. apply in_dset in I as [[-> ->]|I]; [reflexivity|now apply N].
Qed.

Lemma split_refs show base l : forall ms cs ms' cs', split_materials show l ms cs = Some (ms', cs') ->
  Forall2 renumbered base cs -> (forall k a, In (k, a) ms -> m_num a = k) ->
  Forall2 renumbered base cs' /\ (forall k a, In (k, a) ms' -> m_num a = k).
Proof.
  induction l as [|[mat [|d ds]] l IH]; cbn [split_materials]; intros ms cs ms' cs' E F N; [injection E as <- <-; auto|discriminate|].
  unfold set_density in E. destruct (dget (str_Z mat) ms) as [m|] eqn:EM; [|discriminate].
  destruct (copies show mat ds (dset (str_Z mat) (with_dens m d) ms) cs) as [[ms2 cs2]|] eqn:EC; [|discriminate].
  apply (copies_refs show base) in EC as [F2 N2]; [|exact F|]; [now apply IH in E|].
  intros k a I. apply in_dset in I as [[-> ->]|I]; [|now apply N]. cbn [with_dens m_num]. apply N. now apply dget_some_in.
Qed.

Lemma finish_nums ms : forall ms', finish_all ms = Some ms' -> (forall k a, In (k, a) ms -> m_num a = k) -> forall k a, In (k, a) ms' -> m_num a = k.
Proof.
  induction ms as [|[k m] ms IH]; cbn [finish_all]; intros ms' E N k' a' I; [injection E as <-; destruct I|].
  destruct (finish_material m) as [m'|] eqn:EM; [|discriminate]. destruct (finish_all ms) as [r|]; [|discriminate]. injection E as <-.
  destruct I as [I|I]; [|apply (IH r eq_refl); [intros; apply N; now right|exact I]]. injection I as <- <-. rewrite <- (N k m) by now left.
  unfold finish_material in EM. destruct (normalise (m_comp m)); [|discriminate]. destruct (explode_elements d (m_xs m)) as [[? ?]|]; [|discriminate]. now injection EM as <-.
Qed.

Lemma reorganised_numbers show base ms cs ms' cs' : reorganise_materials show ms cs = Some (ms', cs') ->
  Forall2 renumbered base cs -> (forall k a, In (k, a) ms -> m_num a = k) ->
  Forall2 renumbered base cs' /\ (forall k a, In (k, a) ms' -> m_num a = k).
Proof.
  unfold reorganise_materials. cbv zeta. intros E F N. destruct (filter _ (densities cs)) as [|e l]; [injection E as <- <-; auto|].
  destruct (split_materials show (sort_mats (e :: l)) ms cs) as [[ms1 cs1]|] eqn:ES; [|discriminate].
  destruct (finish_all ms1) as [ms2|] eqn:EF; [|discriminate]. injection E as <- <-. apply (split_refs show base) in ES as [F1 N1]; [|exact F|exact N].
  split; [exact F1|]. exact (finish_nums _ _ EF N1).
Qed.

Lemma copies_comps show (P : dict Q -> dict text -> Prop) mat ds : forall ms cs ms' cs', copies show mat ds ms cs = Some (ms', cs') ->
  NoDup (keys ms) -> (forall k a, In (k, a) ms -> P (m_comp a) (m_xs a)) -> NoDup (keys ms') /\ forall k a, In (k, a) ms' -> P (m_comp a) (m_xs a).
Proof.
  induction ds as [|d ds IH]; cbn [copies]; intros ms cs ms' cs' E ND F; [injection E as <- <-; auto|].
  destruct (dget (str_Z mat) ms) as [m|] eqn:EM; [|discriminate]. destruct (next_free_int (keys ms)) as [n|]; [|discriminate].
  apply IH in E; [exact E|now apply nodup_dset|]. intros k a I. apply in_dset in I as [[-> ->]|I]; [|now apply (F k)].
  cbn [m_comp m_xs]. apply (F (str_Z mat)). now apply dget_some_in.
Qed.

Lemma split_comps show (P : dict Q -> dict text -> Prop) l : forall ms cs ms' cs', split_materials show l ms cs = Some (ms', cs') ->
  NoDup (keys ms) -> (forall k a, In (k, a) ms -> P (m_comp a) (m_xs a)) -> NoDup (keys ms') /\ forall k a, In (k, a) ms' -> P (m_comp a) (m_xs a).
Proof.
  induction l as [|[mat [|d ds]] l IH]; cbn [split_materials]; intros ms cs ms' cs' E ND F; [injection E as <- <-; auto|discriminate|].
  unfold set_density in E. destruct (dget (str_Z mat) ms) as [m|] eqn:EM; [|discriminate].
  destruct (copies show mat ds (dset (str_Z mat) (with_dens m d) ms) cs) as [[ms2 cs2]|] eqn:EC; [|discriminate].
  apply (copies_comps show P) in EC as [N2 F2]; [now apply IH in E|now apply nodup_dset|].
  intros k a I. apply in_dset in I as [[-> ->]|I]; [|now apply (F k)]. cbn [with_dens m_comp m_xs]. apply (F (str_Z mat)). now apply dget_some_in.
Qed.

Lemma finish_keys ms : forall ms', finish_all ms = Some ms' -> keys ms' = keys ms /\
  forall k a, In (k, a) ms' -> exists m c1, In (k, m) ms /\ normalise (m_comp m) = Some c1 /\ explode_elements c1 (m_xs m) = Some (m_comp a, m_xs a).
Proof.
  induction ms as [|[k m] ms IH]; cbn [finish_all]; intros ms' E; [injection E as <-; split; [reflexivity|intros k a []]|].
  destruct (finish_material m) as [m'|] eqn:EM; [|discriminate]. destruct (finish_all ms) as [r|]; [|discriminate]. injection E as <-.
  destruct (IH r eq_refl) as [K1 K2]. split; [unfold keys in *; cbn [map fst]; now rewrite K1|]. intros k' a' [I|I].
  - injection I as <- <-. unfold finish_material in EM. destruct (normalise (m_comp m)) as [c1|] eqn:EN; [|discriminate].
    destruct (explode_elements c1 (m_xs m)) as [[c2 x']|] eqn:EX; [|discriminate]. injection EM as <-. exists m, c1. cbn [m_comp m_xs]. auto using in_eq.
  - destruct (K2 _ _ I) as (m0 & c1 & H & H'). exists m0, c1. auto using in_cons.
Qed.

Lemma density_listed z d l : In z (map fst (add_density z d l)) /\ forall y, In y (map fst l) -> In y (map fst (add_density z d l)).
Proof.
  induction l as [|[m ds] l [IH1 IH2]]; cbn [add_density map fst]; [split; [now left|intros y []]|].
  destruct (m =? z)%Z eqn:E; cbn [map fst]; [apply Z.eqb_eq in E; subst; split; [now left|auto]|].
  split; [now right|]. intros y [H|H]; [now left|right; now apply IH2].
Qed.
Lemma densities_all cs c z : In c cs -> k_mat c = MInt z -> In z (map fst (densities cs)).
Proof.
  unfold densities. generalize (@nil (Z * list Q)) as acc. 
  assert (K : forall cs acc y, In y (map fst acc) ->
    In y (map fst (fold_left (fun l c => match k_mat c with MInt z => add_density z (k_dens c) l | MStr _ => l end) cs acc))).
  { clear. induction cs as [|c cs IH]; cbn [fold_left]; intros acc y H; [exact H|]. apply IH. destruct (k_mat c); [now apply density_listed|exact H]. }
  induction cs as [|c0 cs IH]; intros acc I E; [destruct I|]. cbn [fold_left]. destruct I as [-> | I]; [|now apply IH].
  apply K. rewrite E. exact (proj1 (density_listed _ _ _)).
Qed.

Lemma reorganised_comps show (P : dict Q -> dict text -> Prop) ms cs ms' cs' : reorganise_materials show ms cs = Some (ms', cs') ->
  NoDup (keys ms) -> (forall k a, In (k, a) ms -> P (m_comp a) (m_xs a)) ->
  NoDup (keys ms') /\ forall k a, In (k, a) ms' -> exists comp x, P comp x /\
    (m_comp a = comp \/ exists c1, normalise comp = Some c1 /\ explode_elements c1 x = Some (m_comp a, m_xs a)) /\
    forall c z, In c cs -> k_mat c = MInt z -> z <> 0%Z -> exists c1, normalise comp = Some c1 /\ explode_elements c1 x = Some (m_comp a, m_xs a).
Proof.
  unfold reorganise_materials. cbv zeta. intros E N F. destruct (filter _ (densities cs)) as [|e l] eqn:EF.
  - injection E as <- <-. split; [exact N|]. intros k a I. exists (m_comp a), (m_xs a). split; [now apply (F k)|]. split; [now left|].
    intros c z IC EM NZ. exfalso. assert (H := densities_all cs c z IC EM). apply in_map_iff in H as (y & <- & H).
    enough (H' : In y []) by destruct H'. rewrite <- EF. apply filter_In. split; [exact H|]. apply negb_true_iff. now apply Z.eqb_neq.
  - destruct (split_materials show (sort_mats (e :: l)) ms cs) as [[ms1 cs1]|] eqn:ES; [|discriminate].
    destruct (finish_all ms1) as [ms2|] eqn:EA; [|discriminate]. injection E as <- <-.
    destruct (split_comps show P _ _ _ _ _ ES N F) as [N1 F1]. destruct (finish_keys _ _ EA) as [K1 K2]. rewrite K1. split; [exact N1|].
    intros k a I. destruct (K2 k a I) as (m & c1 & IM & E1 & E2). exists (m_comp m), (m_xs m). split; [now apply (F1 k)|]. split; eauto.
Qed.

Lemma added_nodup cards : forall ms ms', add_materials ms cards = Some ms' -> NoDup (keys ms) -> (forall k a, In (k, a) ms -> m_num a = k) ->
  NoDup (keys ms') /\ forall k a, In (k, a) ms' -> m_num a = k.
Proof.
  induction cards as [|[n t] cards IH]; cbn [add_materials]; intros ms ms' E ND N; [injection E as <-; auto|].
  destruct (add_material ms n t) as [ms1|] eqn:EA; [|discriminate]. apply (IH _ _ E).
  - unfold add_material in EA. destruct (read_mcnp_material n t) as [m|]; [|discriminate]. injection EA as <-. now apply nodup_dset.
  - unfold add_material in EA. destruct (read_mcnp_material n t) as [m|]; [|discriminate]. injection EA as <-.
    intros k a I. apply in_dset in I as [[-> ->]|I]; [|now apply N]. now destruct (negb _).
Qed.

Lemma read_file_bc f s p : read_file f s = Some p -> Forall (fun s => s_bc s = TRANSMISSION) (f_surfs p).
Proof.
  unfold read_file. destruct (split_file s) as [q|]; [|discriminate]. destruct (mapM (read_cell_card f) (p_cells q)); [|discriminate].
  destruct (mapM read_surface (p_surfs q)) as [ss|] eqn:E; [|discriminate]. destruct (transform_list (p_trans q) []); [|discriminate].
  destruct (add_materials [] (p_mats q)); [|discriminate]. injection 1 as <-. cbn [f_surfs]. clear - E. revert ss E.
  induction (p_surfs q) as [|t l IH]; cbn [mapM]; intros ss E; [injection E as <-; constructor|].
  destruct (read_surface t) as [x|] eqn:R; [|discriminate]. destruct (mapM read_surface l) as [r|]; [|discriminate]. injection E as <-.
  constructor; [now apply (PropBoundary.C40_always_transmission t)|now apply IH].
Qed.

Lemma read_file_mats f s p : read_file f s = Some p -> NoDup (keys (f_mats p)) /\ forall k a, In (k, a) (f_mats p) -> m_num a = k.
Proof.
  unfold read_file. destruct (split_file s) as [q|]; [|discriminate]. destruct (mapM (read_cell_card f) (p_cells q)); [|discriminate].
  destruct (mapM read_surface (p_surfs q)); [|discriminate]. destruct (transform_list (p_trans q) []); [|discriminate].
  destruct (add_materials [] (p_mats q)) as [ms|] eqn:E; [|discriminate]. injection 1 as <-. cbn [f_mats]. apply (added_nodup _ _ _ E); [constructor|intros k a []].
Qed.

(* ------------------------------------------------------------------ *)
(** * The geometry *)

Lemma body_macro s f i : body s f i -> is_macrobody s = true /\ facets_of s = length f /\ (s_type s = MACRO_RCC -> length f = 3).
Proof. intros []; (split; [reflexivity|]; split; [reflexivity|]); (discriminate || reflexivity). Qed.

Lemma pt_eq p q : GeomSpec.px p = GeomSpec.px q -> GeomSpec.py p = GeomSpec.py q -> GeomSpec.pz p = GeomSpec.pz q -> p = q.
Proof. destruct p, q. cbn [GeomSpec.px GeomSpec.py GeomSpec.pz]. congruence. Qed.

Lemma body_unique s f i : body s f i -> forall f' i', body s f' i' -> f' = f /\ i' = i.
Proof.
  intros []; intros f' i' B'; inversion B'; subst; try (now split).
  - rewrite (pt_eq v0 v), (pt_eq a0 a), (pt_eq b0 b), (pt_eq c0 c); auto.
  - rewrite (pt_eq b0 b), (pt_eq h0 h); auto.
Qed.

(** What a file has in memory that the theorem does not allow, because it is handled wrongly: transforms of cones cut to one
    sheet, of tori, and of surfaces that become a quadric with a zx term only (C22, C24); removal of duplicates among cones
    cut to one sheet and tori with radii that are not positive (C16). *)
Definition memory_fine (quick : bool) (p : contents) : Prop :=
  (forall s id t, In s (f_surfs p) -> s_tr s = Some id -> dget id (f_trans p) = Some t -> is_macrobody s = false ->
     ~ sheeted s /\ is_torus (s_type s) = false /\
     forall g m, SurfModel.generalise s = Some g -> transform g t = Some m -> ~ only_zx m) /\
  (quick = true \/ forall s, In s (f_surfs p) -> ~ sheeted s /\ torus_ok s).

(** What is asked of the cards. *)
Record good_cards (cells : list cell_says) (surfs : list surf_says) (ds : list data_says) (rank : Z -> nat) : Prop := {
  gc_ids : NoDup (map ss_id surfs);
  gc_pos : forall s, In s surfs -> (0 < ss_id s)%Z;
  (* no macrobody number ends in the digits of another, see C30 *)
  gc_suffix : forall s t f i f' i' u, In s surfs -> In t surfs -> ss_shape s = Body f i -> ss_shape t = Body f' i' -> ss_id s <> ss_id t ->
    sid (ss_id t) <> u ++ sid (ss_id s);
  gc_tr : forall s id, In s surfs -> ss_tr s = Some id -> In id (map fst (trs_of ds));
  gc_cells : forall c, In c cells -> (0 < cs_id c)%Z /\ forall w, In w (atoms (cs_region c)) -> atom_allowed cells surfs rank c w;
  gc_fill : forall c star v tr, In c cells -> has_kw (KFill star v tr) (cs_keys c) -> exists m, fill_means (trs_of ds) star tr m;
  gc_imps : good_imps ds (length cells);
  (* a cell of importance 0 names no macrobody, see C39 *)
  gc_zero : forall k c q s f i w, nth_error cells k = Some c -> importance ds k c q -> (q == 0)%Q -> In s surfs -> ss_shape s = Body f i ->
    In w (atoms (cs_region c)) -> ~ names (ss_id s) w;
  gc_mats : forall n es, last_for n (mats_of ds) es -> good_entries es;
  gc_used : forall c m d, In c cells -> cs_mat c = Some (m, d) -> In (str_Z m) (map fst (mats_of ds)) }.

Definition in_of (quick : bool) (p : contents) (imps : list (particle * text)) : input :=
  mkIn (f_surfs p) (map (fun x => (fst x, k_imp (snd x))) (f_cells p)) (fun id => dget id (f_trans p)) imps quick.

Lemma atom_in_text x r w : cell_kept x -> expr (toks (c_items (fst x))) r -> In w (c_text (fst x)) -> word_tok w = TAtom w -> In w (atoms r).
Proof.
  intros [(_ & TK & _) _] E I W. rewrite <- (proj1 expr_atoms _ _ E), TK. unfold tok_atoms. apply in_flat_map. exists (TAtom w).
  split; [rewrite <- W; now apply in_map|now left].
Qed.

Lemma got_ids surfs fs : Forall2 surf_got surfs fs -> map s_id fs = map ss_id surfs.
Proof. induction 1 as [|s x l l' (E & _) F IH]; [reflexivity|]. cbn [map]. congruence. Qed.

Lemma got_macro s x : surf_got s x -> is_macrobody x = true -> exists f i f' i', ss_shape s = Body f i /\ body x f' i' /\ Forall2 same_sense f f' /\ (forall p, i p <-> i' p).
Proof.
  intros (_ & _ & H) M. destruct (ss_shape s) as [sn|f i].
  - destruct H as (sn' & E & _). apply sense_plain in E. congruence.
  - destruct H as (f' & i' & B & FS & I). exists f, i, f', i'. auto.
Qed.

Lemma names_atom m w : names m w -> word_tok w = TAtom w.
Proof.
  assert (S : forall s, (exists c r, s = c :: r /\ is_delim c = false) -> word_tok s = TAtom s).
  { intros s (c & r & -> & D). destruct (rtok_atom_dec (c :: r)) as [E|E]; [exact E|]. apply word_tok_single_inv in E as (c' & E & D'). injection E as -> _. congruence. }
  intros [->|[->|(sg & k & _ & ->)]].
  - apply word_tok_sid.
  - apply word_tok_minus.
  - destruct sg; [apply S; exists "-"%char; eexists; split; reflexivity|]. unfold facet_word, sgn. cbn [app].
    destruct (rtok_atom_dec (sid m ++ T "." ++ str_Z (Z.of_nat k))) as [E|E]; [exact E|]. apply word_tok_single_inv in E as (c' & E & D').
    exfalso. assert (L : length (sid m ++ T "." ++ str_Z (Z.of_nat k)) = 1) by now rewrite E. rewrite !app_length in L.
    assert (str_Z m <> []) by apply CellWritersOut.str_Z_word_upto. assert (str_Z (Z.of_nat k) <> []) by apply CellWritersOut.str_Z_word_upto. unfold sid in L.
    destruct (str_Z m), (str_Z (Z.of_nat k)); try congruence. cbn in L. lia.
Qed.

Section Geometry.
Context (cells : list cell_says) (surfs : list surf_says) (ds : list data_says) (rank : Z -> nat) (quick : bool) (p : contents)
  (G : good_cards cells surfs ds rank) (FM : memory_fine quick p)
  (FC : Forall2 (fun x y => cell_got x y /\ cell_kept y) cells (f_cells p)) (FS : Forall2 surf_got surfs (f_surfs p)) (TG : trans_got ds (f_trans p)).

Lemma tr_there id : In id (map fst (trs_of ds)) -> exists m t, last_for id (trs_of ds) m /\ dget id (f_trans p) = Some t /\ motion_of t = m.
Proof. intro I. destruct (last_exists id _ I) as (m & L). destruct TG as [_ TM]. destruct (TM id m L) as (t & E & M). eauto. Qed.

Lemma input_good imps : good_input (in_of quick p imps) rank.
Proof.
  destruct FM as [FM1 FM2]. split; unfold in_of; cbn [i_surfs i_cells i_cards i_quick].
  - rewrite (got_ids _ _ FS). apply G.
  - intros x I. destruct (forall2_pick _ _ _ _ FS I) as (s & IS & E & _). rewrite E. now apply G.
  - intros x y u IX IY MX MY NE. destruct (forall2_pick _ _ _ _ FS IX) as (s & IS & SG). destruct (forall2_pick _ _ _ _ FS IY) as (t & IT & TGT).
    destruct (got_macro _ _ SG MX) as (f & i & _ & _ & B1 & _). destruct (got_macro _ _ TGT MY) as (f' & i' & _ & _ & B2 & _).
    destruct SG as (E1 & _), TGT as (E2 & _). rewrite E1, E2 in *. now apply (gc_suffix _ _ _ _ G s t f i f' i').
  - intros x I. destruct (forall2_pick _ _ _ _ FS I) as (s & IS & _ & _ & H). destruct (ss_shape s) as [sn|f i].
    + right. destruct H as (sn' & E & _). eauto.
    + left. destruct H as (f' & i' & B & _). eauto.
  - intros x id I E. destruct (forall2_pick _ _ _ _ FS I) as (s & IS & _ & ET & _).
    destruct (tr_there id) as (m & t & L & D & M); [apply (gc_tr _ _ _ _ G s); congruence|]. exists t. split; [exact D|]. intro MB. now apply (FM1 x id t).
  - intros c q I. apply in_map_iff in I as (x & E & I). injection E as <- <-. destruct (forall2_pick _ _ _ _ FC I) as (s & IS & (E1 & _ & EX & SP & TI & _) & K).
    destruct (gc_cells _ _ _ _ G s IS) as [P A]. split; [congruence|]. split; [apply K|]. split; [split; assumption|].
    intros w IW W. destruct (A w (atom_in_text x _ w K EX IW W)) as [(y & sg & IY & ->)|[(y & f & i & sg & k & IY & SH & LK & K3 & ->)|(d & ID & -> & RK)]].
    + left. destruct (forall2_take _ _ _ _ FS IY) as (z & IZ & EZ & _). exists z, sg. now rewrite EZ.
    + right. left. destruct (forall2_take _ _ _ _ FS IY) as (z & IZ & EZ & _ & H). rewrite SH in H. destruct H as (f' & i' & B & F2 & _).
      destruct (body_macro _ _ _ B) as (M1 & M2 & M3). rewrite <- (forall2_len _ _ _ F2) in M2, M3. exists z, sg, k. rewrite EZ, M2. auto 10.
    + right. right. destruct (forall2_take _ _ _ _ FC ID) as (z & IZ & (EZ & _) & _). exists (fst z), (k_imp (snd z)).
      split; [apply in_map_iff; now exists z|]. rewrite EZ, E1. auto.
  - exact FM2.
Qed.

Lemma placed_local s x q : surf_got s x -> In s surfs -> exists q', placed (trs_of ds) (ss_tr s) q q' /\ local (fun id => dget id (f_trans p)) x q = q'.
Proof.
  intros (_ & ET & _) IS. unfold local. rewrite ET. destruct (ss_tr s) as [id|] eqn:E; [|exists q; split; [constructor|reflexivity]].
  destruct (tr_there id) as (m & t & L & D & M); [now apply (gc_tr _ _ _ _ G s)|]. exists (to_aux m q). split; [now constructor|]. now rewrite D, M.
Qed.

Lemma side_same a b q s : same_sense a b -> side a q s -> side b q s.
Proof. intros H. destruct (H q) as [H1 H2]. destruct s; cbn [side]; tauto. Qed.

Lemma input_reads imps q env incell : means_at cells surfs (trs_of ds) q env incell -> reads_at (in_of quick p imps) q env incell.
Proof.
  intros [MP MB MH MC]. split; unfold in_of; cbn [i_surfs i_cells i_cards].
  - intros x sn I E. destruct (forall2_pick _ _ _ _ FS I) as (s & IS & SG). destruct (placed_local s x q SG IS) as (q' & PL & ->).
    destruct SG as (E1 & _ & H). destruct (ss_shape s) as [sn'|f i] eqn:SH.
    + destruct H as (sn2 & E2 & SS). rewrite E in E2. injection E2 as <-. destruct (MP s sn' q' IS SH PL) as (b & B1 & B2 & B3). exists b. rewrite E1.
      split; [|auto]. revert B1. apply side_same. intro r. destruct (SS r) as [S1 S2]. split; symmetry; assumption.
    + destruct H as (f' & i' & B & _). apply body_macro in B as [B _]. apply sense_plain in E. congruence.
  - intros x f i I B. destruct (forall2_pick _ _ _ _ FS I) as (s & IS & SG). destruct (placed_local s x q SG IS) as (q' & PL & ->).
    destruct SG as (E1 & _ & H). destruct (ss_shape s) as [sn'|f0 i0] eqn:SH.
    + destruct H as (sn2 & E2 & _). apply sense_plain in E2. apply body_macro in B as [B _]. congruence.
    + destruct H as (f' & i' & B' & F2 & EI). destruct (body_unique _ _ _ B' _ _ B) as [-> ->]. destruct (MB s f0 i0 q' IS SH PL) as (H1 & H2 & H3). rewrite E1.
      split; [rewrite H1; apply EI|]. split; [exact H2|]. intros k g NG.
      assert (X : exists g0, nth_error f0 k = Some g0 /\ same_sense g0 g).
      { clear - F2 NG. revert k NG. induction F2 as [|a b l l' H F IH]; intros [|k] N; try discriminate; cbn [nth_error] in *; [injection N as <-; eauto|now apply IH]. }
      destruct X as (g0 & N0 & S0). destruct (H3 k g0 N0) as (b & B1 & B2 & B3). exists b. split; [now apply (side_same g0)|auto].
  - intros c w I. apply in_map_iff in I as (x & E & I). injection E as <- _. destruct (forall2_pick _ _ _ _ FC I) as (s & IS & (E1 & _) & _). rewrite E1. now apply MH.
  - intros c w r I EX. apply in_map_iff in I as (x & E & I). injection E as <- _. destruct (forall2_pick _ _ _ _ FC I) as (s & IS & (E1 & _ & EX' & _) & _). rewrite E1.
    rewrite (expr_unique _ _ _ EX EX'). now apply MC.
Qed.
End Geometry.

(* ------------------------------------------------------------------ *)
(** * The deck *)

(** A word shows a number: it is read as it, or it is the number printed. *)
Definition shows (str : R -> text) (w : text) (v : R) : Prop := to_float w = Some v \/ w = str v.
(** The offset and the matrix of a filled cell show a motion; without them it does not move. *)
Definition motion_shown (str : R -> text) (g : gcell) (m : motion) : Prop :=
  match g_offset g with None => mo m = Pt 0 0 0 | Some l => Forall2 (shows str) l [GeomSpec.px (mo m); GeomSpec.py (mo m); GeomSpec.pz (mo m)] end /\
  match g_rot g with
  | None => r1 m = Pt 1 0 0 /\ r2 m = Pt 0 1 0 /\ r3 m = Pt 0 0 1
  | Some l => Forall2 (shows str) l (flat_map (fun r => [GeomSpec.px r; GeomSpec.py r; GeomSpec.pz r]) [r1 m; r2 m; r3 m])
  end.

(** The texts of the place of a filled cell come from its FILL keyword or are printed numbers. *)
Definition placing_nums (p : placing) : list unum :=
  match p_offset p with Some l => l | None => [] end ++ match p_rot p with Some l => l | None => [] end.
Definition placing_words (g : gcell) : list text :=
  match g_offset g with Some l => l | None => [] end ++ match g_rot g with Some l => l | None => [] end.
Lemma placed_words ts k star tr pl : transformation_read star tr k -> universe_placing ts k = Some pl ->
  forall t, In (UText t) (placing_nums pl) -> exists sep inner, tr = Some (sep, inner) /\ In t (words inner).
Proof.
  unfold universe_placing, placing_nums. intros RD E t I.
  assert (TRS : forall x : trans, ~ In (UText t) (placing_nums (apply_universe_transform x))).
  { intros x. unfold placing_nums, apply_universe_transform. cbn [p_offset p_rot]. destruct (t_shift x) as [[? ?] ?], (t_v1 x) as [[? ?] ?], (t_v2 x) as [[? ?] ?], (t_v3 x) as [[? ?] ?].
    cbn [three app In]. intuition discriminate. }
  destruct (text_eqb (k_trid k) (T "0")); [|destruct (dget (k_trid k) ts) as [x|]; [|discriminate]; injection E as <-; now elim (TRS x)].
  injection E as <-. unfold card_placing in I. cbn [p_offset p_rot] in I. destruct tr as [[sep inner]|]; [|destruct RD as (_ & R1 & R2); rewrite R1, R2 in I; destruct I].
  exists sep, inner. split; [reflexivity|]. cbn [transformation_read] in RD. destruct (words inner) as [|a [|b [|c r]]]; try destruct RD as [].
  - destruct H0 as [R1 R2]. rewrite R1, R2 in I. destruct I.
  - destruct H0 as [R1 R2]. rewrite R1 in I. cbn [option_map app In] in I. destruct I as [I|[I|[I|I]]];
      [injection I as <-; now left|injection I as <-; right; now left|injection I as <-; do 2 right; now left|]. do 3 right.
    destruct r as [|y r]; [rewrite R2 in I; destruct I|]. destruct R2 as (rot & R2 & R3). rewrite R2 in I. cbn [option_map] in I. destruct star.
    + exfalso. clear - R3 I. induction R3 as [|? ? ? ? (q & _ & ->) F IH]; cbn [map] in I; [destruct I|]. destruct I as [I|I]; [discriminate|auto].
    + subst rot. apply in_map_iff in I as (v & E & I). apply in_map_iff in I as (w & <- & I). cbn [of_rotval] in E. now injection E as <-.
Qed.

(** ** What holds of every surface *)

Lemma flatten_loop_inv (P : surface -> Prop) : (forall n s x t, P s -> explode_macrobody n s = Some x -> In t (inherit s (x_surfs x)) -> P t) ->
  forall l d d', flatten_loop l d = Some d' -> Forall P l -> Forall P (FlattenModel.d_surfs d) -> Forall P (FlattenModel.d_surfs d').
Proof.
  intro X. induction l as [|s l IH]; intros d d' E FL F; cbn [flatten_loop] in E; [now injection E as <-|]. inversion FL as [|? ? PS FL']; subst.
  destruct (flatten_one d s) as [d1|] eqn:O; [|discriminate]. apply (IH d1 d' E FL'). unfold flatten_one in O.
  destruct (is_macrobody s); [|now injection O as <-]. destruct (explode_macrobody _ s) as [x|] eqn:EX; [|discriminate].
  destruct (mapM _ _) as [cs|]; [|discriminate]. injection O as <-. cbn [FlattenModel.d_surfs]. apply Forall_app. split; [exact F|].
  apply Forall_forall. intros t I. exact (X _ _ _ _ PS EX I).
Qed.
Lemma set_vacuums_inv (P : surface -> Prop) : (forall s, P s -> P (with_bc VACUUM s)) ->
  forall ids l l', set_vacuums ids l = Some l' -> Forall P l -> Forall P l'.
Proof.
  intro X. assert (ONE : forall id l l', set_vacuum id l = Some l' -> Forall P l -> Forall P l').
  { induction l as [|s l IH]; intros l' E F; cbn [set_vacuum] in E; [discriminate|]. inversion F as [|? ? H F']; subst.
    destruct (s_id s =? id)%Z; [injection E as <-; constructor; auto|]. destruct (set_vacuum id l); [|discriminate]. injection E as <-. constructor; auto. }
  induction ids as [|i ids IH]; intros l l' E F; cbn [set_vacuums] in E; [now injection E as <-|].
  destruct (set_vacuum i l) as [l1|] eqn:S; [|discriminate]. apply (IH l1 l' E). now apply (ONE i l).
Qed.
Lemma entries_org : forall l n es, entries n l = Some es -> map e_org es = l.
Proof.
  induction l as [|s l IH]; intros n es E; cbn [entries] in E; [now injection E as <-|].
  destruct (SurfModel.generalise s); [|discriminate]. destruct (entries (S n) l) as [es'|] eqn:E'; [|discriminate]. injection E as <-. cbn [map e_org]. f_equal. exact (IH _ _ E').
Qed.
Lemma process_after (P : surface -> Prop) fuel i o :
  (forall d, flatten_macrobodies (FlattenModel.mkDeck (i_surfs i) (map fst (i_cells i)) (last_index (i_surfs i))) = Some d -> Forall P (FlattenModel.d_surfs d)) ->
  (forall cards s t, apply_transform cards s = Some t -> P s -> P t) -> (forall s, P s -> P (with_bc VACUUM s)) ->
  process fuel i = Done o -> Forall P (o_surfs o).
Proof.
  intros X1 X2 X3 E. unfold process in E. destruct (flatten_macrobodies _) as [d|] eqn:FL; [|discriminate].
  assert (F1 := X1 d eq_refl).
  destruct (explode_nots fuel _) as [cs| |]; try discriminate. destruct (mapM _ (FlattenModel.d_surfs d)) as [ss|] eqn:M; [|discriminate].
  assert (F2 : Forall P ss).
  { clear - M F1 X2. revert ss M. induction F1 as [|s l H F IH]; intros ss M; cbn [mapM] in M; [injection M as <-; constructor|].
    destruct (apply_transform _ s) as [t|] eqn:A; [|discriminate]. destruct (mapM _ l) as [ss'|]; [|discriminate]. injection M as <-. constructor; [now apply (X2 _ _ _ A)|now apply IH]. }
  unfold apply_boundary_conditions in E. destruct (apply_importances _ _) as [cs'|]; [|discriminate]. destruct (graveyards cs' ss) as [ss'|] eqn:G; [|discriminate].
  assert (F3 : Forall P ss').
  { clear - G F2 X3. revert ss ss' G F2. induction cs' as [|[c q] cs IH]; intros ss ss' G F; cbn [graveyards] in G; [now injection G as <-|].
    destruct (Qeq_bool q 0); [|now apply (IH ss ss')]. destruct (set_vacuums _ ss) as [s1|] eqn:S; [|discriminate]. apply (IH s1 ss' G). now apply (set_vacuums_inv P X3 _ _ _ S). }
  destruct (bounding_coordinates _ _) as [bc|]; [|discriminate]. unfold finish in E. destruct (i_quick i); [now injection E as <-|].
  destruct (remove_duplicates ss' _) as [[l ?]|] eqn:R; [|discriminate]. injection E as <-. cbn [o_surfs]. unfold remove_duplicates in R.
  destruct (entries 0 ss') as [es|] eqn:EN; [|discriminate]. cbv zeta in R. destruct (mapM (replace_cell _) _); [|discriminate]. injection R as <- _. apply entries_org in EN. subst ss'.
  unfold keep. apply Forall_map. apply Forall_forall. intros e I. apply filter_In in I as [I _]. rewrite Forall_forall in F3. apply F3. now apply in_map.
Qed.
Lemma process_inv (P : surface -> Prop) fuel i o :
  (forall n s x t, P s -> explode_macrobody n s = Some x -> In t (inherit s (x_surfs x)) -> P t) ->
  (forall cards s t, apply_transform cards s = Some t -> P s -> P t) -> (forall s, P s -> P (with_bc VACUUM s)) ->
  process fuel i = Done o -> Forall P (i_surfs i) -> Forall P (o_surfs o).
Proof.
  intros X1 X2 X3 E F. apply (process_after P fuel i o); auto. intros d FL.
  unfold flatten_macrobodies in FL. cbn [FlattenModel.d_surfs] in FL. destruct (flatten_loop _ _) as [d'|] eqn:L; [|discriminate]. injection FL as <-. cbn [FlattenModel.d_surfs].
  apply (flatten_loop_inv P X1) in L; [|exact F|exact F]. apply Forall_forall. intros s I. apply filter_In in I as [I _]. rewrite Forall_forall in L. now apply L.
Qed.

(** No surface is reflecting, white or periodic (C40), and no cone is cut to one sheet unless it was read so. *)
Definition plain_bc (s : surface) : Prop := s_bc s = TRANSMISSION \/ s_bc s = VACUUM.
Lemma new_surfaces n s x t : explode_macrobody n s = Some x -> In t (inherit s (x_surfs x)) -> plain_bc t /\ ~ sheeted t.
Proof.
  assert (K : explode_macrobody n s = Some x -> Forall (fun t => s_bc t = TRANSMISSION /\ match s_type t with PLANE_X | PLANE_Y | PLANE_Z | PLANE_GENERAL | GENERAL_QUADRATIC => True | _ => False end) (x_surfs x)).
  { unfold explode_macrobody. generalize (s_coef s). intros l E. destruct (s_type s); try (injection E as <-; constructor);
      repeat (match type of E with match ?l with _ => _ end = _ => destruct l as [|? ?] end; try discriminate E);
      injection E as <-; cbn [x_surfs]; repeat (constructor; [split; [reflexivity|exact I]|]); constructor. }
  intros E I. specialize (K E). rewrite Forall_forall in K.
  assert (exists u, In u (x_surfs x) /\ s_bc t = s_bc u /\ s_type t = s_type u) as (u & IU & B & TY).
  { unfold inherit in I. destruct (s_tr s); [apply in_map_iff in I as (u & <- & I); exists u; auto|exists t; auto]. }
  destruct (K u IU) as [K1 K2]. unfold plain_bc, sheeted. rewrite B, TY, K1. split; [now left|]. destruct (s_type u); tauto.
Qed.
Lemma transform_inv cards s t : apply_transform cards s = Some t -> s_bc t = s_bc s /\ (~ sheeted s -> ~ sheeted t).
Proof.
  assert (G : forall s g, SurfModel.generalise s = Some g -> s_bc g = s_bc s /\ (s_type g = GENERAL_QUADRATIC \/ g = s)).
  { clear. intros s g. unfold SurfModel.generalise. destruct (s_type s) eqn:TS, (s_coef s) as [|? [|? [|? [|? [|? [|? [|? [|? [|? [|? ?]]]]]]]]]]; try discriminate;
      intro E; injection E as <-; split; auto. }
  unfold apply_transform. destruct (s_tr s) as [id|]; [|intro E; injection E as <-; auto]. destruct (is_macrobody s); [intro E; injection E as <-; auto|].
  destruct (SurfModel.generalise s) as [g|] eqn:EG; [|discriminate]. destruct (G s g EG) as [B TY].
  assert (SG : ~ sheeted s -> ~ sheeted g) by (intro N; destruct TY as [TY| ->]; [unfold sheeted; now rewrite TY|exact N]).
  destruct (cards id) as [tr|]; [|intro E; injection E as <-; auto].
  destruct (transform g tr) as [m|] eqn:TR; [|discriminate].
  assert (M : s_bc m = s_bc g /\ (m = g \/ 10 <= length (s_coef m))).
  { clear - TR. unfold transform in TR. destruct (s_tr g); [|injection TR as <-; auto].
    destruct (s_coef g) as [|? [|? [|? [|? [|? [|? [|? [|? [|? [|? ?]]]]]]]]]]; try discriminate TR.
    destruct (t_shift tr) as [[? ?] ?], (t_v1 tr) as [[? ?] ?], (t_v2 tr) as [[? ?] ?], (t_v3 tr) as [[? ?] ?]. injection TR as <-.
    split; [reflexivity|]. right. cbn [set_tc s_coef app length]. lia. }
  destruct M as [BM CM]. assert (SM : ~ sheeted s -> ~ sheeted m).
  { intro N. destruct CM as [->|L]; [auto|]. unfold sheeted. destruct (s_type m), (s_coef m) as [|? [|? [|? [|? [|? [|? ?]]]]]]; cbn [length] in L; try tauto; lia. }
  unfold simplify. destruct (s_type m) eqn:TM; try (intro E; injection E as <-; split; [congruence|exact SM]).
  destruct (forallb _ (firstn 5 _)); [|destruct (forallb _ (firstn 7 _))].
  - destruct (s_coef m) as [|? [|? [|? [|? [|? [|? [|? [|? [|? [|? ?]]]]]]]]]]; try discriminate. intro E. injection E as <-. split; [cbn [set_tc s_bc]; congruence|intros _ []].
  - destruct (s_coef m) as [|? [|? [|? [|? [|? [|? [|? [|? [|? [|? ?]]]]]]]]]]; try discriminate. intro E. injection E as <-. split; [cbn [set_tc s_bc]; congruence|intros _ []].
  - intro E. injection E as <-. split; [congruence|exact SM].
Qed.

(** The k-th cell of the deck is the k-th cell of the file. *)
Record cell_means (str : R -> text) (show : Q -> text) (cells : list cell_says) (surfs : list surf_says) (ds : list data_says)
    (d : ConvertModel.deck) (k : nat) (c : cell_says) (g : gcell) : Prop := {
  cm_id : g_id g = cs_id c;
  cm_imp : importance ds k c (g_imp g);
  cm_void : cs_mat c = None -> g_mat g = 0%Z;
  (* the material it now has is that of its card, with its density *)
  cm_mat : forall m q, cs_mat c = Some (m, q) -> g_dens g = show q /\ (0 < g_mat g)%Z /\
    exists a, dget (str_Z (g_mat g)) (d_mats d) = Some a /\ m_num a = str_Z (g_mat g) /\ (m_dens a == q)%Q /\
      forall es, last_for (str_Z m) (mats_of ds) es -> made_of es (m_comp a) /\ libraries es (m_xs a);
  cm_univ : forall v, has_kw (KU v) (cs_keys c) -> g_univ g = Some v;
  cm_nouniv : (forall v, ~ has_kw (KU v) (cs_keys c)) -> g_univ g = None;
  cm_fill : forall star v tr m, has_kw (KFill star v tr) (cs_keys c) -> fill_means (trs_of ds) star tr m -> g_fill g = Some v /\ motion_shown str g m;
  cm_nofill : (forall star v tr, ~ has_kw (KFill star v tr) (cs_keys c)) -> g_fill g = None /\ g_offset g = None /\ g_rot g = None;
  cm_words : forall w, In w (placing_words g) -> (exists x, w = str x) \/
    exists star v sep inner, has_kw (KFill star v (Some (sep, inner))) (cs_keys c) /\ In w (words inner);
  cm_laid : laid (g_items g) /\ canon (g_items g);
  (* it names surfaces of the deck only *)
  cm_surfs : forall n, CellProofs.mentions (g_items g) n -> In n (map (fun s => s_id (fst s)) (d_surfs d));
  (* a point that is on no surface is in its region exactly when it is in the cell *)
  cm_region : exists r, expr (toks (g_items g)) r /\
    forall p env incell, means_at cells surfs (trs_of ds) p env incell ->
    forall sense, (forall s sn, In s (d_surfs d) -> surf_sense (fst s) = Some sn -> (sense (s_id (fst s)) = true <-> pos sn p)) ->
    holds (zenv sense) r = incell (str_Z (cs_id c)) }.

(** The deck is the file. *)
Record deck_means (str : R -> text) (show : Q -> text) (cells : list cell_says) (surfs : list surf_says) (ds : list data_says)
    (d : ConvertModel.deck) : Prop := {
  dm_ids : NoDup (map (fun s => s_id (fst s)) (d_surfs d));
  dm_surfs : forall s, In s (d_surfs d) -> (0 < s_id (fst s))%Z /\ exists sn, surf_sense (fst s) = Some sn;
  dm_count : length (d_cells d) = length cells;
  dm_cells : forall k c g, nth_error cells k = Some c -> nth_error (d_cells d) k = Some g -> cell_means str show cells surfs ds d k c g;
  (* two cells share a material exactly when they had the same number and density *)
  dm_share : forall k1 k2 c1 c2 g1 g2 m1 m2 q1 q2, nth_error cells k1 = Some c1 -> nth_error cells k2 = Some c2 ->
    nth_error (d_cells d) k1 = Some g1 -> nth_error (d_cells d) k2 = Some g2 -> cs_mat c1 = Some (m1, q1) -> cs_mat c2 = Some (m2, q2) ->
    (g_mat g1 = g_mat g2 <-> m1 = m2 /\ (q1 == q2)%Q);
  (* every material is that of a card, as soon as some cell has a material *)
  dm_keys : NoDup (keys (d_mats d));
  dm_mats : forall k a, In (k, a) (d_mats d) -> m_num a = k /\
    exists n es, last_for n (mats_of ds) es /\ ((exists c, In c cells /\ cs_mat c <> None) -> made_of es (m_comp a) /\ libraries es (m_xs a));
  (* the surfaces are transmitting or they are the outside *)
  dm_bc : forall s, In s (d_surfs d) -> plain_bc (fst s);
  (* a point of which the cards tell on which side it is, is on no surface of the deck *)
  dm_off : forall p env incell, means_at cells surfs (trs_of ds) p env incell ->
    forall s sn, In s (d_surfs d) -> surf_sense (fst s) = Some sn -> exists b, side sn p b }.

Lemma forall2_nth {A B} (P : A -> B -> Prop) l l' : Forall2 P l l' -> forall k a b, nth_error l k = Some a -> nth_error l' k = Some b -> P a b.
Proof. induction 1 as [|x y l l' H F IH]; intros [|k] a b H1 H2; try discriminate; cbn [nth_error] in *; [congruence|eauto]. Qed.
Lemma nth_combine {A B} (l : list A) : forall (l' : list B) k a b, nth_error l k = Some a -> nth_error l' k = Some b -> In (a, b) (combine l l').
Proof. induction l as [|x l IH]; intros [|y l'] [|k] a b H1 H2; try discriminate; cbn [nth_error combine] in *; [left; congruence|right; eauto]. Qed.
Lemma nth_there {A B} (l : list A) (l' : list B) k a : length l = length l' -> nth_error l k = Some a -> exists b, nth_error l' k = Some b.
Proof. intros L E. destruct (nth_error l' k) eqn:E'; [eauto|]. apply nth_error_None in E'. assert (k < length l) by (apply nth_error_Some; congruence). lia. Qed.

Lemma nth_map_inv {A B} (f : A -> B) l : forall k b, nth_error (map f l) k = Some b -> exists a, nth_error l k = Some a /\ f a = b.
Proof. induction l as [|x l IH]; intros [|k] b E; try discriminate; cbn [map nth_error] in *; [injection E as <-; eauto|eauto]. Qed.

Lemma gcells_nth str show : forall xs ks ps ms k g, nth_error (gcells str show xs ks ps ms) k = Some g ->
  exists x kw pl m, nth_error xs k = Some x /\ nth_error ks k = Some kw /\ nth_error ps k = Some pl /\ nth_error ms k = Some m /\ g = gcell_of str show x kw pl m.
Proof.
  induction xs as [|x xs IH]; intros [|kw ks] [|pl ps] [|m ms] [|k] g E; try discriminate; cbn [gcells nth_error] in *; [injection E as <-; eauto 10|eauto].
Qed.
Lemma gcells_length str show : forall xs ks ps ms, length ks = length xs -> length ps = length xs -> length ms = length xs -> length (gcells str show xs ks ps ms) = length xs.
Proof. induction xs as [|x xs IH]; intros [|kw ks] [|pl ps] [|m ms] L1 L2 L3; try discriminate; [reflexivity|]. cbn [gcells length] in *. f_equal. apply IH; lia. Qed.

Lemma values_shown str l vs : values l vs -> Forall2 (shows str) (map (print_unum str) l) vs.
Proof.
  unfold values. induction 1 as [|u v l vs E F IH]; cbn [map]; constructor; [|exact IH]. destruct u; cbn [print_unum uval] in *; [now left|injection E as <-; now right|injection E as <-; now right].
Qed.

Lemma mapM_all {A B} (f : A -> option B) l : (forall x, In x l -> f x <> None) -> exists ys, mapM f l = Some ys /\ Forall2 (fun x y => f x = Some y) l ys.
Proof.
  induction l as [|x l IH]; intro H; [exists []; split; [reflexivity|constructor]|]. destruct (f x) as [y|] eqn:E; [|exfalso; apply (H x); [now left|exact E]].
  destruct IH as (ys & E1 & F); [intros z I; apply H; now right|]. exists (y :: ys). cbn [mapM]. rewrite E, E1. split; [reflexivity|now constructor].
Qed.

Section Main.
Context (str : R -> text) (show : Q -> text).

Lemma memory_deck cells surfs ds rank quick p :
  Forall (fun c => Forall good_entry (cs_keys c) /\ forall m q, cs_mat c = Some (m, q) -> (0 < m)%Z) cells ->
  good_cards cells surfs ds rank -> memory_fine quick p ->
  Forall2 (fun x y => cell_got x y /\ cell_kept y) cells (f_cells p) -> Forall2 surf_got surfs (f_surfs p) ->
  imps_got ds (f_imps p) -> trans_got ds (f_trans p) -> mats_got ds (f_mats p) ->
  NoDup (keys (f_mats p)) -> (forall k a, In (k, a) (f_mats p) -> m_num a = k) -> Forall (fun s => s_bc s = TRANSMISSION) (f_surfs p) ->
  exists N d, (forall fuel, N <= fuel -> in_memory str show fuel quick p = Done d) /\ deck_means str show cells surfs ds d.
Proof.
  intros GE G FM FC FS IG TG MG MN MK SB.
  assert (LC := forall2_len _ _ _ FC).
  (* importances *)
  destruct (gc_imps _ _ _ _ G) as [NS GI]. assert (EP := imps_processed ds _ IG NS).
  set (xs := map (fun x => (fst x, k_imp (snd x))) (f_cells p)).
  destruct (imps_applied ds (f_imps p) xs IG) as (cs & EA & MA & HA); [split; [exact NS|]; unfold xs; rewrite map_length, <- LC; exact GI|].
  assert (IMP : forall k c y, nth_error cells k = Some c -> nth_error cs k = Some y -> importance ds k c (snd y)).
  { intros k c y H1 H2. destruct (nth_there _ _ k c LC H1) as (x & H3).
    assert (H4 : nth_error xs k = Some (fst x, k_imp (snd x))) by (unfold xs; apply (map_nth_error (fun x => (fst x, k_imp (snd x)))), H3).
    destruct (forall2_nth _ _ _ FC k c x H1 H3) as [(_ & _ & _ & _ & _ & KR) _]. destruct KR as (_ & _ & _ & _ & K1 & K2).
    destruct (HA k _ y H4 H2) as [H|[H E]]; [now left|right]. split; [exact H|]. cbn [snd] in E. rewrite E.
    destruct (existsb (fun e => match e_kw e with KImp _ => true | _ => false end) (cs_keys c)) eqn:EX.
    - left. apply existsb_exists in EX as (e & IE & HE). destruct (e_kw e) as [ | |v| | ] eqn:EK; try discriminate.
      assert (HK : has_kw (KImp v) (cs_keys c)) by (unfold has_kw; apply in_map_iff; now exists e). exists v. split; [exact HK|]. now apply K1.
    - right. assert (NK : forall v, ~ has_kw (KImp v) (cs_keys c)).
      { intros v HK. apply in_map_iff in HK as (e & HE & IE). apply not_true_iff_false in EX. apply EX. apply existsb_exists. exists e. split; [exact IE|]. now rewrite HE. }
      split; [exact NK|]. now apply K2. }
  (* the geometry *)
  assert (GI' := input_good cells surfs ds rank quick p G FM FC FS TG (f_imps p)).
  destruct (C72_process_keeps_geometry_partial _ rank GI') as (N & out & RUN & NR & NX & HO).
  assert (OUT : exists o, out = Done o).
  { destruct out as [o| |]; [now exists o|exfalso; apply NX; [|reflexivity]|now elim NR].
    exists cs. split; [exact EA|]. intros c q I Z. apply In_nth_error in I as (k & HK).
    assert (LK : length cs = length cells) by (rewrite LC; apply (f_equal (@length _)) in MA; unfold xs in MA; now rewrite !map_length in MA).
    destruct (nth_there _ _ k _ LK HK) as (c0 & H0). destruct (nth_there _ _ k c0 LC H0) as (x & HX).
    assert (EC : c = fst x).
    { assert (E1 : nth_error (map fst cs) k = Some c) by exact (map_nth_error fst k cs HK). rewrite MA in E1. unfold xs in E1. rewrite map_map in E1.
      rewrite (map_nth_error (fun x => fst (fst x, k_imp (snd x))) k _ HX) in E1. cbn [fst] in E1. congruence. }
    destruct (forall2_nth _ _ _ FC k c0 x H0 HX) as [(_ & _ & EX & _) K]. subst c. split; [apply K|].
    intros y w IY MY IW NW. destruct (forall2_pick _ _ _ _ FS IY) as (sy & IS & SG). destruct (got_macro _ _ SG MY) as (f & i & _ & _ & SH & _).
    destruct SG as (EID & _). rewrite EID in NW.
    apply (gc_zero _ _ _ _ G k c0 q sy f i w H0 (IMP _ _ _ H0 HK) Z IS SH); [|exact NW]. apply (atom_in_text x); [exact K|exact EX|exact IW|]. now apply (names_atom (ss_id sy)). }
  destruct OUT as (o & ->). destruct (HO o eq_refl) as (O1 & O2 & _ & (cs' & EA' & MO) & OFF & OF). clear HO NX NR.
  cbn [in_of i_imps i_cells] in EA', OF. fold xs in EA', OF. rewrite EA in EA'. injection EA' as <-.
  (* the transformations of universes *)
  assert (PLACE : forall c x, In c cells -> cell_got c x -> exists pl, universe_placing (f_trans p) (snd x) = Some pl /\
     (forall star v tr m, has_kw (KFill star v tr) (cs_keys c) -> fill_means (trs_of ds) star tr m -> placing_means pl m) /\
     ((forall star v tr, ~ has_kw (KFill star v tr) (cs_keys c)) -> p_offset pl = None /\ p_rot pl = None) /\
     forall t, In (UText t) (placing_nums pl) -> exists star v sep inner, has_kw (KFill star v (Some (sep, inner))) (cs_keys c) /\ In t (words inner)).
  { intros c x IC (_ & _ & _ & _ & _ & KR). destruct KR as (_ & _ & F1 & F2 & _). destruct TG as [_ TM].
    assert (GEC : Forall good_entry (cs_keys c)) by (rewrite Forall_forall in GE; now apply GE).
    destruct (existsb (fun e => match e_kw e with KFill _ _ _ => true | _ => false end) (cs_keys c)) eqn:EX.
    - apply existsb_exists in EX as (e & IE & HE). destruct (e_kw e) as [ |star v tr| | | ] eqn:EK; try discriminate.
      assert (HK : has_kw (KFill star v tr) (cs_keys c)) by (unfold has_kw; apply in_map_iff; now exists e).
      assert (LEN : forall star v tr, has_kw (KFill star v tr) (cs_keys c) ->
         match tr with Some (_, inner) => length (words inner) = 1 \/ length (words inner) = 3 \/ length (words inner) = 12 | None => True end).
      { clear - GEC. intros star v [[sep inner]|] HK; [|exact I]. apply in_map_iff in HK as (e & KE & IE). rewrite Forall_forall in GEC.
        destruct (GEC e IE) as (_ & _ & _ & X). rewrite KE in X. apply X. }
      destruct (gc_fill _ _ _ _ G c star v tr IC HK) as (m & FMN).
      destruct (placed_by_card (f_trans p) (trs_of ds) star tr (snd x) m TM (proj2 (F1 _ _ _ HK)) (LEN _ _ _ HK) FMN) as (pl & EPL & PM).
      exists pl. split; [exact EPL|]. split.
      + intros star' v' tr' m' HK' FM'.
        destruct (placed_by_card (f_trans p) (trs_of ds) star' tr' (snd x) m' TM (proj2 (F1 _ _ _ HK')) (LEN _ _ _ HK') FM') as (pl' & EPL' & PM').
        congruence.
      + split; [intro NK; elim (NK star v tr HK)|]. intros t IT.
        destruct (placed_words (f_trans p) (snd x) star tr pl (proj2 (F1 _ _ _ HK)) EPL t IT) as (sep & inner & -> & IW). now exists star, v, sep, inner.
    - assert (NK : forall star v tr, ~ has_kw (KFill star v tr) (cs_keys c)).
      { intros star v tr HK. apply in_map_iff in HK as (e & HE & IE). apply not_true_iff_false in EX. apply EX. apply existsb_exists. exists e. split; [exact IE|]. now rewrite HE. }
      destruct (F2 NK) as (_ & A & B & C). unfold universe_placing, card_placing. rewrite A, B, C. change (text_eqb (T "0") (T "0")) with true. cbv iota.
      eexists. split; [reflexivity|]. split; [intros star v tr m HK; elim (NK _ _ _ HK)|]. split; [intros _; now split|intros t []]. }
  destruct (mapM_all (universe_placing (f_trans p)) (map snd (f_cells p))) as (pls & EPL & FPL).
  { intros k I. apply in_map_iff in I as (x & <- & I). destruct (forall2_pick _ _ _ _ FC I) as (c & IC & CG & _). destruct (PLACE c x IC CG) as (pl & E & _). congruence. }
  (* the materials *)
  set (mcs := map (fun x => mkC (MInt (c_mat (fst x))) (c_dens (fst x))) (f_cells p)).
  assert (FIN : forall n es a, last_for n (mats_of ds) es -> dget n (f_mats p) = Some a -> read_comp es (m_comp a) /\ read_xs es (m_xs a)).
  { intros n es a L D. destruct MG as [_ MG]. destruct (MG n es L) as (a' & E & _ & ND & R). rewrite D in E. injection E as <-. split; [split; [exact ND|intro z; destruct (R z) as (R1 & R2 & _); now split]|intros z l; apply R]. }
  destruct (C33_reorganise show (f_mats p) mcs MN) as (ms' & mcs' & ER & F33 & SH33).
  { unfold mcs. apply Forall_map. apply Forall_forall. intros x _. eexists. reflexivity. }
  { intros m z I E NZ. unfold mcs in I. apply in_map_iff in I as (x & <- & I). cbn [k_mat] in E. injection E as <-.
    destruct (forall2_pick _ _ _ _ FC I) as (c & IC & (_ & CM & _) & _). destruct MG as [MG _]. apply MG.
    destruct (cs_mat c) as [[m q]|] eqn:EM; [|contradiction]. destruct CM as [-> _]. now apply (gc_used _ _ _ _ G c m q). }
  { intros k a I. assert (D : dget k (f_mats p) = Some a) by now apply in_dget.
    assert (IK : In k (map fst (mats_of ds))) by (apply MG; unfold keys; apply in_map_iff; now exists (k, a)). destruct (last_exists k _ IK) as (es & L).
    destruct (comp_finishes es (m_comp a) (m_xs a) (gc_mats _ _ _ _ G k es L) (proj1 (FIN k es a L D)) (proj2 (FIN k es a L D))) as (comp & c' & x' & E1 & E2 & _).
    unfold finish_material. now rewrite E1, E2. }
  destruct (reorganised_numbers show mcs _ _ _ _ ER) as [NR NK].
  { clear. induction mcs as [|c l IH]; constructor; [now left|exact IH]. }
  { exact MK. }
  destruct (reorganised_comps show (fun comp x => exists n es, last_for n (mats_of ds) es /\ read_comp es comp /\ read_xs es x) _ _ _ _ ER MN) as [RK RC].
  { intros k a I. assert (D : dget k (f_mats p) = Some a) by now apply in_dget.
    assert (IK : In k (map fst (mats_of ds))) by (apply MG; unfold keys; apply in_map_iff; now exists (k, a)). destruct (last_exists k _ IK) as (es & L).
    exists k, es. split; [exact L|]. exact (FIN k es a L D). }
  assert (BC : Forall plain_bc (o_surfs o)).
  { apply (process_inv plain_bc N (in_of quick p (f_imps p)) o).
    - intros n s x t _ E I. now apply (new_surfaces n s x t).
    - intros cards s t E B. unfold plain_bc. rewrite (proj1 (transform_inv _ _ _ E)). exact B.
    - intros s _. now right.
    - now apply RUN.
    - cbn [in_of i_surfs]. apply (Forall_impl _) with (2 := SB). intros s E. now left. }
  (* the deck *)
  set (d := ConvertModel.mkDeck (map (fun s => (s, cone_box s (o_bounds o))) (o_surfs o)) (gcells str show (o_cells o) (map snd (f_cells p)) pls mcs') ms' []).
  exists N, d. split.
  { intros fuel HF. unfold in_memory. rewrite EP. fold xs. change (mkIn (f_surfs p) xs (fun id => dget id (f_trans p)) (f_imps p) quick) with (in_of quick p (f_imps p)).
    rewrite (RUN fuel HF), EPL. fold mcs. rewrite ER. reflexivity. }
  assert (SID : map (fun s => s_id (fst s)) (d_surfs d) = map s_id (o_surfs o)) by (unfold d; cbn [ConvertModel.d_surfs]; rewrite map_map; reflexivity).
  assert (L1 : length (o_cells o) = length cells) by (rewrite LC; transitivity (length xs); [symmetry; exact (forall2_len _ _ _ OF)|unfold xs; apply map_length]).
  assert (L2 : length (map snd (f_cells p)) = length (o_cells o)) by (rewrite map_length; congruence).
  assert (L3 : length pls = length (o_cells o)) by (rewrite <- (forall2_len _ _ _ FPL); exact L2).
  assert (L4 : length mcs' = length (o_cells o)) by (rewrite <- (forall2_len _ _ _ F33); unfold mcs; rewrite map_length; congruence).
  (* one cell *)
  assert (ONE : forall k c g, nth_error cells k = Some c -> nth_error (d_cells d) k = Some g ->
    exists x y pl mc mc', nth_error (f_cells p) k = Some x /\ nth_error (o_cells o) k = Some y /\ nth_error pls k = Some pl /\
      nth_error mcs k = Some mc /\ nth_error mcs' k = Some mc' /\ mc = mkC (MInt (c_mat (fst x))) (c_dens (fst x)) /\ g = gcell_of str show y (snd x) pl mc').
  { intros k c g H1 H2. unfold d in H2. cbn [ConvertModel.d_cells] in H2. apply gcells_nth in H2 as (y & kw & pl & mc' & Y1 & Y2 & Y3 & Y4 & ->).
    destruct (nth_there _ _ k c LC H1) as (x & HX). rewrite (map_nth_error snd k _ HX) in Y2. injection Y2 as <-.
    exists x, y, pl, (mkC (MInt (c_mat (fst x))) (c_dens (fst x))), mc'. do 3 (split; [assumption|]).
    split; [exact (map_nth_error (fun x => mkC (MInt (c_mat (fst x))) (c_dens (fst x))) k _ HX)|]. auto. }
  assert (REF : forall k mc', nth_error mcs' k = Some mc' -> number_ref (k_mat mc')).
  { intros k mc' H. destruct (nth_there _ _ k _ (eq_sym (forall2_len _ _ _ NR)) H) as (mc & H'). destruct (forall2_nth _ _ _ NR k _ _ H' H) as [E|E]; [|now right].
    left. rewrite E. unfold mcs in H'. rewrite nth_error_map in H'. destruct (nth_error (f_cells p) k); [|discriminate]. injection H' as <-. eexists. reflexivity. }
  split.
  - rewrite SID. exact O1.
  - intros s I. unfold d in I. cbn [ConvertModel.d_surfs] in I. apply in_map_iff in I as (s0 & <- & I). exact (O2 s0 I).
  - unfold d. cbn [ConvertModel.d_cells]. rewrite gcells_length; [exact L1|exact L2|exact L3|exact L4].
  - intros k c g H1 H2. destruct (ONE k c g H1 H2) as (x & y & pl & mc & mc' & X & Y & PL & MC & MC' & -> & ->).
    destruct (forall2_nth _ _ _ FC k c x H1 X) as [CG CK]. assert (IC := nth_error_In _ _ H1).
    assert (XX : nth_error xs k = Some (fst x, k_imp (snd x))) by exact (map_nth_error (fun x => (fst x, k_imp (snd x))) k _ X).
    destruct (forall2_nth _ _ _ OF k _ _ XX Y) as (Q1 & Q2 & Q3 & Q4 & Q5 & Q6 & r & Q7 & Q8). cbn [fst snd] in *.
    destruct (forall2_nth _ _ _ F33 k _ _ MC MC') as (D1 & D2 & D3). cbn [k_dens k_mat] in *.
    pose proof CG as (C1 & C2 & C3 & C4 & C5 & KR). destruct KR as (K1 & K2 & K3 & K4 & _ & _).
    destruct (PLACE c x IC CG) as (pl' & EPl & P1 & P2 & P3).
    assert (pl' = pl). { pose proof (forall2_nth _ _ _ FPL k _ _ (map_nth_error snd k _ X) PL) as H. cbv beta in H. congruence. } subst pl'.
    split; unfold gcell_of; cbn [g_id g_mat g_dens g_items g_univ g_fill g_offset g_rot g_imp].
    + congruence.
    + assert (LK : nth_error (map snd (o_cells o)) k = Some (snd y)) by exact (map_nth_error snd k _ Y). rewrite MO in LK.
      apply nth_map_inv in LK as (z & EZ & <-).
      now apply IMP.
    + intro EM. rewrite EM in C2. rewrite D2; [reflexivity|]. now rewrite C2.
    + intros m q EM. rewrite EM in C2. destruct C2 as [C2 CQ]. assert (PM : (0 < m)%Z) by (rewrite Forall_forall in GE; apply (proj2 (GE c IC) m q EM)).
      split; [now rewrite D1, CQ|]. destruct (D3 (c_mat (fst x)) eq_refl) as (a & a' & comp & A1 & A2 & A3 & A4 & A5); [lia|].
      assert (RF := REF k mc' MC'). rewrite (number_key _ RF) in A2.
      assert (POS : (0 < mat_number (k_mat mc'))%Z).
      { destruct (forall2_nth _ _ _ NR k _ _ MC MC') as [E|(n & PN & E)]; rewrite E; cbn [mat_number k_mat]; [congruence|rewrite py_int_str_Z; exact PN]. }
      split; [exact POS|]. exists a'. split; [exact A2|]. split; [apply NK; now apply dget_some_in|]. split; [rewrite A3, CQ; reflexivity|].
      intros es L. rewrite C2 in A1. destruct (comp_finishes es (m_comp a) (m_xs a) (gc_mats _ _ _ _ G _ es L) (proj1 (FIN _ es a L A1)) (proj2 (FIN _ es a L A1))) as (comp' & c' & x' & E1 & E2 & MO').
      rewrite A4 in E1. injection E1 as <-. rewrite A5 in E2. injection E2 as <- <-. exact MO'.
    + exact K1.
    + exact K2.
    + intros star v tr m HK FMN. split; [now apply (K3 star v tr)|]. destruct (P1 star v tr m HK FMN) as [V1 V2]. unfold motion_shown. cbn [g_offset g_rot flat_map app].
      split.
      * destruct (p_offset pl); cbn [option_map]; [now apply values_shown|exact V1].
      * destruct (p_rot pl); cbn [option_map]; [now apply values_shown|exact V2].
    + intro NF. destruct (K4 NF) as (H & _). destruct (P2 NF) as [-> ->]. auto.
    + intros w IW. assert (IM : In w (map (print_unum str) (placing_nums pl))).
      { unfold placing_words in IW. cbn [g_offset g_rot] in IW. unfold placing_nums. rewrite map_app. destruct (p_offset pl), (p_rot pl); exact IW. }
      apply in_map_iff in IM as ([t|q|r0] & <- & IM); cbn [print_unum]; [right; now apply P3|left; eexists; reflexivity|left; eexists; reflexivity].
    + now split.
    + rewrite SID. exact Q6.
    + exists r. split; [exact Q7|]. intros q env incell MN' sense SE. rewrite <- C1. apply (Q8 q env incell).
      * now apply (input_reads cells surfs ds rank quick p G FC FS TG).
      * intros s sn I. apply (SE (s, cone_box s (o_bounds o)) sn). unfold d. cbn [ConvertModel.d_surfs]. apply in_map_iff. now exists s.
  - intros k1 k2 c1 c2 g1 g2 m1 m2 q1 q2 H1 H2 G1 G2 M1 M2.
    destruct (ONE k1 c1 g1 H1 G1) as (x1 & y1 & pl1 & mc1 & mc1' & X1 & _ & _ & MC1 & MC1' & E1 & ->).
    destruct (ONE k2 c2 g2 H2 G2) as (x2 & y2 & pl2 & mc2 & mc2' & X2 & _ & _ & MC2 & MC2' & E2 & ->). subst mc1 mc2.
    destruct (forall2_nth _ _ _ FC k1 c1 x1 H1 X1) as [(_ & A & _) _]. rewrite M1 in A. destruct A as [A1 A2].
    destruct (forall2_nth _ _ _ FC k2 c2 x2 H2 X2) as [(_ & B & _) _]. rewrite M2 in B. destruct B as [B1 B2].
    assert (P1 : (0 < m1)%Z) by (rewrite Forall_forall in GE; exact (proj2 (GE c1 (nth_error_In _ _ H1)) m1 q1 M1)).
    assert (P2 : (0 < m2)%Z) by (rewrite Forall_forall in GE; exact (proj2 (GE c2 (nth_error_In _ _ H2)) m2 q2 M2)).
    unfold gcell_of. cbn [g_mat].
    pose proof (SH33 _ _ _ _ m1 m2 (nth_combine _ _ _ _ _ MC1 MC1') (nth_combine _ _ _ _ _ MC2 MC2')) as S. cbn [k_mat k_dens] in S.
    rewrite A1, B1 in S. specialize (S eq_refl eq_refl). rewrite A2, B2 in S. rewrite <- S by lia.
    rewrite (number_key _ (REF _ _ MC1')), (number_key _ (REF _ _ MC2')). split; [now intros ->|apply str_Z_inj].
  - exact RK.
  - intros k a I. split; [now apply NK|]. destruct (RC k a I) as (comp & x & (n & es & L & R & RX) & _ & H). exists n, es. split; [exact L|].
    intros (c & IC & NM). destruct (forall2_in_left _ _ _ c FC IC) as (y & IY & (_ & CM & _) & _).
    destruct (cs_mat c) as [[m q]|] eqn:EM; [|congruence]. destruct CM as [CM _].
    assert (PM : (0 < m)%Z) by (rewrite Forall_forall in GE; apply (proj2 (GE c IC) m q EM)).
    destruct (H (mkC (MInt (c_mat (fst y))) (c_dens (fst y))) (c_mat (fst y))) as (c1 & E1 & E2); [unfold mcs; apply in_map_iff; now exists y|reflexivity|lia|].
    destruct (comp_finishes es comp x (gc_mats _ _ _ _ G n es L) R RX) as (comp' & c' & x2 & E1' & E2' & MO').
    rewrite E1 in E1'. injection E1' as <-. rewrite E2 in E2'. injection E2' as <- <-. exact MO'.
  - intros s I. unfold d in I. cbn [ConvertModel.d_surfs] in I. apply in_map_iff in I as (s0 & <- & I). cbn [fst]. revert s0 I. apply Forall_forall. exact BC.
  - intros q env incell MN' s sn I Es. unfold d in I. cbn [ConvertModel.d_surfs] in I. apply in_map_iff in I as (s0 & <- & I).
    apply (OFF q env incell) with (s := s0); [now apply (input_reads cells surfs ds rank quick p G FC FS TG)|exact I|exact Es].
Qed.
End Main.

(** C83: a file of a title, cell cards, surface cards and data cards, with comments and continuation lines, is read and
    processed, and the deck that the writers are given is what the file means: every cell is there, with its number,
    importance, material and density, universe, fill and motion, and contains the points its card says.  (Missing, because
    false or not modelled: what C81 leaves out and what [good_cards] and [memory_fine] exclude.) *)
Theorem C83_file_to_deck_partial str show quick s title noisy cells b1 surfs b2 data rank :
  file_of s (title :: noisy) -> sub_in (T "message") title = false ->
  with_comments (flat_map (fun x => card_lines (fst x)) cells ++ b1 :: flat_map (fun x => card_lines (fst x)) surfs ++ b2 ::
                 flat_map (fun x => card_lines (fst x)) data) noisy ->
  b1 <> [] -> spaces b1 -> b2 <> [] -> spaces b2 ->
  says_cells cells -> says_surfs surfs -> says_datas data ->
  good_cards (map snd cells) (map snd surfs) (map snd data) rank ->
  (forall p, read_file 1 s = Some p -> memory_fine quick p) ->
  exists N d, (forall fuel, N <= fuel -> load str show fuel quick s = Done d) /\
    deck_means str show (map snd cells) (map snd surfs) (map snd data) d.
Proof.
  intros H1 H2 H3 H4 H5 H6 H7 SC SS SD G FM.
  destruct (file_read s title noisy cells b1 surfs b2 data H1 H2 H3 H4 H5 H6 H7 SC SS SD) as (p & R & _ & FC & FS & IG & TG & MG).
  destruct (read_file_mats _ _ _ (R 0)) as [MN MK].
  assert (FC' : Forall2 (fun x y => cell_got x y /\ cell_kept y) (map snd cells) (f_cells p)) by (clear - FC; induction FC; cbn [map]; constructor; auto).
  assert (FS' : Forall2 surf_got (map snd surfs) (f_surfs p)) by (clear - FS; induction FS as [|x y l l' [H _] F IH]; cbn [map]; constructor; auto).
  assert (SB := read_file_bc _ _ _ (R 0)).
  destruct (memory_deck str show (map snd cells) (map snd surfs) (map snd data) rank quick p) as (N & d & RUN & D); auto.
  - apply Forall_map. apply (Forall_impl _) with (2 := SC). intros [c x] [_ SY]. cbn [fst snd] in *.
    destruct SY as (head & tail & wid & wm & geom & _ & _ & _ & GE & _ & _ & _ & _ & _ & _ & _ & M). split; [exact GE|].
    intros m q E. rewrite E in M. apply M.
  - exists (S N), d. split; [|exact D]. intros [|fuel] HF; [lia|]. unfold load. rewrite R. apply RUN. lia.
Qed.
Print Assumptions C83_file_to_deck_partial.

(** A file with two materials of one number, a universe moved by a TR card, a moved macrobody, an element, and an outside
    given as the complement of a cell. *)
Definition file83 : text :=
  T "Two boxes in a sphere" ++ newline :: T "C the cells" ++ newline ::
  T "1 1 -7.8 -1 $ steel" ++ newline :: T "        2 U=3" ++ newline ::
  T "2 1 -2.5 -2 U=3" ++ newline :: T "3 0 -1 FILL=3 (7)" ++ newline :: T "4 0 #3" ++ newline :: newline ::
  T "1 SO 9 $ ball" ++ newline :: T "2 7 RPP 0 1 0 1" ++ newline :: T "       0 2" ++ newline :: newline ::
  T "IMP:N 1 1" ++ newline :: T "      1 0" ++ newline :: T "TR7 0 0" ++ newline :: T "     5" ++ newline ::
  T "m1 8000 0.5 $ oxygen" ++ newline :: T "     1001.70c 1.5" ++ newline :: T "nps 1000" ++ [newline].
Definition motion7 : motion := Motion (Pt 0 0 5) (Pt 1 0 0) (Pt 0 1 0) (Pt 0 0 1).
Definition cells83 : list (card * cell_says) :=
  [((mkL (T "1 1 -7.8 -1 ") (Some (T " steel")), [mkL (T "        2 u=3") None]),
    mkCS 1 (Some (1%Z, (-78 # 10)%Q)) (RAnd (RAtom (T "-1")) (RAtom (T "2"))) [mkE (T " ") (KU (T "3")) false false]);
   ((mkL (T "2 1 -2.5 -2 u=3") None, []),
    mkCS 2 (Some (1%Z, (-25 # 10)%Q)) (RAtom (T "-2")) [mkE (T " ") (KU (T "3")) false false]);
   ((mkL (T "3 0 -1 fill=3 (7)") None, []),
    mkCS 3 None (RAtom (T "-1")) [mkE (T " ") (KFill false (T "3") (Some (T " ", T "7"))) false false]);
   ((mkL (T "4 0 #3") None, []), mkCS 4 None (RAtom (T "#3")) [])].
Definition surfs83 : list (card * surf_says) :=
  [((mkL (T "1 so 9 ") (Some (T " ball")), []), mkSS 1 None (Plain (of_fun (sphere 0 0 0 9))));
   ((mkL (T "2 7 rpp 0 1 0 1") None, [mkL (T "       0 2") None]), mkSS 2 (Some (T "7")) (Body (rpp_facets 0 1 0 1 0 2) (in_rpp 0 1 0 1 0 2)))].
Definition data83 : list (card * data_says) :=
  [((mkL (T "imp:n 1 1") None, [mkL (T "      1 0") None]), DImp NEUTRON [T "1"; T "1"; T "1"; T "0"]);
   ((mkL (T "tr7 0 0") None, [mkL (T "     5") None]), DTr (T "7") motion7);
   ((mkL (T "m1 8000 0.5 ") (Some (T " oxygen")), [mkL (T "     1001.70c 1.5") None]),
    DMat (T "1") [Nuclide (T "8000") (T "0.5"); Nuclide (T "1001.70c") (T "1.5")]);
   ((mkL (T "nps 1000") None, []), DOther)].

Lemma file83_read : file_of file83 ((T "two boxes in a sphere" ++ [newline]) :: (T "c the cells" ++ [newline]) ::
   (flat_map (fun x => card_lines (fst x)) cells83 ++ [newline] :: flat_map (fun x => card_lines (fst x)) surfs83 ++ [newline] ::
                 flat_map (fun x => card_lines (fst x)) data83)).
Proof.
  exists (readlines file83). split; [vm_compute; reflexivity|]. split; [|vm_compute; reflexivity].
  assert (E : forallb ended (readlines file83) = true) by (vm_compute; reflexivity).
  apply Forall_forall. intros x I. rewrite forallb_forall in E. now apply ended_ok, E.
Qed.
Lemma comments83 : with_comments (flat_map (fun x => card_lines (fst x)) cells83 ++ [newline] :: flat_map (fun x => card_lines (fst x)) surfs83 ++ [newline] ::
                 flat_map (fun x => card_lines (fst x)) data83) 
   ((T "c the cells" ++ [newline]) :: (flat_map (fun x => card_lines (fst x)) cells83 ++ [newline] :: flat_map (fun x => card_lines (fst x)) surfs83 ++ [newline] ::
                 flat_map (fun x => card_lines (fst x)) data83)).
Proof.
  apply (wc_comment (T "the cells" ++ [newline])). vm_compute. repeat (apply wc_line; [intros r E; discriminate E|]). apply wc_nil.
Qed.

Lemma one_line t : (~ In "$"%char t) -> (exists c, In c t /\ is_space c = false) -> (~ indented t) -> good_card (mkL t None, []).
Proof. intros N S I. split; [split; [exact N|exact S]|]. cbn [fst snd PropDeck.code]. split; [exact I|constructor]. Qed.
Lemma says_cells83 : says_cells cells83.
Proof.
  assert (NU : number (T "3")) by (exists [], (T "3"), []; repeat split; auto; discriminate).
  constructor; [|constructor; [|constructor; [|constructor; [|constructor]]]]; cbn [fst snd cells83].
  - split.
    + split; [split; [vm_compute; intuition discriminate|exists "1"%char; split; [now left|reflexivity]]|]. cbn [fst snd PropDeck.code].
      split; [intros (r & E); discriminate|]. constructor; [|constructor]. split; [split; [vm_compute; intuition discriminate|exists "2"%char; split; [vm_compute; tauto|reflexivity]]|].
      exists (T "   2 u=3"). reflexivity.
    + exists (T "1 1 -7.8 -1         2"), [newline], (T "1"), (T "1"), (T "-1 2"). cbn [cs_keys cs_id cs_region cs_mat].
      split; [vm_compute; reflexivity|]. split; [reflexivity|]. split; [reflexivity|].
      split; [constructor; [|constructor]; (split; [reflexivity|]; split; [discriminate|]; split; [|exact I]; exact NU)|].
      split; [repeat constructor; cbn; intuition discriminate|].
      split; [split; [discriminate|reflexivity]|]. split; [split; [discriminate|reflexivity]|]. split; [reflexivity|].
      split; [vm_compute; intuition discriminate|]. split; [reflexivity|]. split; [apply parse_sound; vm_compute; reflexivity|].
      split; [reflexivity|]. split; [reflexivity|]. exists (T "-7.8"). split; [split; [discriminate|reflexivity]|]. split; [vm_compute; reflexivity|vm_compute; reflexivity].
  - split; [apply one_line; [vm_compute; intuition discriminate|exists "2"%char; split; [now left|reflexivity]|intros (r & E); discriminate]|].
    exists (T "2 1 -2.5 -2"), [newline], (T "2"), (T "1"), (T "-2"). cbn [cs_keys cs_id cs_region cs_mat].
    split; [vm_compute; reflexivity|]. split; [reflexivity|]. split; [reflexivity|].
    split; [constructor; [|constructor]; (split; [reflexivity|]; split; [discriminate|]; split; [|exact I]; exact NU)|].
    split; [repeat constructor; cbn; intuition discriminate|].
    split; [split; [discriminate|reflexivity]|]. split; [split; [discriminate|reflexivity]|]. split; [reflexivity|].
    split; [vm_compute; intuition discriminate|]. split; [reflexivity|]. split; [apply parse_sound; vm_compute; reflexivity|].
    split; [reflexivity|]. split; [reflexivity|]. exists (T "-2.5"). split; [split; [discriminate|reflexivity]|]. split; [vm_compute; reflexivity|vm_compute; reflexivity].
  - split; [apply one_line; [vm_compute; intuition discriminate|exists "3"%char; split; [now left|reflexivity]|intros (r & E); discriminate]|].
    exists (T "3 0 -1"), [newline], (T "3"), (T "0"), (T "-1"). cbn [cs_keys cs_id cs_region cs_mat].
    split; [vm_compute; reflexivity|]. split; [reflexivity|]. split; [reflexivity|].
    split; [constructor; [|constructor]; (split; [reflexivity|]; split; [discriminate|]; split; [exact NU|])|].
    { split; [reflexivity|]. split; [reflexivity|]. split; [now left|discriminate]. }
    split; [repeat constructor; cbn; intuition discriminate|].
    split; [split; [discriminate|reflexivity]|]. split; [split; [discriminate|reflexivity]|]. split; [reflexivity|].
    split; [vm_compute; intuition discriminate|]. split; [reflexivity|]. split; [apply parse_sound; vm_compute; reflexivity|].
    split; reflexivity.
  - split; [apply one_line; [vm_compute; intuition discriminate|exists "4"%char; split; [now left|reflexivity]|intros (r & E); discriminate]|].
    exists (T "4 0 #3"), [newline], (T "4"), (T "0"), (T "#3"). cbn [cs_keys cs_id cs_region cs_mat].
    split; [vm_compute; reflexivity|]. split; [reflexivity|]. split; [reflexivity|]. split; [constructor|]. split; [constructor|].
    split; [split; [discriminate|reflexivity]|]. split; [split; [discriminate|reflexivity]|]. split; [reflexivity|].
    split; [vm_compute; intuition discriminate|]. split; [reflexivity|]. split; [apply parse_sound; vm_compute; reflexivity|].
    split; reflexivity.
Qed.
Lemma says_surfs83 : says_surfs surfs83.
Proof.
  constructor; [|constructor; [|constructor]]; cbn [fst snd surfs83].
  - split.
    + split; [split; [vm_compute; intuition discriminate|exists "1"%char; split; [now left|reflexivity]]|]. cbn [fst snd PropDeck.code].
      split; [intros (r & E); discriminate|constructor].
    + exists (T "1"), "so"%string, [T "9"], [9%R]. cbn [ss_id ss_tr ss_shape]. split; [reflexivity|]. split; [vm_compute; intuition discriminate|].
      split; [vm_compute; reflexivity|]. split; [|constructor; constructor]. constructor; [|constructor]. now apply whole_float.
  - split.
    + split; [split; [vm_compute; intuition discriminate|exists "2"%char; split; [now left|reflexivity]]|]. cbn [fst snd PropDeck.code].
      split; [intros (r & E); discriminate|]. constructor; [|constructor]. split; [split; [vm_compute; intuition discriminate|exists "0"%char; split; [vm_compute; tauto|reflexivity]]|].
      exists (T "  0 2"). reflexivity.
    + exists (T "2"), "rpp"%string, [T "0"; T "1"; T "0"; T "1"; T "0"; T "2"], [0; 1; 0; 1; 0; 2]%R. cbn [ss_id ss_tr ss_shape]. split; [reflexivity|]. split; [vm_compute; intuition discriminate|].
      split; [split; [vm_compute; reflexivity|vm_compute; discriminate]|]. split; [|constructor]. repeat (constructor; [now apply whole_float|]). constructor.
Qed.
Lemma says_datas83 : says_datas data83.
Proof.
  assert (NI : forall r, ~ indented ("i"%char :: r) /\ ~ indented ("t"%char :: r) /\ ~ indented ("m"%char :: r) /\ ~ indented ("n"%char :: r)) by (intro r; repeat split; intros (x & E); discriminate).
  assert (NM : forall x, is_material_line x = false -> ~ material_name x) by (intros x E M; apply is_material_spec in M; congruence).
  split.
  - constructor; [|constructor; [|constructor; [|constructor; [|constructor]]]]; cbn [fst snd]; (split; [split; [apply NI|]|]).
    + constructor; [|constructor]. exists (T " 1 0" ++ [newline]). reflexivity.
    + exists (T "1 1"). split; [reflexivity|]. split; [reflexivity|]. split; [|reflexivity]. constructor; [|constructor]. split; [reflexivity|]. now apply NM.
    + constructor; [|constructor]. exists (T "5" ++ [newline]). reflexivity.
    + exists false, [T "0"; T "0"; T "5"], [0; 0; 5]%R. split; [exists (T " 0 0"); reflexivity|]. split; [now repeat constructor|].
      split; [reflexivity|]. split; [vm_compute; intuition discriminate|]. split; [repeat (constructor; [now apply whole_float|]); constructor|].
      split; [constructor|]. split; [discriminate|]. split; [reflexivity|].
      constructor; [|constructor; [|constructor]]; (split; [vm_compute; reflexivity|now apply NM]).
    + constructor; [|constructor]. exists (T "1001.70c 1.5" ++ [newline]). reflexivity.
    + exists (T "8000 0.5 "). split.
      * split; [exists []; repeat split; cbn; lia|]. split; [discriminate|]. split; [reflexivity|]. split; [split; vm_compute; intuition discriminate|].
        constructor; [|constructor]. split; [split; vm_compute; intuition discriminate|]. split; [exists (T "1001.70c 1.5"); reflexivity|reflexivity].
      * split; [vm_compute; reflexivity|]. split.
        -- repeat (constructor; [split; [unfold no_eq; vm_compute; intuition discriminate|split; [unfold no_eq; vm_compute; intuition discriminate|vm_compute; discriminate]]|]). constructor.
        -- constructor; [|constructor; [|constructor]]; vm_compute; reflexivity.
    + constructor.
    + split; [intros [(r & E)|(r & E)]; discriminate|]. constructor; [|constructor]. split; [vm_compute; reflexivity|now apply NM].
  - eexists [_; _; _], _, _. split; [reflexivity|]. split; discriminate.
Qed.

Lemma lists83 z : lists z [Nuclide (T "8000") (T "0.5"); Nuclide (T "1001.70c") (T "1.5")] -> z = T "8000" \/ z = T "1001".
Proof. intros (w & f & [E|[E|[]]] & <-); injection E as <- <-; [left|right]; reflexivity. Qed.
Lemma last_imp83 vs : last_imp (map snd data83) vs -> vs = [T "1"; T "1"; T "1"; T "0"].
Proof.
  intros (a & b & E & _). cbn [map snd data83] in E. destruct a as [|? [|? [|? [|? a]]]]; cbn [app] in E; try discriminate; [now injection E as <- _|].
  apply (f_equal (@length _)) in E. cbn [length] in E. rewrite app_length in E. cbn [length] in E. lia.
Qed.

Lemma good_cards83 : good_cards (map snd cells83) (map snd surfs83) (map snd data83) Z.to_nat.
Proof.
  assert (BODY : forall s f i, In s (map snd surfs83) -> ss_shape s = Body f i -> ss_id s = 2%Z).
  { intros s f i [<-|[<-|[]]]; [discriminate|reflexivity]. }
  split.
  - cbn [map snd surfs83 ss_id]. repeat constructor; cbn; intuition discriminate.
  - intros s [<-|[<-|[]]]; reflexivity.
  - intros s t f i f' i' u I J B B' N. elim N. now rewrite (BODY s f i I B), (BODY t f' i' J B').
  - intros s id [<-|[<-|[]]]; [discriminate|]. cbn [snd ss_tr]. injection 1 as <-. now left.
  - intros c [<-|[<-|[<-|[<-|[]]]]]; (split; [reflexivity|]); intros w; cbn [snd cs_region atoms app In].
    + intros [<-|[<-|[]]]; left; [exists (mkSS 1 None (Plain (of_fun (sphere 0 0 0 9)))), true|eexists (mkSS 2 _ _), false]; (split; [cbn [map surfs83 snd]; auto using in_eq, in_cons|reflexivity]).
    + intros [<-|[]]. left. eexists (mkSS 2 _ _), true. split; [right; left; reflexivity|reflexivity].
    + intros [<-|[]]. left. eexists (mkSS 1 _ _), true. split; [left; reflexivity|reflexivity].
    + intros [<-|[]]. right. right. eexists. split; [right; right; left; reflexivity|]. split; [reflexivity|]. cbn [snd cs_id]. lia.
  - intros c star v tr [<-|[<-|[<-|[<-|[]]]]]; intros H; cbn in H; try (destruct H as [H|[]]; discriminate H); [|destruct H].
    destruct H as [H|[]]. injection H as <- <- <-. exists motion7. cbn [fill_means]. set (w := words _). vm_compute in w. subst w. cbv iota.
    split; [discriminate|]. exists [], []. split; [reflexivity|intros []].
  - split.
    + intros p vs v I IV. cbn [map snd data83 In] in I. destruct I as [I|[I|[I|[I|[]]]]]; try discriminate. injection I as <- <-.
      cbn [In] in IV. destruct IV as [<-|[<-|[<-|[<-|[]]]]]; split; vm_compute; intuition discriminate.
    + intros _. exists [T "1"; T "1"; T "1"; T "0"]. split; [exists []; eexists; split; [reflexivity|]|split; [cbn; lia|]].
      * intros ws I. cbn [In] in I. intuition discriminate.
      * repeat (constructor; [vm_compute; discriminate|]). constructor.
  - intros k c q s f i w HC IM Z IS B IW NM. rewrite (BODY s f i IS B) in NM.
    assert (LI : last_imp (map snd data83) [T "1"; T "1"; T "1"; T "0"]).
    { exists []. eexists. split; [reflexivity|]. intros ws I. cbn [In] in I. intuition discriminate. }
    assert (K : k < 4) by (change 4 with (length (map snd cells83)); apply nth_error_Some; congruence).
    destruct IM as [(vs & v & L & NV & PF)|[L _]]; [|specialize (L _ LI); cbn [length] in L; lia].
    rewrite (last_imp83 vs L) in NV.
    destruct k as [|[|[|[|k]]]]; cbn [nth_error] in NV; try (injection NV as <-; vm_compute in PF; injection PF as <-; vm_compute in Z; discriminate Z); [|lia].
    injection HC as <-. cbn [snd cs_region atoms In] in IW. destruct IW as [<-|[]]. destruct NM as [E|[E|(sg & j & _ & E)]]; try discriminate. destruct sg; discriminate.
  - intros n es (a & b & E & _).
    assert (ES : es = [Nuclide (T "8000") (T "0.5"); Nuclide (T "1001.70c") (T "1.5")]).
    { change (mats_of (map snd data83)) with [(T "1", [Nuclide (T "8000") (T "0.5"); Nuclide (T "1001.70c") (T "1.5")])] in E.
      destruct a as [|? a]; [now injection E as <- <- _|]. injection E as _ E. destruct a; discriminate. }
    subst es. clear E. assert (P8 : py_int (T "8000") = Some 8000%Z) by (vm_compute; reflexivity). assert (P1 : py_int (T "1001") = Some 1001%Z) by (vm_compute; reflexivity). split.
    + intros z L. destruct (lists83 z L) as [-> | ->]; eexists; (split; [vm_compute; reflexivity|reflexivity]).
    + intros z z' L L' E. destruct (lists83 z L) as [-> | ->], (lists83 z' L') as [-> | ->]; try reflexivity; vm_compute in E; discriminate.
    + intros z z' y n' L L' E E' M EY. destruct (lists83 z L) as [-> | ->]; rewrite ?P8, ?P1 in E; assert (Y : (8000 = 1000 * y \/ 1001 = 1000 * y)%Z) by (left + right; congruence);
        destruct (lists83 z' L') as [-> | ->]; rewrite ?P8, ?P1 in E'; assert (N : (n' = 8000 \/ n' = 1001)%Z) by (left + right; congruence);
        destruct N as [-> | ->]; try (now elim M); change (1001 / 1000)%Z with 1%Z in EY; lia.
    + intros z y L E. destruct (lists83 z L) as [-> | ->]; rewrite ?P8, ?P1 in E.
      * assert (Y : (8000 = 1000 * y)%Z) by congruence. assert (y = 8%Z) by lia. subst y. split; vm_compute; discriminate.
      * assert (Y : (1001 = 1000 * y)%Z) by congruence. lia.
    + vm_compute. discriminate.
  - intros c m d [<-|[<-|[<-|[<-|[]]]]]; cbn [snd cs_mat]; try discriminate; injection 1 as <- <-; now left.
Qed.

Lemma memory_fine83 p : read_file 1 file83 = Some p -> memory_fine true p.
Proof.
  intro R. destruct (C81_file_partial file83 _ _ cells83 [newline] surfs83 [newline] data83 file83_read) as (p' & R' & _ & _ & S & _);
    [vm_compute; reflexivity|exact comments83|discriminate|reflexivity|discriminate|reflexivity|exact says_cells83|exact says_surfs83|exact says_datas83|].
  rewrite (R' 0) in R. injection R as <-. split; [|now left]. intros s id t I E _ M.
  destruct (forall2_pick _ _ _ _ S I) as (x & IX & _ & ET & H). destruct IX as [<-|[<-|[]]]; cbn [snd ss_tr ss_shape] in *; [congruence|].
  destruct H as (f & i & B & _). apply body_macro in B as [B _]. congruence.
Qed.

(** The point (1/2, 1/2, 6): in the moved box and in the sphere, hence in cells 2 and 3 only. *)
Definition incell83 (w : text) : bool := text_eqb w (T "2") || text_eqb w (T "3").
Definition env83 (w : text) : bool :=
  match w with [] => false | c :: r => Ascii.eqb c "-" || (Ascii.eqb c "#" && negb (incell83 r)) end.
Lemma means83 : means_at (map snd cells83) (map snd surfs83) (trs_of (map snd data83)) (Pt (1/2) (1/2) 6) env83 incell83.
Proof.
  split.
  - intros s sn q [<-|[<-|[]]]; cbn [snd ss_shape ss_tr]; intro E; [injection E as <-|discriminate]. intro P. inversion P; subst. exists false.
    split; [cbn [side neg pos of_fun]; unfold sphere; cbn [GeomSpec.px GeomSpec.py GeomSpec.pz]; lra|split; vm_compute; reflexivity].
  - intros s f i q [<-|[<-|[]]]; cbn [snd ss_shape ss_tr]; intro E; [discriminate|injection E as <- <-]. intro P. inversion P as [|id m p0 L]; subst.
    assert (m = motion7).
    { destruct L as (a & b & E & _). change (trs_of (map snd data83)) with [(T "7", motion7)] in E. destruct a as [|? a]; [now injection E as <- _|]. injection E as _ E. destruct a; discriminate. }
    subst m. assert (Q : to_aux motion7 (Pt (1/2) (1/2) 6) = Pt (1/2) (1/2) 1).
    { unfold to_aux, motion7, dot, sub_pt. cbn [mo r1 r2 r3 GeomSpec.px GeomSpec.py GeomSpec.pz]. f_equal; lra. }
    rewrite Q. split; [|split; [vm_compute; reflexivity|]].
    + split; [|intros; vm_compute; reflexivity]. intros _. unfold in_rpp. cbn [GeomSpec.px GeomSpec.py GeomSpec.pz]. lra.
    + intros k g E. exists false.
      destruct k as [|[|[|[|[|[|k]]]]]]; cbn in E; [..|destruct k; discriminate E]; injection E as <-; (split; [cbn; lra|split; vm_compute; reflexivity]).
  - intros c [<-|[<-|[<-|[<-|[]]]]]; vm_compute; reflexivity.
  - intros c [<-|[<-|[<-|[<-|[]]]]]; vm_compute; reflexivity.
Qed.

(** The file gives a deck of four cells; the first two have materials of their own with the densities of their cards, the
    fourth has importance 0, and the point is in the second and the third. *)
Example C83_example str show : exists N d g1 g2 g3 g4,
  load str show N true file83 = Done d /\ d_cells d = [g1; g2; g3; g4] /\ (g_imp g4 == 0)%Q /\ g_mat g1 <> g_mat g2 /\ g_dens g2 = show (-25 # 10)%Q /\
  g_fill g3 = Some (T "3") /\ motion_shown str g3 motion7 /\
  forall sense, (forall s sn, In s (d_surfs d) -> surf_sense (fst s) = Some sn -> (sense (s_id (fst s)) = true <-> pos sn (Pt (1/2) (1/2) 6))) ->
    Forall2 (fun g b => exists r, expr (toks (g_items g)) r /\ holds (zenv sense) r = b) [g1; g2; g3; g4] [false; true; true; false].
Proof.
  destruct (C83_file_to_deck_partial str show true file83 _ _ cells83 [newline] surfs83 [newline] data83 Z.to_nat file83_read) as (N & d & R & D);
    [vm_compute; reflexivity|exact comments83|discriminate|reflexivity|discriminate|reflexivity|exact says_cells83|exact says_surfs83|exact says_datas83|
     exact good_cards83|exact memory_fine83|].
  destruct D as [_ _ DC DM DS]. destruct (d_cells d) as [|g1 [|g2 [|g3 [|g4 [|g5 l]]]]] eqn:ED; try discriminate DC.
  exists N, d, g1, g2, g3, g4. split; [apply R; lia|]. split; [exact ED|].
  pose proof (DM 0 _ g1 eq_refl eq_refl) as M1. pose proof (DM 1 _ g2 eq_refl eq_refl) as M2. pose proof (DM 2 _ g3 eq_refl eq_refl) as M3. pose proof (DM 3 _ g4 eq_refl eq_refl) as M4.
  assert (LI : last_imp (map snd data83) [T "1"; T "1"; T "1"; T "0"]).
  { exists []. eexists. split; [reflexivity|]. intros ws I. cbn [In] in I. intuition discriminate. }
  split.
  { destruct M4 as [_ [(vs & v & L & NV & PF)|[L _]] _ _ _ _ _ _ _ _ _]; [|specialize (L _ LI); cbn [length] in L; lia].
    rewrite (last_imp83 vs L) in NV. injection NV as <-.
    assert (E : g_imp g4 = match py_float (T "0") with Some q => q | None => 1%Q end) by (change (T "0") with ["0"%char]; now rewrite PF). rewrite E. vm_compute. reflexivity. }
  split.
  { intro E. destruct (DS 0 1 _ _ g1 g2 1%Z 1%Z (-78 # 10)%Q (-25 # 10)%Q eq_refl eq_refl eq_refl eq_refl eq_refl eq_refl) as [H _]. destruct (H E) as [_ Q]. vm_compute in Q. discriminate. }
  split; [now apply (cm_mat _ _ _ _ _ _ _ _ _ M2 1%Z)|].
  destruct (cm_fill _ _ _ _ _ _ _ _ _ M3 false (T "3") (Some (T " ", T "7")) motion7) as [F1 F2].
  { left. reflexivity. }
  { cbn [fill_means]. set (w := words _). vm_compute in w. subst w. cbv iota. split; [discriminate|]. exists [], []. split; [reflexivity|intros []]. }
  split; [exact F1|]. split; [exact F2|]. intros sense SE.
  repeat (apply Forall2_cons || apply Forall2_nil).
  - destruct (cm_region _ _ _ _ _ _ _ _ _ M1) as (r & E & H). exists r. split; [exact E|]. exact (H _ _ _ means83 sense SE).
  - destruct (cm_region _ _ _ _ _ _ _ _ _ M2) as (r & E & H). exists r. split; [exact E|]. exact (H _ _ _ means83 sense SE).
  - destruct (cm_region _ _ _ _ _ _ _ _ _ M3) as (r & E & H). exists r. split; [exact E|]. exact (H _ _ _ means83 sense SE).
  - destruct (cm_region _ _ _ _ _ _ _ _ _ M4) as (r & E & H). exists r. split; [exact E|]. exact (H _ _ _ means83 sense SE).
Qed.
