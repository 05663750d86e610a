(** C47, C48, C70, C71: the universe cards made for SCONE. *)
From Coq Require Import Permutation.
From Verif Require Import PyStr PyStrFacts PyInt Formatter CellModel CellWriters UniverseModel.
Open Scope Z_scope.
Open Scope list_scope.

(** ** Specification *)

(** The cells of a universe, in the order of the deck. *)
Definition member (n : Z) (c : ucell) : bool := match uc_number c with Some m => m =? n | None => false end.
Definition members (n : Z) (cells : list ucell) : list Z := map uc_id (filter (member n) cells).

(** What the reader makes: no entry begins with two signs; only filled cells have an offset or a rotation. *)
Definition read_cell (c : ucell) : Prop :=
  (forall t r, In t (uc_text c) -> t <> "-"%char :: "-"%char :: r) /\ (uc_fill c = None -> uc_offset c = None /\ uc_rot c = None).

(** ** Building one card *)

Lemma numeric_int t : numeric t = true -> (forall r, t <> "-"%char :: "-"%char :: r) -> py_int t <> None.
Proof.
  intros N D. unfold numeric in N. unfold py_int. destruct t as [|c r]; [discriminate|]. cbn [lstrip_minus] in N. unfold FortranNumber.take_sign.
  destruct (Ascii.eqb_spec c "-") as [->|NC].
  - destruct r as [|d r]; [discriminate|]. cbn [lstrip_minus] in N. destruct (Ascii.eqb_spec d "-") as [->|ND]; [exfalso; now apply (D r)|].
    rewrite N. discriminate.
  - cbn [forallb] in N. assert (PL : Ascii.eqb c "+" = false).
    { apply andb_true_iff in N as [N _]. destruct (Ascii.eqb_spec c "+") as [->|]; [discriminate|reflexivity]. }
    rewrite PL. cbn [forallb]. rewrite N. discriminate.
Qed.

Lemma halfspaces_some ts : (forall t r, In t ts -> t <> "-"%char :: "-"%char :: r) -> exists hs, halfspaces ts = Some hs.
Proof.
  induction ts as [|t ts IH]; intro H; [now exists []|]. destruct IH as [hs E]; [intros u r I; apply H; now right|]. cbn [halfspaces].
  destruct (numeric t) eqn:N; [|eauto]. assert (P := numeric_int t N (fun r => H t r (or_introl eq_refl))). destruct (py_int t) as [z|]; [|tauto].
  rewrite E. eauto.
Qed.

Lemma build_ok uni cells : Forall read_cell cells -> (forall c, In c cells -> uc_number c <> None) -> forall u,
  u_offset u = None -> u_rot u = None ->
  exists v, build_loop uni u cells = Some v /\ u_id v = u_id u /\ u_cells v = u_cells u ++ members uni cells /\ u_fill v = u_fill u /\
    u_offset v = None /\ u_rot v = None /\ u_root v = u_root u.
Proof.
  induction 1 as [|c cells [R1 R2] F IH]; intros N u O1 O2.
  - exists u. unfold members. cbn [build_loop filter map]. rewrite app_nil_r. now repeat split.
  - cbn [build_loop]. unfold build_step. assert (NC := N c (or_introl eq_refl)). destruct (uc_number c) as [n|] eqn:UN; [|tauto]. clear NC.
    assert (FE : forall v, u_offset v = None -> u_rot v = None ->
      exists w, (if fill_equals (uc_fill c) uni then
            Some (mkU (u_id v) (u_cells v) (u_fill v)
                    match uc_offset c with Some o => Some o | None => u_offset v end
                    match uc_rot c with Some r => Some r | None => u_rot v end (u_root v) (u_border v))
          else Some v) = Some w /\ u_id w = u_id v /\ u_cells w = u_cells v /\ u_fill w = u_fill v /\ u_offset w = None /\ u_rot w = None /\ u_root w = u_root v).
    { intros v V1 V2. destruct (fill_equals (uc_fill c) uni) eqn:FQ; [|exists v; now repeat split]. destruct (uc_fill c) as [f|]; [discriminate|].
      destruct (R2 eq_refl) as [-> ->]. eexists. split; [reflexivity|]. cbn. rewrite V1, V2. now repeat split. }
    unfold members. cbn [filter]. unfold member at 1. rewrite UN. destruct (Z.eqb_spec n uni) as [->|NE].
    + destruct (halfspaces_some _ R1) as [hs ->]. cbv beta iota zeta.
      set (border := match hs with [s] => if (uni =? 0) && (0 <? s) then s else u_border u | _ => u_border u end).
      destruct (FE (mkU (u_id u) (u_cells u ++ [uc_id c]) (u_fill u) (u_offset u) (u_rot u) (u_root u) border)) as (w & WE & W1 & W2 & W3 & W4 & W5 & W6); [exact O1|exact O2|].
      rewrite WE.
      destruct (IH (fun d I => N d (or_intror I)) w W4 W5) as (v & E & V1 & V2 & V3 & V4 & V5 & V6). exists v. split; [exact E|].
      rewrite V1, V2, V3, V6, W1, W2, W3, W6. cbn [u_id u_cells u_fill u_root map]. rewrite <- app_assoc. now repeat split.
    + destruct (FE u O1 O2) as (w & -> & W1 & W2 & W3 & W4 & W5 & W6).
      destruct (IH (fun d I => N d (or_intror I)) w W4 W5) as (v & E & V1 & V2 & V3 & V4 & V5 & V6). exists v. split; [exact E|].
      rewrite V1, V2, V3, V6, W1, W2, W3, W6. now repeat split.
Qed.

(** What a card should be before the roots are split. *)
Definition plain_card (cells : list ucell) (u : ucard) (n : Z) : Prop :=
  u_id u = n /\ u_cells u = members n cells /\ u_fill u = None /\ u_offset u = None /\ u_rot u = None /\ u_root u = (n =? 0).

Lemma build_all_ok cells : Forall read_cell cells -> (forall c, In c cells -> uc_number c <> None) ->
  forall ids, exists us, build_all cells ids = Some us /\ Forall2 (plain_card cells) us ids.
Proof.
  intros F N ids. induction ids as [|i ids (us & E & IH)]; [exists []; split; constructor|]. cbn [build_all]. unfold build_universe.
  destruct (build_ok i cells F N (mkU i [] None None None (i =? 0) 0) eq_refl eq_refl) as (v & -> & V1 & V2 & V3 & V4 & V5 & V6). rewrite E.
  exists (v :: us). split; [reflexivity|]. constructor; [|exact IH]. now repeat split.
Qed.

(** ** Splitting the root *)

Lemma split_none new cells us ids : Forall2 (plain_card cells) us ids -> ~ In 0 ids -> split_roots new us = (us, []).
Proof.
  induction 1 as [|u n us ids (P1 & P2 & P3 & P4 & P5 & P6) F IH]; intro N; [reflexivity|]. cbn [split_roots]. rewrite IH by (intro I; apply N; now right).
  rewrite P6. destruct (Z.eqb_spec n 0) as [->|]; [exfalso; apply N; now left|]. reflexivity.
Qed.

Lemma split_one new cells us ids : Forall2 (plain_card cells) us ids -> NoDup ids -> In 0 ids -> members 0 cells <> [] ->
  exists a u b, us = a ++ u :: b /\ plain_card cells u 0 /\
    split_roots new us = (a ++ mkU 0 [] (Some new) None None true (u_border u) :: b, [mkU new (members 0 cells) None None None false 0]) /\
    Forall (fun v => u_id v <> 0) (a ++ b).
Proof.
  intros F ND I M. induction F as [|u n us ids P F IH]; [destruct I|]. assert (PP := P). destruct P as (P1 & P2 & P3 & P4 & P5 & P6). inversion ND as [|? ? NI ND']; subst n.
  subst. cbn [split_roots]. destruct (Z.eq_dec (u_id u) 0) as [E|E].
  - rewrite (split_none new cells us ids F) by (now rewrite <- E). rewrite P6, E in *. cbn [Z.eqb andb]. rewrite P2. destruct (members 0 cells) as [|m ms] eqn:ME; [tauto|]. cbn [negb].
    exists [], u, us. split; [reflexivity|]. split; [exact PP|]. split; [cbn [app]; now rewrite P3, P4, P5|]. cbn [app]. clear - F NI.
    revert NI. induction F as [|v n us ids (V & _) F IH]; intro NI; constructor; [intro Q; apply NI; left; congruence|]. apply IH. intro J. apply NI. now right.
  - destruct IH as (a & w & b & EQ & PW & SP & FO); [exact ND'|destruct I as [I|I]; [congruence|exact I]|]. rewrite SP, P6.
    destruct (Z.eqb_spec (u_id u) 0); [tauto|]. cbn [andb]. exists (u :: a), w, b. split; [now rewrite EQ|]. split; [exact PW|]. split; [reflexivity|].
    cbn [app]. now constructor.
Qed.

Lemma fold_max l m : m <= fold_left Z.max l m /\ forall x, In x l -> x <= fold_left Z.max l m.
Proof.
  revert m. induction l as [|y l IH]; intro m; cbn [fold_left]; [split; [lia|intros x []]|]. destruct (IH (Z.max m y)) as [A B]. split; [lia|].
  intros x [<-|I]; [lia|now apply B].
Qed.
Lemma max_id_new ids : ~ In (max_id ids + 1) ids.
Proof. intro I. apply (proj2 (fold_max ids (hd 0 ids))) in I. unfold max_id in I. lia. Qed.

(** ** Partition *)

Lemma members_perm ids cells : NoDup ids -> (forall c, In c cells -> exists n, uc_number c = Some n /\ In n ids) ->
  Permutation (concat (map (fun n => members n cells) ids)) (map uc_id cells).
Proof.
  intros ND. induction cells as [|c cells IH]; intro H.
  - cbn [map]. assert (E : concat (map (fun n => members n []) ids) = []) by (clear; induction ids; [reflexivity|exact IHids]). now rewrite E.
  - destruct (H c (or_introl eq_refl)) as (n & E & I). apply in_split in I as (a & b & ->).
    assert (IH' := IH (fun d J => H d (or_intror J))). cbn [map].
    assert (NA : ~ In n (a ++ b)) by now apply NoDup_remove_2.
    assert (K : forall l, ~ In n l -> concat (map (fun m => members m (c :: cells)) l) = concat (map (fun m => members m cells) l)).
    { clear - E. induction l as [|m l IHl]; intro N; [reflexivity|]. cbn [map concat]. rewrite IHl by (intro J; apply N; now right). f_equal.
      unfold members. cbn [filter]. unfold member at 1. rewrite E. destruct (Z.eqb_spec n m) as [->|]; [exfalso; apply N; now left|reflexivity]. }
    rewrite map_app, concat_app in *. cbn [map concat] in *. rewrite !K by (intro J; apply NA; apply in_or_app; tauto).
    unfold members at 2. cbn [filter]. unfold member at 1. rewrite E, Z.eqb_refl. cbn [map app].
    apply Permutation_sym, Permutation_cons_app, Permutation_sym. exact IH'.
Qed.

Theorem C47_universes_partial ids cells :
  universe_ids ids cells -> Forall read_cell cells -> (exists c, In c cells /\ uc_number c = Some 0) ->
  exists us root inner, create_universes ids cells [] = Some us /\
    NoDup (map u_id us) /\
    In root us /\ u_root root = true /\ u_id root = 0 /\ u_cells root = [] /\ u_fill root = Some (u_id inner) /\
    In inner us /\ u_root inner = false /\ u_cells inner = members 0 cells /\ ~ In (u_id inner) ids /\
    (forall n, In n ids -> n <> 0 -> exists u, In u us /\ u_id u = n /\ u_root u = false /\ u_cells u = members n cells) /\
    (forall u, In u us -> u = root \/ u = inner \/ (In (u_id u) ids /\ u_id u <> 0)) /\
    Permutation (concat (map u_cells us)) (map uc_id cells).
Proof.
  intros (ND & NS & IDS) F (c0 & I0 & U0). destruct (build_all_ok cells F NS ids) as (us & B & P).
  assert (I0S : In 0 ids) by (apply IDS; eauto).
  assert (M0 : members 0 cells <> []).
  { unfold members. assert (J : In c0 (filter (member 0) cells)) by (apply filter_In; split; [exact I0|]; unfold member; rewrite U0; apply Z.eqb_refl).
    intro E. apply map_eq_nil in E. rewrite E in J. destruct J. }
  destruct (split_one (max_id ids + 1) cells us ids P ND I0S M0) as (a & u & b & E & PU & SP & NZ).
  set (root := mkU 0 [] (Some (max_id ids + 1)) None None true (u_border u)) in *.
  set (inner := mkU (max_id ids + 1) (members 0 cells) None None None false 0) in *.
  assert (IDE : map u_id us = ids) by (clear - P; induction P as [|v n us ids (V & _) P IH]; [reflexivity|cbn [map]; now rewrite V, IH]).
  assert (CE : map u_cells us = map (fun n => members n cells) ids) by (clear - P; induction P as [|v n us ids (_ & V & _) P IH]; [reflexivity|cbn [map]; now rewrite V, IH]).
  assert (ALL : forall v, In v us -> plain_card cells v (u_id v)).
  { clear - P. induction P as [|v n us ids PV P IH]; [intros v []|]. intros w [<-|I]; [|now apply IH]. assert (Q := proj1 PV). now rewrite Q. }
  exists ((a ++ root :: b) ++ [inner]), root, inner.
  assert (IDR : map u_id (a ++ root :: b) = ids).
  { rewrite <- IDE, E, !map_app. cbn [map]. destruct PU as (-> & _). reflexivity. }
  assert (NEW := max_id_new ids).
  split; [unfold create_universes; rewrite B; cbn [app]; now rewrite SP|].
  split.
  { rewrite map_app, IDR. cbn [map inner u_id].
    apply (Permutation_NoDup (l := (max_id ids + 1) :: ids)); [apply Permutation_cons_append|]. now constructor. }
  split; [apply in_or_app; left; apply in_elt|]. split; [reflexivity|]. split; [reflexivity|]. split; [reflexivity|]. split; [reflexivity|].
  split; [apply in_or_app; right; now left|]. split; [reflexivity|]. split; [reflexivity|]. split; [exact NEW|].
  split.
  { intros n I N. rewrite <- IDE in I. apply in_map_iff in I as (v & V & IV). exists v. destruct (ALL v IV) as (_ & C & _ & _ & _ & R).
    split; [|split; [exact V|split]].
    - apply in_or_app. left. rewrite E in IV. apply in_app_iff in IV. apply in_app_iff. destruct IV as [IV|[IV|IV]]; [now left| |now right; right].
      subst v. exfalso. apply N. rewrite <- V. now destruct PU.
    - rewrite R, V. now apply Z.eqb_neq.
    - now rewrite C, V. }
  split.
  { intros v I. apply in_app_iff in I as [I|[<-|[]]]; [|now right; left].
    assert (D : v = root \/ In v (a ++ b)) by (apply in_app_iff in I as [I|[<-|I]]; [right; apply in_or_app; now left|now left|right; apply in_or_app; now right]).
    destruct D as [->|D]; [now left|right; right]. split; [|rewrite Forall_forall in NZ; now apply NZ].
    rewrite <- IDR. apply in_map. exact I. }
  rewrite map_app, concat_app. cbn [map concat inner u_cells]. rewrite app_nil_r.
  assert (PM : Permutation (concat (map u_cells us)) (map uc_id cells)).
  { rewrite CE. apply members_perm; [exact ND|]. intros c I. assert (Q := NS c I). destruct (uc_number c) as [n|] eqn:UN; [|tauto]. exists n. split; [reflexivity|]. apply IDS. eauto. }
  rewrite <- PM, E. rewrite !map_app, !concat_app. cbn [map concat root u_cells app]. destruct PU as (_ & -> & _).
  rewrite <- app_assoc. apply Permutation_app_head. apply Permutation_app_comm.
Qed.

Definition two_cells := [mkUC 1 [T "-1"] None (Some (T "5")) (Some [T "1"; T "0"; T "0"]) None; mkUC 2 [T "1"] None None None None;
  mkUC 3 [T "-2"; T "3"] (Some (T "5")) None None None].
Example universes_ex : universe_ids [0; 5] two_cells /\ Forall read_cell two_cells /\ (exists c, In c two_cells /\ uc_number c = Some 0).
Proof.
  split; [|split].
  - split; [repeat constructor; cbn; intuition discriminate|]. split; [intros c [<-|[<-|[<-|[]]]]; vm_compute; discriminate|].
    intro n. cbn [In two_cells]. split.
    + intros [<-|[<-|[]]]; [exists (mkUC 1 [T "-1"] None (Some (T "5")) (Some [T "1"; T "0"; T "0"]) None)|exists (mkUC 3 [T "-2"; T "3"] (Some (T "5")) None None None)]; (split; [tauto|reflexivity]).
    + intros (c & [<-|[<-|[<-|[]]]] & E); vm_compute in E; injection E as <-; tauto.
  - repeat constructor; try discriminate; cbn; intros t r I; intuition (subst; discriminate).
  - eexists. split; [left; reflexivity|reflexivity].
Qed.

(** Writing the deck again (for instance in SCONE format twice) makes every universe a second time. *)
Theorem C47_twice_refuted : exists ids cells us us2, universe_ids ids cells /\ create_universes ids cells [] = Some us /\ create_universes ids cells us = Some us2 /\ ~ NoDup (map u_id us2).
Proof.
  exists [0; 5], two_cells. do 2 eexists. split; [apply universes_ex|]. split; [vm_compute; reflexivity|]. split; [vm_compute; reflexivity|].
  cbn. intro N. inversion N as [|? ? NI _]; subst. apply NI. cbn. tauto.
Qed.

(** Without a cell in universe 0 there is no root universe. *)
Theorem C47_no_root_refuted : exists ids cells us, universe_ids ids cells /\ cells <> [] /\ create_universes ids cells [] = Some us /\ forall u, In u us -> u_root u = false.
Proof.
  exists [5], [mkUC 3 [T "-2"; T "3"] (Some (T "5")) None None None]. eexists. split; [|split; [discriminate|split; [vm_compute; reflexivity|intros u [<-|[]]; reflexivity]]].
  split; [repeat constructor; cbn; tauto|]. split; [intros c [<-|[]]; vm_compute; discriminate|]. intro n. cbn [In]. split.
  - intros [<-|[]]. eexists. split; [left; reflexivity|reflexivity].
  - intros (c & [<-|[]] & E). vm_compute in E. injection E as <-. tauto.
Qed.

(** ** C48 *)

(** No universe card ever carries an offset or a rotation. *)
Theorem C48_never ids cells us : universe_ids ids cells -> Forall read_cell cells -> create_universes ids cells [] = Some us ->
  forall u, In u us -> u_offset u = None /\ u_rot u = None.
Proof.
  intros (ND & NS & IDS) F C. destruct (build_all_ok cells F NS ids) as (l & B & P). unfold create_universes in C. rewrite B in C. cbn [app] in C.
  assert (N : Forall (fun u => u_offset u = None /\ u_rot u = None) l).
  { clear - P. induction P as [|v n us ids (_ & _ & _ & A & B & _) P IH]; constructor; [now split|exact IH]. }
  assert (S : forall l new, Forall (fun u => u_offset u = None /\ u_rot u = None) l ->
    Forall (fun u => u_offset u = None /\ u_rot u = None) (fst (split_roots new l)) /\ Forall (fun u => u_offset u = None /\ u_rot u = None) (snd (split_roots new l))).
  { clear. intros l new F. induction F as [|u l [A B] F [IH1 IH2]]; [split; constructor|]. cbn [split_roots]. destruct (split_roots new l) as [a b]. cbn [fst snd] in *.
    destruct (u_root u && _); cbn [fst snd]; split; try assumption; constructor; try assumption; now split. }
  destruct (S l (max_id ids + 1) N) as [S1 S2]. destruct (split_roots (max_id ids + 1) l) as [a b]. injection C as <-. cbn [fst snd] in *.
  intros u I. apply in_app_iff in I. rewrite Forall_forall in S1, S2. destruct I as [I|I]; [now apply S1|now apply S2].
Qed.

(** A cell filled with universe 5 has an offset; the card of universe 5 does not carry it. *)
Theorem C48_refuted : exists ids cells us c n, universe_ids ids cells /\ Forall read_cell cells /\ create_universes ids cells [] = Some us /\
  In c cells /\ uc_fill c = Some (str_Z n) /\ In n ids /\ uc_offset c <> None /\ forall u, In u us -> u_id u = n -> u_offset u <> uc_offset c.
Proof.
  exists [0; 5], two_cells. eexists. exists (mkUC 1 [T "-1"] None (Some (T "5")) (Some [T "1"; T "0"; T "0"]) None), 5.
  split; [apply universes_ex|]. split; [apply universes_ex|]. split; [vm_compute; reflexivity|]. split; [now left|]. split; [reflexivity|]. split; [cbn; tauto|].
  split; [discriminate|]. intros u [<-|[<-|[<-|[]]]] E; try discriminate E; discriminate.
Qed.

(** ** C70 *)

(** A universe given with a minus sign gets a number of its own: the universe the cell is filled with does not exist. *)
Theorem C70_scone_refuted : exists ids cells us c d n, universe_ids ids cells /\ Forall read_cell cells /\ create_universes ids cells [] = Some us /\
  In c cells /\ uc_fill c = Some (str_Z n) /\ In d cells /\ uc_univ d = Some (T "-" ++ str_Z n) /\ forall u, In u us -> u_id u <> n.
Proof.
  set (c := mkUC 1 [T "-1"] None (Some (T "5")) None None). set (d := mkUC 2 [T "-2"] (Some (T "-5")) None None None).
  exists [0; -5], [c; d]. eexists. exists c, d, 5. split; [|split; [|split; [vm_compute; reflexivity|]]].
  - split; [repeat constructor; cbn; intuition discriminate|]. split; [intros x [<-|[<-|[]]]; vm_compute; discriminate|]. intro n. cbn [In]. split.
    + intros [<-|[<-|[]]]; [exists c|exists d]; (split; [tauto|reflexivity]).
    + intros (x & [<-|[<-|[]]] & E); vm_compute in E; injection E as <-; tauto.
  - repeat constructor; try discriminate; cbn; intros t r I; intuition (subst; discriminate).
  - split; [now left|]. split; [reflexivity|]. split; [now right; left|]. split; [reflexivity|]. intros u [<-|[<-|[<-|[]]]]; discriminate.
Qed.

(** ** C71: the border of the root universe *)

(** The last cell of universe 0 with a single entry, which is a positive surface. *)
Definition borders (c : ucell) (s : Z) : Prop := uc_number c = Some 0 /\ halfspaces (uc_text c) = Some [s] /\ 0 < s.

Lemma build_border cells : Forall read_cell cells -> (forall c, In c cells -> uc_number c <> None) -> forall u v,
  build_loop 0 u cells = Some v ->
  (u_border v = u_border u /\ (forall c s, In c cells -> ~ borders c s)) \/
  (exists a c b, cells = a ++ c :: b /\ borders c (u_border v) /\ forall d s, In d b -> ~ borders d s).
Proof.
  induction 1 as [|c cells [R1 R2] F IH]; intros N u v B.
  - injection B as <-. left. split; [reflexivity|intros c s []].
  - cbn [build_loop] in B. destruct (build_step 0 u c) as [w|] eqn:S; [|discriminate].
    assert (W : (u_border w = u_border u /\ forall s, ~ borders c s) \/ borders c (u_border w)).
    { unfold build_step in S. destruct (uc_number c) as [n|] eqn:UN; [|discriminate]. unfold borders. rewrite UN. destruct (Z.eqb_spec n 0) as [->|NE].
      - destruct (halfspaces (uc_text c)) as [hs|] eqn:H; [|discriminate]. cbv zeta in S.
        match type of S with (if _ then Some (mkU (u_id ?x) _ _ _ _ _ _) else _) = _ => assert (BW : u_border w = u_border x) end.
        { destruct (fill_equals (uc_fill c) 0); injection S as <-; reflexivity. }
        rewrite BW. cbn [u_border]. destruct hs as [|s [|s2 hs]].
        + left. split; [reflexivity|]. intros s (_ & Q & _). discriminate.
        + cbn [Z.eqb andb]. destruct (Z.ltb_spec 0 s) as [L|L].
          * right. now repeat split.
          * left. split; [reflexivity|]. intros s' (_ & Q & L'). injection Q as ->. lia.
        + left. split; [reflexivity|]. intros s' (_ & Q & _). discriminate.
      - left. split; [destruct (fill_equals (uc_fill c) 0); injection S as <-; reflexivity|]. intros s (Q & _). congruence. }
    destruct (IH (fun d I => N d (or_intror I)) w v B) as [[E NB]|(a & d & b & E & D & NB)].
    + destruct W as [[W NW]|W].
      * left. split; [congruence|]. intros d s [<-|I]; [apply NW|now apply NB].
      * right. exists [], c, cells. rewrite <- E in W. split; [reflexivity|]. split; [exact W|exact NB].
    + right. exists (c :: a), d, b. split; [now rewrite E|]. now split.
Qed.

(** If there is such a cell, the border is the surface of the last one. *)
Theorem C71_border_partial ids cells : universe_ids ids cells -> Forall read_cell cells -> (exists c s, In c cells /\ borders c s) ->
  exists us root a c b, create_universes ids cells [] = Some us /\ In root us /\ u_root root = true /\
    cells = a ++ c :: b /\ borders c (u_border root) /\ forall d s, In d b -> ~ borders d s.
Proof.
  intros (ND & NS & IDS) F (c1 & s1 & I1 & B1). destruct (build_all_ok cells F NS ids) as (us & B & P).
  assert (I0S : In 0 ids) by (apply IDS; exists c1; split; [exact I1|apply B1]).
  assert (M0 : members 0 cells <> []).
  { unfold members. assert (J : In c1 (filter (member 0) cells)) by (apply filter_In; split; [exact I1|]; unfold member; rewrite (proj1 B1); apply Z.eqb_refl).
    intro E. apply map_eq_nil in E. rewrite E in J. destruct J. }
  destruct (split_one (max_id ids + 1) cells us ids P ND I0S M0) as (a & u & b & E & PU & SP & NZ).
  assert (BU : build_universe cells 0 = Some u).
  { assert (IU : In u us) by (rewrite E; apply in_elt). clear - B IU PU. revert us B IU. induction ids as [|i ids IH]; intros us B IU; cbn [build_all] in B.
    - injection B as <-. destruct IU.
    - destruct (build_universe cells i) as [v|] eqn:BV; [|discriminate]. destruct (build_all cells ids) as [l|]; [|discriminate]. injection B as <-.
      destruct IU as [<-|IU]; [|now apply (IH l)].
      assert (IDV : forall cs u v, build_loop i u cs = Some v -> u_id v = u_id u).
      { clear. induction cs as [|c cs IH]; intros u v H; [now injection H as <-|]. cbn [build_loop] in H. destruct (build_step i u c) as [w|] eqn:S; [|discriminate].
        rewrite (IH w v H). unfold build_step in S. destruct (uc_number c) as [n|]; [|discriminate]. destruct (n =? i).
        - destruct (halfspaces (uc_text c)); [|discriminate]. cbv zeta in S. destruct (fill_equals (uc_fill c) i); injection S as <-; reflexivity.
        - destruct (fill_equals (uc_fill c) i); injection S as <-; reflexivity. }
      assert (Q := IDV cells _ _ BV). cbn [u_id] in Q. destruct PU as (PU & _). congruence. }
  destruct (build_border cells F NS _ _ BU) as [[_ NB]|(x & c & y & EQ & BC & NB)]; [exfalso; now apply (NB c1 s1)|].
  eexists. exists (mkU 0 [] (Some (max_id ids + 1)) None None true (u_border u)), x, c, y. split; [unfold create_universes; rewrite B; cbn [app]; rewrite SP; reflexivity|].
  split; [apply in_or_app; left; apply in_elt|]. split; [reflexivity|]. split; [exact EQ|]. split; [exact BC|exact NB].
Qed.
Example border_ex : universe_ids [0; 5] two_cells /\ Forall read_cell two_cells /\ (exists c s, In c two_cells /\ borders c s).
Proof. split; [apply universes_ex|]. split; [apply universes_ex|]. exists (mkUC 2 [T "1"] None None None None), 1. split; [cbn; tauto|]. now repeat split. Qed.

(** A problem inside a box of planes: the border is written as surface 0, which does not exist. *)
Theorem C71_box_refuted : exists ids cells us root, universe_ids ids cells /\ Forall read_cell cells /\ create_universes ids cells [] = Some us /\
  In root us /\ u_root root = true /\ u_border root = 0 /\ (forall c t, In c cells -> In t (uc_text c) -> py_int t <> Some 0).
Proof.
  set (cells := [mkUC 1 (map T ["1"; "-2"; "3"; "-4"; "5"; "-6"]%string) None None None None; mkUC 2 (map T ["-1"; ":"; "2"; ":"; "-3"; ":"; "4"; ":"; "-5"; ":"; "6"]%string) None None None None]).
  exists [0], cells. do 2 eexists. split; [|split; [|split; [vm_compute; reflexivity|split; [now left|split; [reflexivity|split; [reflexivity|]]]]]].
  - split; [repeat constructor; cbn; tauto|]. split; [intros c [<-|[<-|[]]]; vm_compute; discriminate|]. intro n. cbn [In]. split.
    + intros [<-|[]]. eexists. split; [left; reflexivity|reflexivity].
    + intros (c & [<-|[<-|[]]] & E); vm_compute in E; injection E as <-; tauto.
  - repeat constructor; try discriminate; cbn; intros t r I; repeat (destruct I as [<-|I]; [discriminate|]); destruct I.
  - intros c t [<-|[<-|[]]] I; cbn [uc_text map In] in I; repeat (destruct I as [<-|I]; [vm_compute; discriminate|]); destruct I.
Qed.

(** A cell on the positive side of one surface that is not the graveyard: the half space above the plane 7 inside the
    sphere 9 is written with a plane and a complement; its plane becomes the border. *)
Theorem C71_plane_refuted : exists ids cells us root, universe_ids ids cells /\ Forall read_cell cells /\ create_universes ids cells [] = Some us /\
  In root us /\ u_root root = true /\ u_border root = 7 /\ exists graveyard, In graveyard cells /\ uc_text graveyard = [T "9"].
Proof.
  set (g := mkUC 3 [T "9"] None None None None).
  set (cells := [mkUC 1 (map T ["-7"; "-9"]%string) None None None None; g; mkUC 2 (map T ["7"; "#3"]%string) None None None None]).
  exists [0], cells. do 2 eexists. split; [|split; [|split; [vm_compute; reflexivity|split; [now left|split; [reflexivity|split; [reflexivity|]]]]]].
  - split; [repeat constructor; cbn; tauto|]. split; [intros c [<-|[<-|[<-|[]]]]; vm_compute; discriminate|]. intro n. cbn [In]. split.
    + intros [<-|[]]. eexists. split; [left; reflexivity|reflexivity].
    + intros (c & [<-|[<-|[<-|[]]]] & E); vm_compute in E; injection E as <-; tauto.
  - repeat constructor; try discriminate; cbn; intros t r I; repeat (destruct I as [<-|I]; [discriminate|]); destruct I.
  - exists g. split; [right; now left|reflexivity].
Qed.

Print Assumptions C47_universes_partial.
Print Assumptions C47_twice_refuted.
Print Assumptions C47_no_root_refuted.
Print Assumptions C48_never.
Print Assumptions C48_refuted.
Print Assumptions C70_scone_refuted.
Print Assumptions C71_border_partial.
Print Assumptions C71_box_refuted.
Print Assumptions C71_plane_refuted.
