(** The geometry of an OpenMC model as a whole (csg2csg/OpenMCInput.py 47-120, OpenMCCell.py 84-166, OpenMCSurface.py 80-89): C76. *)
From Coq Require Import QArith Qabs Reals.
From Verif Require Import PyStr PyStrFacts PyInt PyIntFacts PyDict CellModel RegionSpec RegionFacts LexSpec CellWriters CellProofs CellWritersProofs CellWritersOut
  SurfModel SurfWriters SurfWritersProofs SurfSpec GeomSpec TargetSpec FlattenModel MaterialModel MaterialWriters OpenMCPrune UniverseModel ConvertModel PropSurfTargets PropWriters PropPrune PropMaterialTargets.
Open Scope nat_scope.
Open Scope list_scope.

(** ** What the elements of geometry.xml say (OpenMC manual, geometry specification; OpenMC's surface.cpp and cell.cpp) *)

Definition attr (k : string) (x : element) : option text := dget (T k) (x_attrs x).

(** The values of the attribute boundary. *)
Definition condition (t : text) : option bcond :=
  if existsb (text_eqb t) [T "transmission"; T "transmit"] then Some TRANSMISSION
  else if text_eqb t (T "vacuum") then Some VACUUM
  else if existsb (text_eqb t) [T "reflective"; T "reflect"; T "reflecting"] then Some REFLECTING
  else if text_eqb t (T "periodic") then Some PERIODIC
  else if text_eqb t (T "white") then Some WHITE
  else None.

(** What fills a cell: nothing, a material, or a universe that is moved and turned (three angles or nine numbers). *)
Inductive content := Void | Material (m : Z) | Universe (u : Z) (translation rotation : list text).

Definition says_content (x : element) (c : content) : Prop :=
  match c with
  | Void => attr "fill" x = None /\ attr "material" x = Some (T "void")
  | Material m => attr "fill" x = None /\ exists t, attr "material" x = Some t /\ py_int t = Some m
  | Universe u tr ro => attr "material" x = None /\ (exists t, attr "fill" x = Some t /\ py_int t = Some u) /\
      (exists t, attr "translation" x = Some t /\ words t = tr) /\ (exists t, attr "rotation" x = Some t /\ words t = ro)
  end.
Definition says_cell (x : element) (id u : Z) (c : content) (r : region) : Prop :=
  x_tag x = T "cell" /\ (exists t, attr "id" x = Some t /\ py_int t = Some id) /\ (exists t, attr "universe" x = Some t /\ py_int t = Some u) /\
  says_content x c /\ exists t r', attr "region" x = Some t /\ expr (glex openmc_delim t []) r' /\ forall env, holds env r' = holds env r.
Definition says_surface (str : R -> text) (x : element) (id : Z) (sn : sense) (b : bcond) : Prop :=
  x_tag x = T "surface" /\ (exists t, attr "id" x = Some t /\ py_int t = Some id) /\
  (exists t, attr "boundary" x = Some t /\ condition t = Some b) /\
  exists ty t vals sn', attr "type" x = Some (T ty) /\ attr "coeffs" x = Some t /\ words t = map str vals /\ openmc_means ty vals sn' /\ same_sense sn' sn.

(** An element of materials.xml: number, density with its unit, nuclides. *)
Definition says_material (show : Q -> text) (el : openmc_element) (m : material) : Prop :=
  om_id el = m_num m /\ om_value el = show (Qabs (m_dens m)) /\
  ((m_dens m < 0)%Q -> om_units el = T "g/cc") /\ (~ (m_dens m < 0)%Q -> om_units el = T "atom/b-cm") /\
  Forall2 (openmc_same show) (m_comp m) (om_nuclides el).

(** ** What the deck says *)

(** The universe of a cell and what is in it. *)
Definition universe_is (c : gcell) (u : Z) : Prop := match g_univ c with Some t => py_int t = Some u | None => u = 0%Z end.
Definition three (o : option (list text)) : list text := match o with Some l => l | None => [T "0"; T "0"; T "0"] end.
Definition content_is (c : gcell) (x : content) : Prop :=
  match g_fill c with
  | Some f => exists u, py_int f = Some u /\ x = Universe u (three (g_offset c)) (three (g_rot c))
  | None => x = if (g_mat c =? 0)%Z then Void else Material (g_mat c)
  end.
(** The universes that can be reached from universe 0. *)
Inductive deck_reached (cells : list gcell) : Z -> Prop :=
| deck_root : deck_reached cells 0
| deck_fill c u f t : In c cells -> universe_is c u -> deck_reached cells u -> g_fill c = Some t -> py_int t = Some f -> deck_reached cells f.

(** What is asked of cells and surfaces.  [r] is the region of the cell. *)
Definition omc_cell (c : gcell) (r : region) : Prop :=
  (exists u, universe_is c u) /\ (forall f, g_fill c = Some f -> py_int f <> None) /\
  (forall o, g_offset c = Some o -> length o = 3 /\ Forall word o) /\ (forall o, g_rot c = Some o -> length o = 9 /\ Forall word o) /\
  spaced false (g_items c) = true /\ expr (toks (g_items c)) r /\ Forall (one_atom (fun w => glex openmc_delim w [])) (words_of (g_items c)).
Definition omc_surface (s : surface) (sn : sense) : Prop :=
  surf_sense s = Some sn /\ ~ sheeted s /\ s_bc s <> PERIODIC /\ s_bc s <> WHITE.
Definition omc_deck (str : R -> text) (d : deck) : Prop :=
  (forall x, word (str x)) /\ Forall (fun c => exists r, omc_cell c r) (d_cells d) /\ Forall (fun s => exists sn, omc_surface (fst s) sn) (d_surfs d) /\
  Forall (fun e => NoDup (keys (m_comp (snd e))) /\ Forall (fun n => exists z a, nuclide_key (fst n) z a) (m_comp (snd e))) (d_mats d).

(** ** Proofs *)

Lemma words_concat_sp l : Forall word l -> words (concat_sp l) = l.
Proof.
  induction 1 as [|w l W F IH]; [reflexivity|]. assert (E : concat_sp (w :: l) = w ++ blank :: concat_sp l) by (unfold concat_sp; cbn [flat_map]; now rewrite <- app_assoc).
  rewrite E, words_app_space by reflexivity. rewrite (words_word w W), IH. reflexivity.
Qed.
Lemma words_join l : Forall word l -> words (join_sp l) = l.
Proof. intro F. apply PropMaterialOut.words_join_sp. apply (Forall_impl _) with (2 := F). now intros w [A B]. Qed.
Lemma whole_list (l : list text) n : length l = n -> firstn n l = l.
Proof. intros <-. apply firstn_all. Qed.

Section Elements.
Context (show : Q -> text).
Notation el := (fun c => openmc_cell (to_w show c)).

Lemma cell_says c r u k : omc_cell c r -> universe_is c u -> content_is c k -> says_cell (el c) (g_id c) u k r.
Proof.
  intros (_ & _ & O & R & SP & E & A) U K. unfold says_cell, says_content, attr, universe_is, content_is in *. unfold openmc_cell, to_w in *.
  assert (RG : exists r', expr (glex openmc_delim (openmc_region (g_items c)) []) r' /\ forall env, holds env r' = holds env r) by now apply C09_openmc_cell_keeps_region.
  destruct RG as (r' & RE & RH). assert (ID := py_int_str_Z (g_id c)).
  assert (UT : py_int (univ_text (to_w show c)) = Some u).
  { unfold univ_text, to_w. cbn [w_univ]. destruct (g_univ c); [exact U|now subst u]. }
  cbn [w_fill w_id w_items x_tag]. destruct (g_fill c) as [f|].
  - destruct K as (n & F & ->). split; [reflexivity|]. split; [eexists; split; [reflexivity|exact ID]|]. split; [eexists; split; [reflexivity|exact UT]|]. split.
    + split; [reflexivity|]. split; [eexists; split; [reflexivity|exact F]|]. split; eexists; (split; [reflexivity|]).
      * unfold openmc_translation. cbn [w_offset]. destruct (g_offset c) as [o|]; [|reflexivity]. destruct (O o eq_refl) as [L FW]. rewrite whole_list by exact L. now apply words_concat_sp.
      * unfold openmc_rotation. cbn [w_rot]. destruct (g_rot c) as [o|]; [|reflexivity]. destruct (R o eq_refl) as [L FW]. rewrite whole_list by exact L. now apply words_join.
    + do 2 eexists. split; [reflexivity|]. split; [exact RE|exact RH].
  - subst k. split; [reflexivity|]. split; [eexists; split; [reflexivity|exact ID]|]. split; [eexists; split; [reflexivity|exact UT]|]. split.
    + cbn [w_mat]. destruct (Z.eqb_spec (g_mat c) 0); (split; [reflexivity|]).
      * reflexivity.
      * eexists. split; [reflexivity|]. apply py_int_str_Z.
    + do 2 eexists. split; [reflexivity|]. split; [exact RE|exact RH].
Qed.

Lemma el_universe c u : in_universe (el c) u <-> universe_is c u.
Proof.
  unfold in_universe, cell_element, universe_is, openmc_cell. cbn [x_tag x_attrs].
  assert (D : dget (T "universe") (x_attrs (el c)) = Some (univ_text (to_w show c))) by (unfold openmc_cell; cbn [x_attrs w_fill to_w]; destruct (g_fill c); reflexivity).
  unfold openmc_cell in D. cbn [x_attrs] in D. rewrite D. unfold univ_text, to_w. cbn [w_univ]. destruct (g_univ c) as [t|]; split.
  - now intros (_ & t' & [= <-] & P).
  - intro P. split; [reflexivity|]. eauto.
  - intros (_ & t' & [= <-] & P). vm_compute in P. congruence.
  - intros ->. split; [reflexivity|]. eexists. split; reflexivity.
Qed.
Lemma el_fill c : dget (T "fill") (x_attrs (el c)) = g_fill c.
Proof. unfold openmc_cell, to_w. cbn [x_attrs w_fill]. destruct (g_fill c); reflexivity. Qed.
Lemma el_filled c f : filled_with (el c) f <-> exists t, g_fill c = Some t /\ py_int t = Some f.
Proof.
  unfold filled_with. rewrite el_fill. split; [intros (_ & H); exact H|]. intro H. split; [reflexivity|exact H].
Qed.
End Elements.

Lemma surface_says str s sn : (forall x, word (str x)) -> omc_surface s sn ->
  exists x, openmc_surface str s = Some x /\ says_surface str x (s_id s) sn (s_bc s).
Proof.
  intros WS (E & NS & NP & NW). destruct (C58_openmc_partial str s sn WS E NS) as (ty & t & vals & sn' & A & B & C & D). unfold openmc_surface. rewrite A.
  assert (BC : exists b, openmc_boundary (s_bc s) = Some b /\ condition b = Some (s_bc s)).
  { destruct (s_bc s); try congruence; eexists; (split; [reflexivity|vm_compute; reflexivity]). }
  destruct BC as (b & -> & BC). eexists. split; [reflexivity|]. unfold says_surface, attr. cbn [x_tag x_attrs].
  split; [reflexivity|]. split; [eexists; split; [reflexivity|apply py_int_str_Z]|]. split; [eexists; split; [reflexivity|exact BC]|].
  exists ty, t, vals, sn'. split; [reflexivity|]. split; [reflexivity|]. split; [exact B|]. split; [exact C|exact D].
Qed.

Lemma mapM_forall2 {A B} (f : A -> option B) (P : A -> B -> Prop) l : Forall (fun a => exists b, f a = Some b /\ P a b) l ->
  exists bs, mapM f l = Some bs /\ Forall2 P l bs.
Proof.
  induction 1 as [|a l (b & E & H) F (bs & IH & FB)]; [now exists []|]. exists (b :: bs). cbn [mapM]. rewrite E, IH. split; [reflexivity|]. now constructor.
Qed.

Lemma filter_map {A B} (f : A -> B) p l : filter p (map f l) = map f (filter (fun a => p (f a)) l).
Proof. induction l as [|a l IH]; [reflexivity|]. cbn [map filter]. destruct (p (f a)); cbn [map]; now rewrite IH. Qed.
Lemma filter_all {A} (p : A -> bool) l : (forall x, In x l -> p x = true) -> filter p l = l.
Proof. induction l as [|a l IH]; intro H; [reflexivity|]. cbn [filter]. rewrite (H a) by now left. f_equal. apply IH. intros x I. apply H. now right. Qed.

(** C76: the geometry written for OpenMC holds every surface of the deck in order, with its number, its sense and its boundary
    condition, and every cell that can be reached from universe 0, with its number, universe, region and content.  Missing from
    the full property: cones cut to one sheet (C58), the white and the periodic boundary (below); that no other cells are left
    is C45. *)
Theorem C76_openmc_geometry_partial str show d : omc_deck str d ->
  exists g ms xs ys keep, openmc_trees str show d = Some (g, ms) /\ g = xs ++ ys /\
    Forall2 (fun s x => forall sn, surf_sense (fst s) = Some sn -> says_surface str x (s_id (fst s)) sn (s_bc (fst s))) (d_surfs d) xs /\
    Forall2 (fun c x => forall r u k, expr (toks (g_items c)) r -> universe_is c u -> content_is c k -> says_cell x (g_id c) u k r) (filter keep (d_cells d)) ys /\
    (forall c u, In c (d_cells d) -> universe_is c u -> deck_reached (d_cells d) u -> keep c = true) /\
    Forall2 (fun e el => says_material show el (snd e)) (d_mats d) ms.
Proof.
  intros (WS & FC & FS & FM).
  destruct (mapM_forall2 (fun s => openmc_surface str (fst s)) (fun s x => forall sn, surf_sense (fst s) = Some sn -> says_surface str x (s_id (fst s)) sn (s_bc (fst s))) (d_surfs d)) as (xs & EX & FX).
  { apply (Forall_impl _) with (2 := FS). intros s (sn & G). destruct (surface_says str (fst s) sn WS G) as (x & E & S). exists x. split; [exact E|]. intros sn0 E0. destruct G as (G & _). congruence. }
  destruct (mapM_forall2 (fun e => write_openmc_material show (snd e)) (fun e el => says_material show el (snd e)) (d_mats d)) as (ms & EM & FMS).
  { apply (Forall_impl _) with (2 := FM). intros e (ND & NK). destruct (C69_openmc_partial show (snd e) ND NK) as (el & W & I & _ & V & U1 & U2 & S & _). exists el. split; [exact W|]. now repeat (split; [assumption|]). }
  set (el := fun c => openmc_cell (to_w show c)). set (g0 := xs ++ map el (d_cells d)).
  assert (NC : forall x, In x xs -> ~ cell_element x).
  { intros x I C. clear - FX I C FS. revert I. induction FX as [|s y l l' H F IH]; intros I; [destruct I|]. inversion FS as [|? ? (sn & G & _) FS']; subst.
    destruct I as [->|I]; [|now apply IH]. destruct (H sn G) as (TG & _). unfold cell_element in C. rewrite TG in C. discriminate. }
  assert (RD : readable g0).
  { intros x I C. apply in_app_iff in I as [I|I]; [now elim (NC x I)|]. apply in_map_iff in I as (c & <- & I). rewrite Forall_forall in FC. destruct (FC c I) as (r & (u & U) & F & _).
    split; [exists u; now apply el_universe|]. intros t E. unfold el in E. rewrite el_fill in E. now apply F. }
  destruct (C45_prune g0 RD) as (keep & EP & K1 & K2 & _).
  assert (RC : forall u, deck_reached (d_cells d) u -> reached g0 u).
  { induction 1 as [|c u f t I U _ IH FL P]; [constructor|]. apply (reached_fill g0 (el c) u f); [apply in_app_iff; right; now apply in_map|now apply el_universe|exact IH|].
    apply el_filled. eauto. }
  exists (filter keep g0), ms, xs, (map el (filter (fun c => keep (el c)) (d_cells d))), (fun c => keep (el c)).
  split; [|split; [|split; [exact FX|split; [|split; [|exact FMS]]]]].
  - unfold openmc_trees. rewrite EX, EM. fold el. fold g0. now rewrite EP.
  - unfold g0. rewrite filter_app, filter_map. f_equal. apply filter_all. intros x I. apply K1; [apply in_app_iff; now left|now apply NC].
  - assert (G : forall l, (forall c, In c l -> In c (d_cells d)) -> Forall2 (fun c x => forall r u k, expr (toks (g_items c)) r -> universe_is c u -> content_is c k -> says_cell x (g_id c) u k r) l (map el l)).
    { induction l as [|c l IH]; intro H; [constructor|]. cbn [map]. constructor; [|apply IH; intros x I; apply H; now right].
      intros r u k E U K. rewrite Forall_forall in FC. destruct (FC c (H c (or_introl eq_refl))) as (r0 & G1 & G2 & G3 & G4 & G5 & G6 & G7).
      apply cell_says; [|exact U|exact K]. now repeat (split; [assumption|]). }
    apply G. intros c I. apply filter_In in I. tauto.
  - intros c u I U R. apply (K2 (el c) u); [apply in_app_iff; right; now apply in_map|now apply el_universe|now apply RC].
Qed.
Print Assumptions C76_openmc_geometry_partial.

(** A white boundary is written as vacuum. *)
Theorem C76_white_refuted : exists str s sn x, surf_sense s = Some sn /\ s_bc s = WHITE /\ openmc_surface str s = Some x /\
  attr "boundary" x = Some (T "vacuum") /\ forall sn', ~ says_surface str x (s_id s) sn' WHITE.
Proof.
  exists (fun _ => T "1"), (mkS 1 None PLANE_X [1; 0; 0; 2]%R WHITE). do 2 eexists. split; [reflexivity|]. split; [reflexivity|]. split; [reflexivity|]. split; [reflexivity|].
  intros sn' (_ & _ & (t & A & B) & _). vm_compute in A. injection A as <-. vm_compute in B. discriminate.
Qed.
Print Assumptions C76_white_refuted.

(** A surface with a periodic boundary is an error, and nothing is written. *)
Theorem C76_periodic_refuted : exists str s sn, surf_sense s = Some sn /\ s_bc s = PERIODIC /\ openmc_surface str s = None.
Proof. exists (fun _ => T "1"), (mkS 1 None PLANE_X [1; 0; 0; 2]%R PERIODIC). eexists. split; [reflexivity|]. now split. Qed.
Print Assumptions C76_periodic_refuted.

(** A deck: a sphere, a plane, a cell filled with universe 5 that is moved, the outside, and a cell of universe 5. *)
Definition strp (x : R) : text := T "1.5".
Definition omc_ex : deck :=
  mkDeck [(mkS 3 None SPHERE_GENERAL [0; 0; 0; 5]%R TRANSMISSION, []); (mkS 4 None PLANE_X [1; 0; 0; 2]%R VACUUM, [])]
    [mkG 1 0 (T "0") [] [Op AND; Str (T "-3")] None (Some (T "5")) (Some [T "1.0"; T "0.0"; T "0.0"]) None 1;
     mkG 2 0 (T "0") [] [Op AND; Str (T "3")] None None None None 0;
     mkG 7 12 (T "-7.8") [] [Op AND; Str (T "-4"); Op UNION; Op AND; Str (T "4")] (Some (T "5")) None None None 1;
     mkG 8 12 (T "-7.8") [] [Op AND; Str (T "-4"); Op UNION; Op AND; Str (T "4")] (Some (T "6")) None None None 1]
    [(T "12", mkM (T "12") (T "M12") (-78 # 10) [(T "26056", 3 # 4); (T "6012", 1 # 4)]%Q [] None)] [].
Example C76_deck : omc_deck strp omc_ex.
Proof.
  assert (ATOM : forall w, int_word w -> one_atom (fun w => glex openmc_delim w []) w) by exact int_word_openmc.
  assert (IW : forall s, py_int s <> None -> ~ In "+"%char s -> int_word s) by (intros s H P; destruct (py_int s) as [z|] eqn:E; [now apply (py_int_int_word s z)|tauto]).
  assert (CELL : forall c u r, universe_is c u -> (forall f, g_fill c = Some f -> py_int f <> None) ->
    (forall o, g_offset c = Some o -> length o = 3 /\ Forall word o) -> g_rot c = None -> spaced false (g_items c) = true -> expr (toks (g_items c)) r ->
    forallb (fun w => match py_int w with Some _ => forallb (fun x => negb (Ascii.eqb x "+")) w | None => false end) (words_of (g_items c)) = true -> exists r, omc_cell c r).
  { intros c u r U F O R S E W. exists r. split; [now exists u|]. split; [exact F|]. split; [exact O|]. split; [intros o H; congruence|]. split; [exact S|]. split; [exact E|].
    apply Forall_forall. intros w I. rewrite forallb_forall in W. specialize (W w I). apply ATOM, IW; destruct (py_int w); try discriminate.
    intro P. rewrite forallb_forall in W. specialize (W _ P). discriminate. }
  split; [intro x; split; [discriminate|reflexivity]|]. split; [|split].
  - unfold omc_ex. cbn [d_cells]. apply Forall_cons; [|apply Forall_cons; [|apply Forall_cons; [|apply Forall_cons; [|apply Forall_nil]]]].
    + apply (CELL _ 0%Z (RAtom (T "-3"))); cbn [g_univ g_fill g_offset g_rot g_items universe_is]; try reflexivity.
      * intros f [= <-]. vm_compute. discriminate.
      * intros o [= <-]. split; [reflexivity|]. repeat apply Forall_cons; try apply Forall_nil; (split; [discriminate|reflexivity]).
      * apply parse_sound. vm_compute. reflexivity.
    + apply (CELL _ 0%Z (RAtom (T "3"))); cbn [g_univ g_fill g_offset g_rot g_items universe_is]; try reflexivity; try discriminate. apply parse_sound. vm_compute. reflexivity.
    + apply (CELL _ 5%Z (ROr (RAtom (T "-4")) (RAtom (T "4")))); cbn [g_univ g_fill g_offset g_rot g_items universe_is]; try reflexivity; try discriminate. apply parse_sound. vm_compute. reflexivity.
    + apply (CELL _ 6%Z (ROr (RAtom (T "-4")) (RAtom (T "4")))); cbn [g_univ g_fill g_offset g_rot g_items universe_is]; try reflexivity; try discriminate. apply parse_sound. vm_compute. reflexivity.
  - unfold omc_ex. cbn [d_surfs]. repeat apply Forall_cons; try apply Forall_nil; (eexists; split; [reflexivity|split; [now cbn|split; discriminate]]).
  - unfold omc_ex. cbn [d_mats]. apply Forall_cons; [|apply Forall_nil]. cbn [snd m_comp]. split.
    + repeat constructor; cbn; intuition discriminate.
    + apply Forall_cons; [exists 26%Z, 56%Z|apply Forall_cons; [exists 6%Z, 12%Z|apply Forall_nil]]; (split; [vm_compute; reflexivity|lia]).
Qed.
Example C76_example : exists a b c d e ms, openmc_trees strp (fun _ => T "0.5") omc_ex = Some ([a; b; c; d; e], ms) /\
  map (attr "id") [a; b; c; d; e] = [Some (T "3"); Some (T "4"); Some (T "1"); Some (T "2"); Some (T "7")] /\ attr "translation" c = Some (T "1.0 0.0 0.0 ") /\
  attr "material" d = Some (T "void") /\ attr "boundary" b = Some (T "vacuum").
Proof. do 6 eexists. split; [vm_compute; reflexivity|]. now repeat split. Qed.
