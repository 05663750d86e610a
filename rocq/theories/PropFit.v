(** Property theorems C102 and C30: files whose cards do not fit together (csg2csg/MCNPInput.py 318-383, 1303-1378) and facets that do not exist (926-951). *)
From Coq Require Import QArith Reals List Lia Permutation.
From Verif Require Import PyStr PyStrFacts PyInt PyDict SurfModel CellModel FlattenModel KeywordModel FileModel MaterialModel ReorgProofs ConvertModel MainModel.
From Verif Require Import PyIntFacts MacroText MacroModel FlattenProofs.
From Verif Require NotsModel.
Import ListNotations.
Open Scope nat_scope.
Open Scope list_scope.

(** ** A material without a card *)

Lemma dget_in_keys {V} k (d : dict V) : In k (keys d) <-> dget k d <> None.
Proof. split; [intros I E; now apply (proj1 (dget_none k d)) in E|]. intro N. destruct (in_dec (list_eq_dec Ascii.ascii_dec) k (keys d)) as [I|I]; [exact I|]. now apply dget_none in I. Qed.

Lemma densities_from cs : forall m ds q, In (m, ds) (densities cs) -> In q ds -> exists c, In c cs /\ k_mat c = MInt m /\ k_dens c = q.
Proof.
  unfold densities. cut (forall seen l, NoDup (map fst l) -> (forall m ds q, In (m, ds) l -> In q ds -> exists c, In c seen /\ k_mat c = MInt m /\ k_dens c = q) ->
    forall m ds q, In (m, ds) (fold_left (fun l c => match k_mat c with MInt z => add_density z (k_dens c) l | MStr _ => l end) cs l) -> In q ds -> exists c, In c (seen ++ cs) /\ k_mat c = MInt m /\ k_dens c = q).
  { intros H. apply (H [] []); [constructor|intros ? ? ? []]. }
  induction cs as [|c cs IH]; intros seen l N H; cbn [fold_left]; [now rewrite app_nil_r|].
  change (seen ++ c :: cs) with (seen ++ ([c] ++ cs)). rewrite app_assoc. destruct (k_mat c) as [z|t] eqn:K.
  - apply IH.
    + rewrite add_density_keys. destruct (existsb (Z.eqb z) (map fst l)) eqn:E; [exact N|].
      apply (Permutation_NoDup (Permutation_app_comm [z] (map fst l))). constructor; [|exact N]. intro I.
      assert (existsb (Z.eqb z) (map fst l) = true); [|congruence]. apply existsb_exists. exists z. split; [exact I|apply Z.eqb_refl].
    + intros m ds q I Q. destruct (add_density_in _ _ _ _ N I) as [[A _]|[(ds' & A & E)|[_ E]]].
      * destruct (H m ds q A Q) as (x & X1 & X2). exists x. split; [apply in_or_app; now left|exact X2].
      * injection E as -> ->. assert (D : In q ds' \/ q = k_dens c).
        { destruct (existsb (Qeq_bool (k_dens c)) ds'); [now left|]. apply in_app_iff in Q as [Q|[Q|[]]]; auto. }
        destruct D as [D| ->]; [|exists c; split; [apply in_or_app; right; now left|auto]].
        destruct (H z ds' q A D) as (x & X1 & X2). exists x. split; [apply in_or_app; now left|exact X2].
      * injection E as -> ->. destruct Q as [<-|[]]. exists c. split; [apply in_or_app; right; now left|auto].
  - apply IH; [exact N|]. intros m ds q I Q. destruct (H m ds q I Q) as (x & X1 & X2). exists x. split; [apply in_or_app; now left|exact X2].
Qed.

Lemma set_density_keys mat d ms ms' : set_density mat d ms = Some ms' -> forall k, In k (keys ms') -> In k (keys ms).
Proof.
  unfold set_density. destruct (dget (str_Z mat) ms) as [m|] eqn:G; [|discriminate]. intro E. injection E as <-. intros k I.
  apply dget_in_keys. apply dget_in_keys in I. rewrite dget_dset in I. destruct (text_eqb_spec (str_Z mat) k) as [EK|EK]; [rewrite <- EK, G; discriminate|exact I].
Qed.
Lemma split_missing show l : forall ms cs m ds, Forall (fun e => length (snd e) = 1) l -> In (m, ds) l -> ~ In (str_Z m) (keys ms) -> split_materials show l ms cs = None.
Proof.
  induction l as [|[mat ds0] l IH]; intros ms cs m ds F I N; [destruct I|]. inversion F as [|? ? F1 F2]; subst. cbn [snd] in F1.
  destruct ds0 as [|d [|]]; try discriminate F1. cbn [split_materials]. destruct (set_density mat d ms) as [ms1|] eqn:S; [|reflexivity]. cbn [copies].
  destruct I as [E|I].
  - injection E as -> _. exfalso. unfold set_density in S. destruct (dget (str_Z m) ms) as [x|] eqn:G; [|discriminate S]. apply N, dget_in_keys. congruence.
  - apply (IH ms1 cs m ds F2 I). intro K. apply N. now apply (set_density_keys _ _ _ _ S).
Qed.

(** C102 for materials: if no material has two densities, a cell of a material without a card ends the program. *)
Theorem C102_material str show fuel quick s p x : read_file fuel s = Some p -> In x (f_cells p) -> c_mat (fst x) <> 0%Z -> ~ In (str_Z (c_mat (fst x))) (keys (f_mats p)) ->
  (forall y z, In y (f_cells p) -> In z (f_cells p) -> c_mat (fst y) = c_mat (fst z) -> (c_dens (fst y) == c_dens (fst z))%Q) ->
  forall d, load str show fuel quick s <> NotsModel.Done d.
Proof.
  intros R I M N ONE d. unfold load. rewrite R. unfold in_memory. destruct (BoundaryModel.process_importances (f_imps p)) as [im|]; [|discriminate].
  destruct (ProcessModel.process _ _) as [o| |]; try discriminate. destruct (mapM _ _) as [ps|]; [|discriminate].
  set (cs := map (fun y => mkC (MInt (c_mat (fst y))) (c_dens (fst y))) (f_cells p)).
  assert (K : reorganise_materials show (f_mats p) cs = None); [|now rewrite K].
  assert (T : table_ok (densities cs) cs) by (apply densities_ok; unfold cs; apply Forall_map, Forall_forall; intros; eexists; reflexivity).
  destruct (to_cell _ _ T (c_mat (fst x)) (c_dens (fst x))) as (ds & ID & _); [unfold cs; apply in_map_iff; now exists x|].
  unfold reorganise_materials. set (l := filter _ (densities cs)). assert (IL : In (c_mat (fst x), ds) l).
  { apply filter_In. split; [exact ID|]. cbn [fst]. apply negb_true_iff. now apply Z.eqb_neq. }
  assert (S : split_materials show (sort_mats l) (f_mats p) cs = None).
  { apply (split_missing _ _ _ _ (c_mat (fst x)) ds); [| |exact N].
    - apply Forall_forall. intros [m qs] J. apply (Permutation_in _ (sort_mats_perm l)), filter_In in J as [J _]. cbn [snd].
      assert (RW := to_rows _ _ T). rewrite Forall_forall in RW. destruct (RW _ J) as [NE AP]. cbn [snd] in *. destruct qs as [|q [|q' qs]]; [tauto|reflexivity|exfalso].
      destruct (densities_from cs m _ q J) as (c1 & I1 & K1 & D1); [now left|]. destruct (densities_from cs m _ q' J) as (c2 & I2 & K2 & D2); [right; now left|].
      unfold cs in I1, I2. apply in_map_iff in I1 as (y & <- & Iy), I2 as (z & <- & Iz). cbn [k_mat k_dens] in *.
      assert (QE := ONE y z Iy Iz ltac:(congruence)). rewrite D1, D2 in QE. assert (0 = 1) by (apply (AP 0 1 q q'); [reflexivity|reflexivity|exact QE]). discriminate.
    - apply (Permutation_in _ (Permutation_sym (sort_mats_perm l))). exact IL. }
  destruct l as [|e l']; [destruct IL|]. now rewrite S.
Qed.
Print Assumptions C102_material.

(** ** Files *)

(** A file of these cards, with a title and one more data card: the blocks that process looks for (csg2csg/MCNPInput.py 1303-1378). *)
Definition file_with (cells surfs data : list text) : text :=
  flat_map (fun x => x ++ [newline]) ([T "title"] ++ cells ++ [[]] ++ surfs ++ [[]] ++ data ++ [T "nps 10"]).

Example C102_material_example : exists p x, let s := file_with [T "1 3 -1.0 -1 imp:n=1"; T "2 0 1 imp:n=0"] [T "1 so 5"] [T "m1 8016 1"] in
  read_file 100 s = Some p /\ In x (f_cells p) /\ c_mat (fst x) <> 0%Z /\ ~ In (str_Z (c_mat (fst x))) (keys (f_mats p)) /\
  (forall y z, In y (f_cells p) -> In z (f_cells p) -> c_mat (fst y) = c_mat (fst z) -> (c_dens (fst y) == c_dens (fst z))%Q) /\
  forall str show quick, load str show 100 quick s = NotsModel.Raised.
Proof.
  eexists _, _. cbv zeta. split; [vm_compute; reflexivity|]. split; [left; reflexivity|]. split; [vm_compute; discriminate|]. split; [vm_compute; intuition discriminate|].
  split; [|intros str show [|]; vm_compute; reflexivity]. intros y z [<-|[<-|[]]] [<-|[<-|[]]] E; try reflexivity; vm_compute in E; discriminate E.
Qed.

(** C102 is false for materials when another one has two densities: its copy takes the first free number, and if that is the number without a card, the cell of that number is
    filled with the copy; the cell of the copy gets the density of the cell that should have been refused. *)
Theorem C102_material_refuted : exists s p x, read_file 100 s = Some p /\ In x (f_cells p) /\ c_id (fst x) = 3%Z /\ c_mat (fst x) = 2%Z /\ keys (f_mats p) = [T "1"] /\
  map (fun y => (c_id (fst y), c_dens (fst y))) (f_cells p) = [(1%Z, -10 # 10); (2%Z, -20 # 10); (3%Z, -30 # 10); (4%Z, 0)]%Q /\
  forall str show, exists d, load str show 100 true s = NotsModel.Done d /\
    map (fun c => (g_id c, g_mat c)) (d_cells d) = [(1, 1); (2, 2); (3, 2); (4, 0)]%Z /\
    map (fun m => (fst m, m_dens (snd m))) (d_mats d) = [(T "1", -10 # 10); (T "2", -30 # 10)]%Q.
Proof.
  exists (file_with [T "1 1 -1.0 -1 imp:n=1"; T "2 1 -2.0 1 -2 imp:n=1"; T "3 2 -3.0 2 -3 imp:n=1"; T "4 0 3 imp:n=0"] [T "1 so 5"; T "2 so 6"; T "3 so 7"] [T "m1 8016 1"]).
  eexists _, _. split; [vm_compute; reflexivity|]. split; [right; right; left; reflexivity|]. do 4 (split; [vm_compute; reflexivity|]).
  intros str show. eexists. split; [vm_compute; reflexivity|]. split; vm_compute; reflexivity.
Qed.
Print Assumptions C102_material_refuted.

(** C102 is false for surfaces: a cell may name one that has no card; nothing is raised, and the cell still names it in the deck. *)
Theorem C102_surface_refuted : exists s, forall str show quick, exists d, load str show 100 quick s = NotsModel.Done d /\
  map (fun x => s_id (fst x)) (d_surfs d) = [1%Z] /\ map g_items (d_cells d) = [[Op AND; Str (T "-7")]; [Op AND; Str (T "7")]].
Proof.
  exists (file_with [T "1 0 -7 imp:n=1"; T "2 0 7 imp:n=1"] [T "1 so 5"] []). intros str show [|]; (eexists; split; [vm_compute; reflexivity|]; split; vm_compute; reflexivity).
Qed.
Print Assumptions C102_surface_refuted.

(** C102 is false for numbers that are given twice: both surfaces and both cells are kept, a complement is that of the first of the cells, and of two materials the first is
    forgotten. *)
Theorem C102_twice_refuted : exists s, forall str show, exists d, load str show 100 true s = NotsModel.Done d /\
  map (fun x => (s_id (fst x), s_type (fst x))) (d_surfs d) = [(1%Z, SPHERE_GENERAL); (1%Z, PLANE_X)] /\
  map (fun c => (g_id c, g_mat c, g_items c)) (d_cells d) =
    [(1%Z, 3%Z, [Op AND; Str (T "-1")]); (1%Z, 0%Z, [Op AND; Str (T "1")]); (2%Z, 0%Z, [Op AND; Op NOT; Str (T "("); Op AND; Str (T "-1"); Str (T ")")])] /\
  map (fun m => (fst m, map fst (m_comp (snd m)))) (d_mats d) = [(T "3", [T "8016"])].
Proof.
  exists (file_with [T "1 3 -1.0 -1 imp:n=1"; T "1 0 1 imp:n=1"; T "2 0 #1 imp:n=1"] [T "1 so 5"; T "1 px 3"] [T "m3 1001 1"; T "m3 8016 1"]).
  intros str show. eexists. split; [vm_compute; reflexivity|]. split; [vm_compute; reflexivity|split; vm_compute; reflexivity].
Qed.
Print Assumptions C102_twice_refuted.

(** ** Facets that do not exist *)

(** C30: a facet beyond the last one is refused. *)
Theorem C30_facet_beyond m x sg k : (0 <= m)%Z -> length (x_surfs x) < k -> subst_word (sid m) x (facet_word sg m k) = None.
Proof.
  intros P K. unfold subst_word.
  assert (S : sub_in (sid m ++ T ".") (facet_word sg m k) = true).
  { apply sub_in_app. exists (sgn sg), (str_Z (Z.of_nat k)). unfold facet_word. now rewrite <- !app_assoc. }
  rewrite S. unfold facet_word at 1. rewrite app_assoc. change (T "." ++ str_Z (Z.of_nat k)) with ("."%char :: str_Z (Z.of_nat k)).
  rewrite split_on_app by (apply in_app_no; [apply sgn_no; discriminate|now apply sid_no]). rewrite split_on_none by (now apply str_nat_no). rewrite py_int_str_Z.
  unfold py_nth. destruct (Z.ltb_spec (Z.of_nat k - 1) 0); [lia|]. replace (Z.to_nat (Z.of_nat k - 1)) with (k - 1) by lia.
  now rewrite (proj2 (nth_error_None (x_surfs x) (k - 1))) by lia.
Qed.
Print Assumptions C30_facet_beyond.
Example C30_facet_beyond_example : forall str show, load str show 100 true (file_with [T "1 0 -1.7 imp:n=1"; T "2 0 1 imp:n=1"] [T "1 rpp -1 1 -2 2 -3 3"] []) = NotsModel.Raised.
Proof. intros. vm_compute. reflexivity. Qed.

(** C30 is false for the facet 0, which MCNP does not have: beside another facet of the macrobody it is taken for the last one, and alone it stays in the cell, which
    then names a surface that is gone. *)
Theorem C30_facet_zero_refuted : exists a b, forall str show, exists d d' e, load str show 100 true (a ++ T " -1.1 -1.0 " ++ b) = NotsModel.Done d /\
  load str show 100 true (a ++ T " -1.1 -1.6 " ++ b) = NotsModel.Done d' /\ load str show 100 true (a ++ T " -1.0 " ++ b) = NotsModel.Done e /\
  d_surfs d = d_surfs d' /\ map g_items (d_cells d) = map g_items (d_cells d') /\ map g_items (firstn 1 (d_cells d)) = [[Op AND; Str (T "-2"); Op AND; Str (T "-7")]] /\
  map g_items (firstn 1 (d_cells e)) = [[Op AND; Str (T "-1.0")]] /\ map (fun x => s_id (fst x)) (d_surfs e) = [2; 3; 4; 5; 6; 7]%Z.
Proof.
  exists (T "title" ++ [newline] ++ T "1 0"), (T "imp:n=1" ++ [newline] ++ T "2 0 1 imp:n=1" ++ [newline; newline] ++ T "1 rpp -1 1 -2 2 -3 3" ++ [newline; newline] ++ T "nps 10" ++ [newline]).
  intros str show. eexists _, _, _. do 3 (split; [vm_compute; reflexivity|]). repeat split; vm_compute; reflexivity.
Qed.
Print Assumptions C30_facet_zero_refuted.
