(** Property theorem C86, continued: what becomes of the vacuum boundary when the surface that has it is a second card of another one (csg2csg/MCNPInput.py
    1347-1378, 1197-1297). *)
From Coq Require Import QArith Reals List Lia.
From Verif Require Import PyStr PyInt SurfModel SurfProofs CellModel FlattenModel KeywordModel FileModel BoundaryModel ProcessModel DedupeModel DedupeProofs ConvertModel MainModel PropDedupe PyDict UniverseModel MaterialModel.
From Verif Require NotsModel.
Import ListNotations.
Open Scope nat_scope.
Open Scope list_scope.

(** Two cards of one sphere: inside of the one, outside of the other. *)
Definition file86m : text :=
  T "Two cards of one ball" ++ newline :: T "1 0 -2" ++ newline :: T "2 0 1" ++ newline :: newline ::
  T "1 SO 5" ++ newline :: T "2 SO 5" ++ newline :: newline :: T "IMP:N 1 0" ++ newline :: T "nps 1000" ++ [newline].

(** The processing that is not quick goes on where the quick one ends. *)
Lemma process_quick fuel ss cs tr im o : process fuel (mkIn ss cs tr im true) = NotsModel.Done o ->
  process fuel (mkIn ss cs tr im false) = finish false (o_surfs o) (o_cells o) (o_bounds o).
Proof.
  unfold process. cbn [i_surfs i_cells i_cards i_imps i_quick]. destruct (flatten_macrobodies _) as [d|]; [|discriminate].
  destruct (NotsModel.explode_nots fuel _) as [cells| |]; try discriminate. destruct (mapM _ _) as [surfs|]; [|discriminate].
  destruct (apply_boundary_conditions _ _ _) as [[c s]|]; [|discriminate]. destruct (bounding_coordinates _ _) as [b|]; [|discriminate].
  cbn [finish]. intro E. injection E as <-. reflexivity.
Qed.

Lemma one_ball x y z r cells : let s1 := mkS 1 None SPHERE_GENERAL [x; y; z; r] VACUUM in let s2 := mkS 2 None SPHERE_GENERAL [x; y; z; r] TRANSMISSION in
  exists a b, e_org a = s1 /\ e_org b = s2 /\ remove_duplicates [s1; s2] cells = match mapM (replace_cell [(a, (b, false))]) cells with Some cs => Some ([s2], cs) | None => None end.
Proof.
  intros s1 s2. unfold remove_duplicates.
  assert (Es : exists a b, entries 0 [s1; s2] = Some [a; b] /\ e_org a = s1 /\ e_org b = s2 /\ e_ix a = 0 /\ e_ix b = 1 /\
      groups [a; b] = [(GENERAL_QUADRATIC, [a; b])] /\ sameb b a = Some false).
  { do 2 eexists. split; [reflexivity|]. repeat split. unfold sameb, diff_gen. cbn [e_gen].
    match goal with |- context [negb ?x] => change (negb x) with false end. cbv iota.
    match goal with |- context [list_Reqb ?a ?b] => replace (list_Reqb a b) with true end; [reflexivity|].
    symmetry. apply list_Reqb_true. cbn. reflexivity. }
  destruct Es as (a & b & -> & Oa & Ob & Ia & Ib & G & S). exists a, b. split; [exact Oa|]. split; [exact Ob|].
  assert (F : find_dups [a; b] = [(a, (b, false))]).
  { unfold find_dups. rewrite G. cbn [fold_left snd scan app]. rewrite compare_one_eq, S. reflexivity. }
  rewrite F. unfold keep. cbn [filter existsb fst]. rewrite Ia, Ib. cbn [Nat.eqb orb negb map]. now rewrite Ob.
Qed.

(** C86 is false without the option that makes the processing quick: the first of two cards of one surface is taken out after the boundary conditions
    have been set, and if the cell of importance 0 names that one, nothing is left of the outside: no surface is a vacuum boundary. *)
Theorem C86_merged_refuted str show : exists s d d', load str show 100 true s = NotsModel.Done d /\ load str show 100 false s = NotsModel.Done d' /\
  map (fun x => (s_id (fst x), s_bc (fst x))) (d_surfs d) = [(1, VACUUM); (2, TRANSMISSION)]%Z /\
  map (fun x => (s_id (fst x), s_bc (fst x))) (d_surfs d') = [(2, TRANSMISSION)]%Z /\
  map (fun c => (g_id c, g_imp c, g_items c)) (d_cells d') = [(1%Z, 1%Q, [Op AND; Str (T "-2")]); (2%Z, 0%Q, [Op AND; Str (T "2")])].
Proof.
  exists file86m. assert (F : exists p im o r ps ms cs, read_file 100 file86m = Some p /\ process_importances (f_imps p) = Some im /\
    process 100 (mkIn (f_surfs p) (map (fun x => (fst x, k_imp (snd x))) (f_cells p)) (fun id => dget id (f_trans p)) im true) = NotsModel.Done o /\
    o_surfs o = [mkS 1 None SPHERE_GENERAL [R0; R0; R0; r] VACUUM; mkS 2 None SPHERE_GENERAL [R0; R0; R0; r] TRANSMISSION] /\
    o_cells o = [(Cell 1 0 0 [T "-2"] [Op AND; Str (T "-2")] [2%Z], 1%Q); (Cell 2 0 0 [T "1"] [Op AND; Str (T "1")] [1%Z], 0%Q)] /\
    mapM (universe_placing (f_trans p)) (map snd (f_cells p)) = Some ps /\
    reorganise_materials show (f_mats p) (map (fun x => mkC (MInt (c_mat (fst x))) (c_dens (fst x))) (f_cells p)) = Some (ms, cs) /\
    length (f_cells p) = 2 /\ length ps = 2 /\ length cs = 2).
  { do 7 eexists. split; [vm_compute; reflexivity|]. split; [vm_compute; reflexivity|]. split; [vm_compute; reflexivity|]. split; [vm_compute; reflexivity|].
    split; [vm_compute; reflexivity|]. split; [vm_compute; reflexivity|]. split; [vm_compute; reflexivity|]. split; [vm_compute; reflexivity|]. split; vm_compute; reflexivity. }
  destruct F as (p & im & o & r & ps & ms & cs & RF & PI & PR & OS & OC & MP & RM & L1 & L2 & L3).
  assert (PF := process_quick _ _ _ _ _ _ PR). unfold load. rewrite RF. unfold in_memory. rewrite PI, PR, PF, MP, RM. unfold finish. rewrite OS, OC.
  destruct (one_ball R0 R0 R0 r (map fst [(Cell 1 0 0 [T "-2"] [Op AND; Str (T "-2")] [2%Z], 1%Q); (Cell 2 0 0 [T "1"] [Op AND; Str (T "1")] [1%Z], 0%Q)])) as (a & b & EA & EB & RD).
  cbv zeta in RD, EA, EB. rewrite RD. unfold replace_cell. cbn [map fst mapM replace_all c_items]. rewrite EA, EB. cbn [s_id].
  change (replace_surface 2 1 false [Op AND; Str (T "-2")]) with (Some [Op AND; Str (T "-2")]).
  change (replace_surface 2 1 false [Op AND; Str (T "1")]) with (Some [Op AND; Str (T "2")]).
  do 2 eexists. split; [reflexivity|]. split; [reflexivity|]. cbn [d_surfs d_cells map fst s_id s_bc o_surfs o_cells].
  split; [reflexivity|]. split; [reflexivity|].
  destruct (f_cells p) as [|x1 [|x2 [|]]]; try discriminate L1. destruct ps as [|p1 [|p2 [|]]]; try discriminate L2. destruct cs as [|c1 [|c2 [|]]]; try discriminate L3. reflexivity.
Qed.
Print Assumptions C86_merged_refuted.
