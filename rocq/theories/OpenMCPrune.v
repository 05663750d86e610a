(** Model of the OpenMC cell elements and of the removal of unused universes: csg2csg/OpenMCCell.py 84-166 and
    csg2csg/OpenMCInput.py 61-103. *)
From Verif Require Import PyStr PyInt CellModel CellWriters FlattenModel PyDict.

(** An element below the geometry element (ElementTree): its tag and its attributes. *)
Record element := mkX { x_tag : text; x_attrs : dict text }.

(** OpenMCCell.py 99-130: rotation and translation. *)
Definition openmc_rotation (c : wcell) : text :=
  match w_rot c with Some r => join_sp (firstn 9 r) | None => T "0 0 0" end.
Definition openmc_translation (c : wcell) : text :=
  match w_offset c with Some o => concat_sp (firstn 3 o) | None => T "0 0 0" end.

(** OpenMCCell.py 84-166, [get_openmc_cell_info] and [write_openmc_cell]. *)
Definition openmc_cell (c : wcell) : element :=
  mkX (T "cell")
    match w_fill c with
    | Some f =>
        [(T "id", w_id c); (T "region", openmc_region (w_items c)); (T "universe", univ_text c); (T "fill", f);
         (T "rotation", openmc_rotation c); (T "translation", openmc_translation c)]
    | None =>
        [(T "id", w_id c); (T "material", if (w_mat c =? 0)%Z then T "void" else str_Z (w_mat c));
         (T "region", openmc_region (w_items c)); (T "universe", univ_text c)]
    end.

(** [geometry_tree.findall("cell")] (OpenMCInput.py 65, 91). *)
Definition is_cell (x : element) : bool := text_eqb (x_tag x) (T "cell").

(** [int(cell_elem.get("universe"))] (OpenMCInput.py 66, 92); [None] is a TypeError or ValueError. *)
Definition universe_of (x : element) : option Z := match dget (T "universe") (x_attrs x) with Some u => py_int u | None => None end.
(** OpenMCInput.py 69-71: no fill, or its number; the outer [None] is a ValueError. *)
Definition fill_of (x : element) : option (option Z) :=
  match dget (T "fill") (x_attrs x) with
  | Some f => match py_int f with Some n => Some (Some n) | None => None end
  | None => Some None
  end.

(** OpenMCInput.py 61-81, [__get_unused_fills]: the universes of cells that fill no cell.  Simplification: no lattices,
    which the program never writes.  [None] is an exception. *)
Fixpoint scan_cells (g : list element) : option (list Z * list Z) :=
  match g with
  | [] => Some ([], [])
  | x :: r =>
      if is_cell x then
        match universe_of x, fill_of x, scan_cells r with
        | Some u, Some f, Some (us, fs) => Some (u :: us, match f with Some n => n :: fs | None => fs end)
        | _, _, _ => None
        end
      else scan_cells r
  end.
Definition memZ (z : Z) (l : list Z) : bool := existsb (Z.eqb z) l.
Definition unused_fills (g : list element) : option (list Z) :=
  match scan_cells g with
  | Some (us, fs) => Some (nodup Z.eq_dec (filter (fun u => negb (memZ u fs)) us))
  | None => None
  end.

(** OpenMCInput.py 90-98: the cells of unused universes other than 0 are removed. *)
Definition removed (unused : list Z) (x : element) : bool :=
  is_cell x && match universe_of x with Some u => memZ u unused && negb (u =? 0)%Z | None => false end.
Definition remove_unused (unused : list Z) (g : list element) : list element := filter (fun x => negb (removed unused x)) g.

(** OpenMCInput.py 84-100, [__check_unused_universes]. *)
Inductive pruned := Pruned (g : list element) | PruneError | PruneFuel.
Fixpoint prune_loop (fuel : nat) (g : list element) : pruned :=
  match unused_fills g with
  | None => PruneError
  | Some us =>
      if (length us <=? 1)%nat then Pruned g
      else match fuel with
           | O => PruneFuel
           | S f => prune_loop f (remove_unused us g)
           end
  end.
(** A removal takes away at least one element, so this fuel is enough (proved in PropPrune). *)
Definition prune (g : list element) : pruned := prune_loop (length g) g.
