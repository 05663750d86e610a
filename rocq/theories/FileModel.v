(** Reading a whole MCNP file: csg2csg/MCNPInput.py 1303-1345 with the constructors of the cards. *)
From Coq Require Import QArith Reals.
From Verif Require Import PyStr PyDict CellModel SurfModel NamesModel MaterialModel KeywordModel DeckScan FlattenModel.
Open Scope nat_scope.
Open Scope list_scope.

(** MCNPCellCard.py 122-124 and 290-333: the constructor of a cell card, which cuts the keywords off first (line 294).
    [None] is an exception, or the loop over dollar signs still running. *)
Definition read_cell_card (fuel : nat) (t : text) : option (cell * keywords) :=
  match detect_keywords no_keywords t with
  | Some (k, s) => option_map (fun c => (c, k)) (interpret fuel s)
  | None => None
  end.

(** What is in memory after the cards have been read (MCNPInput.py 1303-1345). *)
Record contents := mkF {
  f_title : text;
  f_cells : list (cell * keywords);
  f_surfs : list surface;
  f_imps : list (particle * text);
  f_trans : dict trans;
  f_mats : dict material }.

(** MCNPInput.py 1303-1345, [process] up to the flattening of macrobodies.  [__get_weight_windows] returns at once (139-140).
    The importances are as they are before [__process_importances] (line 98). *)
Definition read_file (fuel : nat) (s : text) : option contents :=
  match split_file s with
  | None => None
  | Some p =>
      match mapM (read_cell_card fuel) (p_cells p), mapM read_surface (p_surfs p), transform_list (p_trans p) [],
            add_materials [] (p_mats p) with
      | Some cs, Some ss, Some ts, Some ms => Some (mkF (p_title p) cs ss (p_imps p) ts ms)
      | _, _, _, _ => None
      end
  end.
