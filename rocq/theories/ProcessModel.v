(** Model of the geometry part of [MCNPInput.process]: csg2csg/MCNPInput.py 1303-1378, from the cards on.

    Left out, because they do not touch surfaces or descriptions: reading weight windows, the transformation of universes
    (MCNPInput.py 294-303), reorganise_materials (see MaterialModel.v) and [split_unions], which does nothing
    (Input.py 86-92).  The box stored with a cone (MCNPInput.py 1060-1078) depends on the surface and the bounding
    coordinates only, see [cone_box]. *)
From Coq Require Import QArith Reals.
From Verif Require Import PyStr PyInt SurfModel MacroModel CellModel FlattenModel NamesModel BoundaryModel DedupeModel NotsModel.
Open Scope nat_scope.
Open Scope list_scope.

(** The cards that have been read: surfaces, cells with their importances, transforms by their name, importances of
    the data block (MCNPInput.py 1323-1343), and the option [quick_process] (Input.py 16). *)
Record input := mkIn {
  i_surfs : list surface;
  i_cells : list icell;
  i_cards : text -> option trans;
  i_imps : list (particle * text);
  i_quick : bool
}.

(** What is left to be written: surfaces, cells with importances, bounding coordinates (Input.py 24-35). *)
Record output := mkOut { o_surfs : list surface; o_cells : list icell; o_bounds : list R }.

(** MCNPInput.py 1185-1186: the largest surface number, or 0 (Input.py 27). *)
Definition last_index (l : list surface) : Z := fold_left (fun m s => if (m <? s_id s)%Z then s_id s else m) l 0%Z.

(** MCNPInput.py 1369-1372: duplicates are removed unless the processing is quick. *)
Definition finish (quick : bool) (surfs : list surface) (cells : list icell) (bc : list R) : outcome output :=
  if quick then Done (mkOut surfs cells bc)
  else
    match remove_duplicates surfs (map fst cells) with
    | None => Raised
    | Some (surfs', cells') => Done (mkOut surfs' (combine cells' (map snd cells)) bc)
    end.

(** MCNPInput.py 1347-1378. *)
Definition process (fuel : nat) (i : input) : outcome output :=
  match flatten_macrobodies (mkDeck (i_surfs i) (map fst (i_cells i)) (last_index (i_surfs i))) with
  | None => Raised
  | Some d =>
      match explode_nots fuel (d_cells d) with
      | Raised => Raised
      | Running => Running
      | Done cells =>
          match mapM (apply_transform (i_cards i)) (d_surfs d) with
          | None => Raised
          | Some surfs =>
              match apply_boundary_conditions (i_imps i) (combine cells (map snd (i_cells i))) surfs with
              | None => Raised
              | Some (cells', surfs') =>
                  match bounding_coordinates surfs' [0; 0; 0; 0; 0; 0]%R with
                  | None => Raised
                  | Some bc => finish (i_quick i) surfs' cells' bc
                  end
              end
          end
      end
  end.
