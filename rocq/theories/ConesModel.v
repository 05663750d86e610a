(** The loop over all cones that nobody calls: csg2csg/MCNPInput.py 633-703, [__simplify_cones] (commented out at 1346).  The parts
    for one cone and one cell are in UnusedModel. *)
From Coq Require Import Reals.
From Verif Require Import PyStr PyInt SurfModel MacroModel CellModel FlattenModel UnusedModel.
From Verif Require NotsModel.
Open Scope Z_scope.
Open Scope list_scope.

(** MCNPInput.py 648-652. *)
Definition is_cone (s : surface) : bool := match s_type s with CONE_X | CONE_Y | CONE_Z => true | _ => false end.

(** MCNPInput.py 658-660: the new surfaces get the transform of the cone. *)
Definition with_transform (s pl : surface) : surface :=
  match s_tr s with None => pl | Some t => mkS (s_id pl) (Some t) (s_type pl) (s_coef pl) (s_bc pl) end.

(** MCNPInput.py 666-701 for a cone without five coefficients (573-574): the description is the empty text, of which lines 688 and
    692 take a character, which is an IndexError; a word with a facet keeps the loop going. *)
Definition plain_cell (id : text) (c : cell) : NotsModel.outcome cell :=
  if existsb (fun w => text_eqb id w || text_eqb (T "-" ++ id) w) (c_text c) then NotsModel.Raised
  else if existsb (macro_match id) (c_text c) then NotsModel.Running
  else match update c (join_sp (c_text c)) with Some c' => NotsModel.Done c' | None => NotsModel.Raised end.

(** MCNPInput.py 666-701: the cells, one after the other. *)
Fixpoint all_cells (f : cell -> NotsModel.outcome cell) (cells : list cell) : NotsModel.outcome (list cell) :=
  match cells with
  | [] => NotsModel.Done []
  | c :: r =>
      match f c with
      | NotsModel.Done c' =>
          match all_cells f r with
          | NotsModel.Done r' => NotsModel.Done (c' :: r')
          | NotsModel.Raised => NotsModel.Raised
          | NotsModel.Running => NotsModel.Running
          end
      | NotsModel.Raised => NotsModel.Raised
      | NotsModel.Running => NotsModel.Running
      end
  end.

(** MCNPInput.py 633-703: [n] is last_free_surface_index (578: only a cone with five coefficients takes a number); the result is the
    index, the surfaces that were there, the new ones, which stand behind them (663), and the cells.  The loop also runs over the new surfaces,
    which are planes, and does nothing for them. *)
Fixpoint simplify_cones (fuel : nat) (n : Z) (surfs : list surface) (cells : list cell) : NotsModel.outcome (Z * list surface * list surface * list cell) :=
  match surfs with
  | [] => NotsModel.Done (n, [], [], cells)
  | s :: r =>
      let continue n' s' new cells' :=
        match simplify_cones fuel n' r cells' with
        | NotsModel.Done (m, old, more, cs) => NotsModel.Done (m, s' :: old, new ++ more, cs)
        | NotsModel.Raised => NotsModel.Raised
        | NotsModel.Running => NotsModel.Running
        end in
      if is_cone s then
        match simplify_cone n s with
        | None => NotsModel.Raised
        | Some (x, s') =>
            let five := Nat.eqb (length (s_coef s)) 5 in
            match all_cells (if five then cone_cell fuel (sid (s_id s)) x else plain_cell (sid (s_id s))) cells with
            | NotsModel.Done cells' => continue (if five then n + 1 else n) s' (map (with_transform s) (x_surfs x)) cells'
            | NotsModel.Raised => NotsModel.Raised
            | NotsModel.Running => NotsModel.Running
            end
        end
      else continue n s [] cells
  end.
