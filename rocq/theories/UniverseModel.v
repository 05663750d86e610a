(** Model of the universe cards made for SCONE: csg2csg/UniverseCard.py 56-95, csg2csg/Input.py 95-132,
    csg2csg/SCONEUniverseCard.py 10-60. *)
From Verif Require Import PyStr PyInt Formatter CellModel CellWriters.
Open Scope Z_scope.
Open Scope list_scope.

(** What the universe cards use of a cell (CellCard.py 25-40).  [None] is the Python value 0.  The universe, the fill, the
    offset and the rotation are the texts the reader stores (MCNPCellCard.py 260-274, 337-367). *)
Record ucell := mkUC {
  uc_id : Z;
  uc_text : list text;
  uc_univ : option text;
  uc_fill : option text;
  uc_offset : option (list text);
  uc_rot : option (list text) }.

(** A universe card (UniverseCard.py 22-35).  [u_fill]: the universe the root is filled with, if fill_type is uni_fill. *)
Record ucard := mkU {
  u_id : Z;
  u_cells : list Z;
  u_fill : option Z;
  u_offset : option (list text);
  u_rot : option (list text);
  u_root : bool;
  u_border : Z }.

(** [int(cell.cell_universe)] (UniverseCard.py 71, Input.py 99); [None] is a ValueError. *)
Definition uc_number (c : ucell) : option Z := match uc_univ c with Some t => py_int t | None => Some 0 end.

(** [item.lstrip('-').isdigit()] (UniverseCard.py 79). *)
Fixpoint lstrip_minus (s : text) : text := match s with c :: r => if Ascii.eqb c "-" then lstrip_minus r else s | [] => [] end.
Definition numeric (s : text) : bool := match lstrip_minus s with [] => false | d => forallb is_digit d end.

(** UniverseCard.py 79-80: the half spaces; [None] is a ValueError. *)
Fixpoint halfspaces (ts : list text) : option (list Z) :=
  match ts with
  | [] => Some []
  | t :: r =>
      if numeric t then match py_int t, halfspaces r with Some z, Some l => Some (z :: l) | _, _ => None end
      else halfspaces r
  end.

(** [cell.cell_fill == uni_id] (UniverseCard.py 88): a text is never equal to a number; the value 0 of a cell without
    fill is equal to the number 0. *)
Definition fill_equals (f : option text) (uni : Z) : bool := match f with Some _ => false | None => uni =? 0 end.

(** UniverseCard.py 69-95: one pass of the loop. *)
Definition build_step (uni : Z) (u : ucard) (c : ucell) : option ucard :=
  match uc_number c with
  | None => None
  | Some n =>
      let u1 :=
        if n =? uni then
          match halfspaces (uc_text c) with
          | None => None
          | Some hs =>
              let border := match hs with
                            | [s] => if (uni =? 0) && (0 <? s) then s else u_border u
                            | _ => u_border u end in
              Some (mkU (u_id u) (u_cells u ++ [uc_id c]) (u_fill u) (u_offset u) (u_rot u) (u_root u) border)
          end
        else Some u in
      match u1 with
      | None => None
      | Some v =>
          if fill_equals (uc_fill c) uni then
            Some (mkU (u_id v) (u_cells v) (u_fill v)
                    match uc_offset c with Some o => Some o | None => u_offset v end
                    match uc_rot c with Some r => Some r | None => u_rot v end (u_root v) (u_border v))
          else Some v
      end
  end.
Fixpoint build_loop (uni : Z) (u : ucard) (cells : list ucell) : option ucard :=
  match cells with
  | [] => Some u
  | c :: r => match build_step uni u c with Some v => build_loop uni v r | None => None end
  end.

(** UniverseCard.py 56-95, [build_from_cell_list]. *)
Definition build_universe (cells : list ucell) (uni : Z) : option ucard :=
  build_loop uni (mkU uni [] None None None (uni =? 0) 0) cells.

Fixpoint build_all (cells : list ucell) (ids : list Z) : option (list ucard) :=
  match ids with
  | [] => Some []
  | i :: r => match build_universe cells i, build_all cells r with Some u, Some l => Some (u :: l) | _, _ => None end
  end.

(** [max(universe_ids)] (Input.py 120) for a set that is not empty. *)
Definition max_id (ids : list Z) : Z := fold_left Z.max ids (hd 0 ids).

(** Input.py 117-130: roots with cells are split; the new universes come last.  The loop also runs over the universes it
    appends, which are not root. *)
Fixpoint split_roots (new : Z) (us : list ucard) : list ucard * list ucard :=
  match us with
  | [] => ([], [])
  | u :: r =>
      let (a, b) := split_roots new r in
      if u_root u && negb (match u_cells u with [] => true | _ => false end) then
        (mkU (u_id u) [] (Some new) (u_offset u) (u_rot u) (u_root u) (u_border u) :: a,
         mkU new (u_cells u) (u_fill u) (u_offset u) (u_rot u) false 0 :: b)
      else (u :: a, b)
  end.

(** Input.py 95-132, [create_universes_from_cells].  [ids]: the set of the universe numbers in the order Python
    iterates over it; [old]: the universe list before. *)
Definition create_universes (ids : list Z) (cells : list ucell) (old : list ucard) : option (list ucard) :=
  match build_all cells ids with
  | None => None
  | Some l => let (a, b) := split_roots (max_id ids + 1) (old ++ l) in Some (a ++ b)
  end.

(** Input.py 96-99: [ids] is the set of the universe numbers of the cells, in some order. *)
Definition universe_ids (ids : list Z) (cells : list ucell) : Prop :=
  NoDup ids /\ (forall c, In c cells -> uc_number c <> None) /\ forall n, In n ids <-> exists c, In c cells /\ uc_number c = Some n.

(** SCONEUniverseCard.py 10-60: the text before it is wrapped; [None] is the UnboundLocalError of line 48. *)
Definition scone_universe_text (u : ucard) : option text :=
  match u_rot u with
  | Some _ => None
  | None =>
      Some (collapse
        ((if u_root u then
            T "root { type rootUniverse; border " ++ str_Z (u_border u) ++ T "; " ++
            match u_fill u with Some f => T "fill u<" ++ str_Z (f + 1) ++ T ">; " | None => [] end
          else str_Z (u_id u + 1) ++ T " { type cellUniverse; cells (" ++ flat_map (fun i => str_Z i ++ T " ") (u_cells u) ++ T "); ") ++
         T "id " ++ str_Z (u_id u + 1) ++ T "; " ++
         match u_offset u with Some o => T "translation (" ++ concat_sp (firstn 3 o) ++ T "); " | None => [] end ++
         T " } " ++ [newline]))
  end.
Definition write_scone_universe (fuel : nat) (u : ucard) : option text :=
  match scone_universe_text u with Some t => mcnp_line_formatter fuel t | None => None end.

Example universe_ex :
  create_universes [0; 5] [mkUC 1 [T "-1"] None (Some (T "5")) None None; mkUC 2 [T "1"] None None None None; mkUC 3 [T "-2"; T "3"] (Some (T "5")) None None None] [] =
    Some [mkU 0 [] (Some 6) None None true 1; mkU 5 [3] None None None false 0; mkU 6 [1; 2] None None None false 0].
Proof. vm_compute. reflexivity. Qed.
