(** Importances, boundary conditions and bounding coordinates
    (csg2csg/MCNPInput.py 61-87, 1025-1057, 1060-1078, 1142-1162). *)
From Coq Require Import QArith Reals Lra.
From Verif Require Import PyStr FortranNumber PyInt CellModel SurfModel FlattenModel NamesModel.
Open Scope nat_scope.
Open Scope list_scope.

(** [c in s] for a character. *)
Definition has (c : ascii) (s : text) : bool := existsb (Ascii.eqb c) s.

(** MCNPInput.py 74-84: the loop over the entries.  [prev] is [importance_list[idx - 1]], already rewritten;
    [None] is the ValueError of [int]. *)
Fixpoint expand_loop (prev : text) (l : list text) : option (list text) :=
  match l with
  | [] => Some []
  | v :: r =>
      match
        (if has "r" v then
           match py_int (replace_char "r" [] v) with
           | Some n => Some (join_sp (repeat prev (Z.to_nat (n - 1))))
           | None => None
           end
         else Some v)
      with
      | Some v' => match expand_loop v' r with Some r' => Some (v' :: r') | None => None end
      | None => None
      end
  end.

(** MCNPInput.py 73-86 for one particle: at index 0 the entry before is the last of the list. *)
Definition expand (t : text) : option text :=
  match expand_loop (last (words t) []) (words t) with
  | Some l => Some (join_sp l)
  | None => None
  end.

(** MCNPInput.py 61-87, [__process_importances], on the dictionary in its order: the first text with neither
    i nor r ends the loop. *)
Fixpoint process_importances (d : list (particle * text)) : option (list (particle * text)) :=
  match d with
  | [] => Some []
  | (p, t) :: r =>
      if negb (has "i" t) && negb (has "r" t) then Some d
      else match expand t, process_importances r with
           | Some t', Some r' => Some ((p, t') :: r')
           | _, _ => None
           end
  end.

(** A cell card and its importance (CellCard.py 37). *)
Definition icell := (cell * Q)%type.

(** MCNPInput.py 1150-1151: one importance per cell from the first on; [None] is the ValueError of [float] or
    the IndexError of a value too many. *)
Fixpoint set_importances (values : list text) (cells : list icell) : option (list icell) :=
  match values, cells with
  | [], _ => Some cells
  | _ :: _, [] => None
  | v :: vs, (c, _) :: cs =>
      match py_float v, set_importances vs cs with
      | Some q, Some cs' => Some ((c, q) :: cs')
      | _, _ => None
      end
  end.

(** [importance_list[ParticleNames["NEUTRON"]]]; [None] is a KeyError. *)
Fixpoint neutrons (d : list (particle * text)) : option text :=
  match d with
  | [] => None
  | (NEUTRON, t) :: _ => Some t
  | _ :: r => neutrons r
  end.

(** MCNPInput.py 1145-1151. *)
Definition apply_importances (d : list (particle * text)) (cells : list icell) : option (list icell) :=
  match d with
  | [] => Some cells
  | _ => match neutrons d with Some t => set_importances (words t) cells | None => None end
  end.

Definition with_bc (b : bcond) (s : surface) : surface := mkS (s_id s) (s_tr s) (s_type s) (s_coef s) b.

(** MCNPInput.py 1159-1161 with Input.py 61-65, [get_surface_with_id]: the first surface with the number; [None]
    is the AttributeError of [None.boundary_condition]. *)
Fixpoint set_vacuum (id : Z) (l : list surface) : option (list surface) :=
  match l with
  | [] => None
  | s :: r => if (s_id s =? id)%Z then Some (with_bc VACUUM s :: r)
              else option_map (cons s) (set_vacuum id r)
  end.

Fixpoint set_vacuums (ids : list Z) (l : list surface) : option (list surface) :=
  match ids with
  | [] => Some l
  | i :: r => match set_vacuum i l with Some l' => set_vacuums r l' | None => None end
  end.

(** MCNPInput.py 1156-1161: the loop over the cells. *)
Fixpoint graveyards (cells : list icell) (l : list surface) : option (list surface) :=
  match cells with
  | [] => Some l
  | (c, q) :: r =>
      if Qeq_bool q 0 then match set_vacuums (c_surfs c) l with Some l' => graveyards r l' | None => None end
      else graveyards r l
  end.

(** MCNPInput.py 1142-1162, [__apply_boundary_conditions]. *)
Definition apply_boundary_conditions (d : list (particle * text)) (cells : list icell) (l : list surface)
  : option (list icell * list surface) :=
  match apply_importances d cells with
  | Some cells' => match graveyards cells' l with Some l' => Some (cells', l') | None => None end
  | None => None
  end.

(** * Bounding coordinates *)
Open Scope R_scope.

(** MCNPInput.py 1030-1041: the comparisons for one box. *)
Definition keep_low (b x : R) : R := if Rlt_dec b x then b else x.
Definition keep_high (b x : R) : R := if Rgt_dec b x then b else x.
Definition grow (box bc : list R) : option (list R) :=
  match box, bc with
  | [b0; b1; b2; b3; b4; b5], [x0; x1; x2; x3; x4; x5] =>
      Some [keep_low b0 x0; keep_high b1 x1; keep_low b2 x2; keep_high b3 x3; keep_low b4 x4; keep_high b5 x5]
  | _, _ => None
  end.

(** MCNPInput.py 1025-1057, [__generate_bounding_coordinates], from the given coordinates on (Input.py 35: six
    zeros). *)
Fixpoint bounding_coordinates (l : list surface) (bc : list R) : option (list R) :=
  match l with
  | [] => Some bc
  | s :: r =>
      match bounding_box s with
      | Some box => match grow box bc with Some bc' => bounding_coordinates r bc' | None => None end
      | None => None
      end
  end.

(** MCNPInput.py 1060-1078, [__update_surfaces]: the box stored with a cone (SurfaceCard.py 50 gives every
    surface six zeros). *)
Definition cone_box (s : surface) (bc : list R) : list R :=
  match s_type s, bc with
  | CONE_X, [x0; x1; _; _; _; _] => [x0; x1; 0; 0; 0; 0]
  | CONE_Y, [_; _; y0; y1; _; _] => [0; 0; y0; y1; 0; 0]
  | CONE_Z, [_; _; _; _; z0; z1] => [0; 0; 0; 0; z0; z1]
  | _, _ => [0; 0; 0; 0; 0; 0]
  end.
