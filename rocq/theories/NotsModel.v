(** Cell complements "#n": their replacement by the complement of the cell's description
    (MCNPInput.py 967-1022). *)
From Verif Require Import PyStr PyInt RegionSpec CellModel.

(** The digits at the start of a text: [\d+] (MCNPInput.py 970, 994).  Simplification:
    digits are those of ASCII. *)
Fixpoint span_digits (s : text) : text :=
  match s with
  | c :: r => if is_digit c then c :: span_digits r else []
  | [] => []
  end.

(** [re.findall("#(\d+)", s)], its first element (MCNPInput.py 970, 994-997): the digits
    after the first hash that is followed by a digit. *)
Fixpoint hash_digits (s : text) : option text :=
  match s with
  | [] => None
  | c :: r =>
      if Ascii.eqb c "#" then
        match span_digits r with
        | [] => hash_digits r
        | d :: ds => Some (d :: ds)
        end
      else hash_digits r
  end.

(** MCNPInput.py 967-972, [__nots_remaining]. *)
Definition has_not (i : item) : bool :=
  match i with
  | Op _ => false
  | Str s => match hash_digits s with Some _ => true | None => false end
  end.
Definition nots_remaining (l : list item) : bool := existsb has_not l.

(** MCNPInput.py 983-989: the first string that contains a hash, with what precedes and
    what follows it. *)
Definition has_hash (s : text) : bool := existsb (Ascii.eqb "#") s.
Fixpoint first_hash (l : list item) : option (list item * text * list item) :=
  match l with
  | [] => None
  | i :: r =>
      match i with
      | Str s => if has_hash s then Some ([], s, r)
                 else match first_hash r with Some (a, w, b) => Some (i :: a, w, b) | None => None end
      | Op _ => match first_hash r with Some (a, w, b) => Some (i :: a, w, b) | None => None end
      end
  end.

(** Input.py 42-46, [find_cell]: the description of the first cell with the given
    number, compared as text. *)
Definition find_cell (cells : list cell) (w : text) : option (list item) :=
  match List.find (fun c => text_eqb (str_Z (c_id c)) w) cells with
  | Some c => Some (c_items c)
  | None => None
  end.

(** MCNPInput.py 975-1012, [__split_nots]; [None] is an exception: [AttributeError] when
    the cell does not exist.  Without any hash the first item is examined (982, 994). *)
Definition split_nots (look : text -> option (list item)) (l : list item) : option (list item) :=
  match first_hash l with
  | None => match l with Str _ :: _ => Some l | _ => None end
  | Some (a, w, b) =>
      match hash_digits w with
      | None => Some l
      | Some d =>
          match look d with
          | None => None
          | Some t => Some (a ++ (Op NOT :: Str (T "(") :: t ++ [Str (T ")")]) ++ b)
          end
      end
  end.

(** How a loop ends: with a value, with an exception, or not within the steps allowed. *)
Inductive outcome (A : Type) := Done (a : A) | Raised | Running.
Arguments Done {A}. Arguments Raised {A}. Arguments Running {A}.

(** A cell whose description is replaced (MCNPInput.py 1010). *)
Definition with_items (c : cell) (l : list item) : cell :=
  Cell (c_id c) (c_mat c) (c_dens c) (c_text c) l (c_surfs c).

(** MCNPInput.py 1020-1021: the loop for one cell.  The cell itself is among those that
    are searched, with its present description. *)
Fixpoint not_loop (fuel : nat) (before : list cell) (c : cell) (after : list cell) : outcome cell :=
  if nots_remaining (c_items c) then
    match fuel with
    | O => Running
    | S f =>
        match split_nots (find_cell (before ++ c :: after)) (c_items c) with
        | None => Raised
        | Some l => not_loop f before (with_items c l) after
        end
    end
  else Done c.

(** MCNPInput.py 1018-1022, [__explode_nots]: the cells in order, in place; each loop may
    take [fuel] steps. *)
Fixpoint explode_cells (fuel : nat) (before todo : list cell) : outcome (list cell) :=
  match todo with
  | [] => Done before
  | c :: r =>
      match not_loop fuel before c r with
      | Done c' => explode_cells fuel (before ++ [c']) r
      | Raised => Raised
      | Running => Running
      end
  end.
Definition explode_nots (fuel : nat) (cells : list cell) : outcome (list cell) := explode_cells fuel [] cells.
