(** Model of csg2csg/CellCard.py and the geometry part of csg2csg/MCNPCellCard.py. *)
From Coq Require Import QArith.
From Verif Require Import PyStr FortranNumber PyInt RegionSpec.
Open Scope nat_scope.
Open Scope list_scope.

(** CellCard.py 14-20, [OperationType]. *)
Inductive op := AND | UNION | NOT.

(** An element of [cell_interpreted]: an operation or a string
    (MCNPCellCard.py 142-186). *)
Inductive item := Op (o : op) | Str (s : text).

Definition item_is (w : text) (i : item) : bool :=
  match i with Str s => text_eqb s w | Op _ => false end.

(** MCNPCellCard.py 171-175: the surface number recorded for a string, if it is an
    integer. *)
Definition surf_of (s : text) : list Z :=
  match py_int s with Some z => [Z.abs z] | None => [] end.

(** MCNPCellCard.py 151-179, the [while True] loop of [generalise].  [prev] is
    [cell_description[idx - 1]]; the remaining strings are [l].  The result is the
    rest of the rewritten list together with the surfaces added to
    [cell_surface_list]; [None] is the [IndexError] raised when the list ends
    after an operator or an opening parenthesis. *)
Fixpoint gen_loop (prev : item) (l : list text) : option (list item * list Z) :=
  match l with
  | [] => None
  | s :: r =>
      if text_eqb s (T ":") then
        match gen_loop (Op UNION) r with
        | Some (o, z) => Some (Op UNION :: o, z) | None => None end
      else if text_eqb s (T "#") then
        match gen_loop (Op NOT) r with
        | Some (o, z) => Some (Op NOT :: o, z) | None => None end
      else if text_eqb s (T "(") then
        match gen_loop (Str s) r with
        | Some (o, z) => Some (Str s :: o, z) | None => None end
      else
        let '(front, z0) :=
          if negb (item_is (T "(") prev) && negb (text_eqb s (T ")"))
          then ([Op AND; Str s], surf_of s) else ([Str s], []) in
        match r with
        | [] => Some (front, z0)
        | _ => match gen_loop (Str s) r with
               | Some (o, z) => Some (front ++ o, z0 ++ z) | None => None end
        end
  end.

(** MCNPCellCard.py 142-186, [generalise].  Index -1 at the first element is the
    last element of the list.  An empty description raises [IndexError]. *)
Definition generalise (desc : list text) : option (list item * list Z) :=
  gen_loop (Str (last desc [])) desc.

(** CellCard.py 61-84, [replace_surface], on one element; [None] is the
    [ValueError] of [int(item)]. *)
Definition replace_item (ref new : Z) (reverse : bool) (i : item) : option item :=
  match i with
  | Op _ => Some i
  | Str s =>
      if text_eqb s (T "(") || text_eqb s (T ")") then Some i
      else
        match py_int s with
        | None => None
        | Some surf =>
            if (Z.abs surf =? new)%Z && (surf =? new)%Z then
              Some (Str (if reverse then str_Z (-1 * ref) else str_Z ref))
            else if (Z.abs surf =? new)%Z && negb (surf =? new)%Z then
              Some (Str (if reverse then str_Z ref else str_Z (-1 * ref)))
            else Some i
        end
  end.

(** CellCard.py 66-82: the loop over all elements. *)
Fixpoint replace_surface (ref new : Z) (reverse : bool) (l : list item) : option (list item) :=
  match l with
  | [] => Some []
  | i :: r =>
      match replace_item ref new reverse i, replace_surface ref new reverse r with
      | Some i', Some r' => Some (i' :: r')
      | _, _ => None
      end
  end.

(** The tokens a generic description stands for: AND is implied by juxtaposition.
    (How every writer renders it: MCNPCellCard.py 57, SerpentCellCard.py 24,
    OpenMCCell.py 74, SCONECellCard.py 24, FLUKACellCard.py 24.) *)
Definition str_tok (s : text) : rtok :=
  if text_eqb s (T "(") then TOpen else if text_eqb s (T ")") then TClose else TAtom s.

Definition item_toks (i : item) : list rtok :=
  match i with
  | Op AND => []
  | Op UNION => [TUnion]
  | Op NOT => [TNot]
  | Str s => [str_tok s]
  end.

Definition toks (l : list item) : list rtok := flat_map item_toks l.

(** MCNPCellCard.py 301-304: spaces around parentheses and colons, plus signs
    removed. *)
Definition spacify (s : text) : text :=
  replace_char "+" [] (replace_char ":" (T " : ") (replace_char ")" (T " ) ") (replace_char "(" (T " ( ") s))).

(** [str.find(sub, start)] for a newline: index or -1. *)
Definition find_from (c : ascii) (s : text) (p : Z) : Z :=
  let q := find c (slice_from s p) in if (q <? 0)%Z then (-1)%Z else (p + q)%Z.

(** MCNPCellCard.py 308-312: the loop that cuts dollar comments.  [None]: still
    running when fuel ends. *)
Fixpoint drop_dollars (fuel : nat) (s : text) : option text :=
  match fuel with
  | O => None
  | S f =>
      let pos := find "$" s in
      if (pos <? 0)%Z then Some s
      else let nl := find_from newline s pos in
           drop_dollars f (slice_to s pos ++ slice_from s nl)
  end.

(** The fields of a cell card set by [__interpret] (MCNPCellCard.py 317-331). *)
Record cell := Cell {
  c_id : Z;
  c_mat : Z;
  c_dens : Q;
  c_text : list text;
  c_items : list item;
  c_surfs : list Z }.

(** MCNPCellCard.py 317-331: from the words of the card to the cell; [None] is an
    exception ([IndexError], [ValueError]). *)
Definition cell_of_words (ws : list text) : option cell :=
  match ws with
  | w0 :: w1 :: rest =>
      match py_int w0, py_int w1 with
      | Some id, Some m =>
          if (0 <? m)%Z then
            match rest with
            | w2 :: desc =>
                match get_fortran_formatted_number w2, generalise desc with
                | Some d, Some (its, sf) => Some (Cell id m d desc its sf)
                | _, _ => None
                end
            | [] => None
            end
          else
            match generalise rest with
            | Some (its, sf) => Some (Cell id 0 0%Q rest its sf)
            | None => None
            end
      | _, _ => None
      end
  | _ => None
  end.

(** MCNPCellCard.py 290-333, [__interpret], after the keywords have been cut off by
    [__detect_keywords] (line 294, modelled in Keywords.v). *)
Definition interpret (fuel : nat) (s : text) : option cell :=
  match drop_dollars fuel (spacify s) with
  | None => None
  | Some t => cell_of_words (words t)
  end.
