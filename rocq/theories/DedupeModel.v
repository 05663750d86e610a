(** Removal of duplicate surfaces (MCNPInput.py 1195-1299). *)
From Coq Require Import Reals.
From Verif Require Import PyStr PyInt SurfModel FlattenModel NotsModel CellModel.
Open Scope nat_scope.

(** An entry of [surfs_for_comparison] (MCNPInput.py 1208-1216): the generalised copy and
    the surface it was made from.  The objects are told apart by identity; here by their
    position [e_ix] in the list of surfaces. *)
Record ent := mkE { e_ix : nat; e_gen : surface; e_org : surface }.

(** MCNPInput.py 1211-1216; [None] is an exception in [generalise]. *)
Fixpoint entries (n : nat) (l : list surface) : option (list ent) :=
  match l with
  | [] => Some []
  | s :: r => match SurfModel.generalise s, entries (S n) r with
              | Some g, Some es => Some (mkE n g s :: es)
              | _, _ => None
              end
  end.

(** MCNPInput.py 1218-1224: the entries by type, in order of first appearance. *)
Fixpoint add_group (e : ent) (gs : list (stype * list ent)) : list (stype * list ent) :=
  match gs with
  | [] => [(s_type (e_gen e), [e])]
  | (t, l) :: r => if stype_beq t (s_type (e_gen e)) then (t, l ++ [e]) :: r else (t, l) :: add_group e r
  end.
Definition groups (es : list ent) : list (stype * list ent) := fold_left (fun gs e => add_group e gs) es [].

(** The dictionaries [duplicates] and [senses] (MCNPInput.py 1198-1199), which have the
    same keys: key, then the surface that is to replace it and the sense. *)
Definition dups := list (ent * (ent * bool)).

(** Assignment to a key of a dictionary (MCNPInput.py 1243-1244): an old key keeps its
    place. *)
Fixpoint dict_set (k : ent) (v : ent * bool) (d : dups) : dups :=
  match d with
  | [] => [(k, v)]
  | (k', v') :: r => if e_ix k' =? e_ix k then (k', v) :: r else (k', v') :: dict_set k v r
  end.

(** MCNPInput.py 1231-1244: the surface [s] against those before it in its group. *)
Definition compare_one (s : ent) (d : dups) (c : ent) : dups :=
  let '((same, rev), _) := diff_gen (e_gen s) (e_gen c) true in
  if same then dict_set c (s, rev) d else d.

(** MCNPInput.py 1229-1250: the surfaces of one group. *)
Fixpoint scan (earlier rest : list ent) (d : dups) : dups :=
  match rest with
  | [] => d
  | e :: r => scan (earlier ++ [e]) r (fold_left (compare_one e) earlier d)
  end.

(** MCNPInput.py 1227-1250. *)
Definition find_dups (es : list ent) : dups := fold_left (fun d g => scan [] (snd g) d) (groups es) [].

(** MCNPInput.py 1286-1291: the replacements in one description, in the order of the
    dictionary. *)
Fixpoint replace_all (d : dups) (l : list item) : option (list item) :=
  match d with
  | [] => Some l
  | (k, (t, rev)) :: r =>
      match replace_surface (s_id (e_org t)) (s_id (e_org k)) rev l with
      | Some l' => replace_all r l'
      | None => None
      end
  end.

Definition replace_cell (d : dups) (c : cell) : option cell :=
  match replace_all d (c_items c) with
  | Some l => Some (with_items c l)
  | None => None
  end.

(** MCNPInput.py 1294-1295: the surfaces that are not keys of the dictionary. *)
Definition keep (d : dups) (es : list ent) : list surface :=
  map e_org (filter (fun e => negb (existsb (fun kv => e_ix (fst kv) =? e_ix e) d)) es).

(** MCNPInput.py 1197-1297, [__remove_duplicate_surfaces]. *)
Definition remove_duplicates (surfs : list surface) (cells : list cell) : option (list surface * list cell) :=
  match entries 0 surfs with
  | None => None
  | Some es =>
      let d := find_dups es in
      match mapM (replace_cell d) cells with
      | Some cells' => Some (keep d es, cells')
      | None => None
      end
  end.
