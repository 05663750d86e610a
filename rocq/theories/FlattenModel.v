(** Model of replacing macrobodies in cells: csg2csg/MCNPInput.py 877-964 and
    csg2csg/MCNPCellCard.py 377-388.

    Simplifications: debug logging is left out; printing a density and reading it back
    is taken to be exact, so [update] keeps id, material and density (MCNPCellCard.py
    380-386); the description given to [update] holds no cell keyword, so
    [__detect_keywords] returns it unchanged (MCNPCellCard.py 217-224). *)
From Coq Require Import Reals.
From Verif Require Import PyStr PyInt SurfModel MacroModel CellModel.
Open Scope nat_scope.
Open Scope list_scope.

(** [p] is a prefix of [s]: what follows it. *)
Fixpoint after (p s : text) : option text :=
  match p, s with
  | [], _ => Some s
  | a :: p', b :: s' => if Ascii.eqb a b then after p' s' else None
  | _ :: _, [] => None
  end.

(** One or more dots and one of the digits 1-9, then the end. *)
Fixpoint dots_digit (s : text) : bool :=
  match s with
  | c :: r =>
      Ascii.eqb c "." &&
      match r with
      | [d] => is_digit d && negb (Ascii.eqb d "0")
      | _ => dots_digit r
      end
  | [] => false
  end.

(** MCNPInput.py 913: what may follow the number. *)
Definition tail_ok (o : option text) : bool :=
  match o with
  | Some [] => true
  | Some r => dots_digit r
  | None => false
  end.

(** MCNPInput.py 912-914: the regular expression, on a word without white space:
    optional minus, the number, optionally dots and a digit. *)
Definition macro_match (id : text) (w : text) : bool :=
  let w' := match w with c :: r => if Ascii.eqb c "-" then r else w | [] => w end in
  tail_ok (after id w').

(** Python list indexing, negative indices from the end; [None] is an IndexError. *)
Definition py_nth {A} (l : list A) (k : Z) : option A :=
  let n := Z.of_nat (length l) in
  if (k <? 0)%Z then if (k + n <? 0)%Z then None else nth_error l (Z.to_nat (k + n))
  else nth_error l (Z.to_nat k).

(** MCNPInput.py 926-951: what becomes of one word; [None] is an exception. *)
Definition subst_word (id : text) (x : exploded) (w : text) : option text :=
  if sub_in (id ++ T ".") w then
    match split_on "." w with
    | _ :: k :: _ =>
        match py_int k with
        | Some k =>
            match py_nth (x_surfs x) (k - 1) with
            | Some s => Some (if existsb (Ascii.eqb "-") w then T "-" ++ sid (s_id s) else sid (s_id s))
            | None => None
            end
        | None => None
        end
    | _ => None
    end
  else if text_eqb id w then Some (x_out x)
  else if text_eqb (T "-" ++ id) w then Some (x_in x)
  else Some w.

(** All elements computed without exception. *)
Fixpoint mapM {A B} (f : A -> option B) (l : list A) : option (list B) :=
  match l with
  | [] => Some []
  | a :: r => match f a, mapM f r with Some b, Some r' => Some (b :: r') | _, _ => None end
  end.

(** MCNPInput.py 906-953: the loop over one cell; [None] is an exception or the end of
    the fuel. *)
Fixpoint flatten_words (fuel : nat) (id : text) (x : exploded) (desc : list text) : option (list text) :=
  match fuel with
  | O => None
  | S f =>
      if existsb (macro_match id) desc then
        match mapM (subst_word id x) desc with
        | Some desc' => flatten_words f id x desc'
        | None => None
        end
      else Some desc
  end.

(** [" ".join(l)]. *)
Fixpoint join_sp (l : list text) : text :=
  match l with
  | [] => []
  | [w] => w
  | w :: r => w ++ blank :: join_sp r
  end.

(** MCNPCellCard.py 377-388 and 290-333: re-reading the card with a new description.
    The surfaces found are added to those recorded before. *)
Definition update (c : cell) (t : text) : option cell :=
  match drop_dollars (S (length t)) (spacify t) with
  | None => None
  | Some t' =>
      let desc := words t' in
      match generalise desc with
      | Some (its, sf) => Some (Cell (c_id c) (c_mat c) (c_dens c) desc its (c_surfs c ++ sf))
      | None => None
      end
  end.

(** MCNPInput.py 905-956 for one macrobody and one cell. *)
Definition flatten_cell (id : text) (x : exploded) (c : cell) : option cell :=
  match flatten_words 2 id x (c_text c) with
  | Some desc => update c (join_sp desc)
  | None => None
  end.

(** MCNPInput.py 894-897: the new surfaces take over the transform. *)
Definition inherit (s : surface) (l : list surface) : list surface :=
  match s_tr s with
  | None => l
  | Some t => map (fun n => mkS (s_id n) (Some t) (s_type n) (s_coef n) (s_bc n)) l
  end.

(** The part of the input that is changed: surfaces, cells and the last number in use
    (Input.py 27). *)
Record deck := mkDeck { d_surfs : list surface; d_cells : list cell; d_last : Z }.

(** MCNPInput.py 884-956: one surface of the loop.  New surfaces are no macrobodies, so
    that visiting them later in the loop does nothing. *)
Definition flatten_one (d : deck) (s : surface) : option deck :=
  if is_macrobody s then
    match explode_macrobody (d_last d) s with
    | None => None
    | Some x =>
        let news := inherit s (x_surfs x) in
        match mapM (flatten_cell (sid (s_id s)) x) (d_cells d) with
        | Some cells => Some (mkDeck (d_surfs d ++ news) cells (d_last d + Z.of_nat (length news)))
        | None => None
        end
    end
  else Some d.

(** MCNPInput.py 884-956: the loop. *)
Fixpoint flatten_loop (l : list surface) (d : deck) : option deck :=
  match l with
  | [] => Some d
  | s :: r => match flatten_one d s with Some d' => flatten_loop r d' | None => None end
  end.

(** MCNPInput.py 877-964, [__flatten_macrobodies]; the macrobodies are removed at the
    end. *)
Definition flatten_macrobodies (d : deck) : option deck :=
  match flatten_loop (d_surfs d) d with
  | Some d' => Some (mkDeck (filter (fun s => negb (is_macrobody s)) (d_surfs d')) (d_cells d') (d_last d'))
  | None => None
  end.
