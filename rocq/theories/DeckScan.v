(** From the lines of a file to the texts of its cards
    (csg2csg/Input.py 46-54, csg2csg/MCNPInput.py 44-52, 90-129, 165-270, 1081-1139, 1165-1190, 1303-1318).

    Simplifications: a file is a list of characters in which lines end in a newline (Python translates other line
    ends when reading); the cards are made (and may raise) while the lines are scanned, here the texts of the cards
    are collected first; debug output is left out. *)
From Verif Require Import PyStr PyDict Formatter CellModel SurfModel FlattenModel NamesModel.
Open Scope nat_scope.
Open Scope list_scope.

(** Input.py 48: [f.readlines()]; every line keeps its newline. *)
Fixpoint readlines (s : text) : list text :=
  match s with
  | [] => []
  | c :: r =>
      if Ascii.eqb c newline then [c] :: readlines r
      else match readlines r with
           | l :: ls => (c :: l) :: ls
           | [] => [[c]]
           end
  end.

(** Input.py 46-54, [read]. *)
Definition read_lines (s : text) : list text := map lower (readlines s).

(** MCNPInput.py 44-52, [__set_title]: the title and the lines left; [None] is an IndexError. *)
Definition set_title (l : list text) : option (text * list text) :=
  match l with
  | [] => None
  | x :: r =>
      if sub_in (T "message") x then
        match r with
        | y :: r' => Some (y, r')
        | [] => None
        end
      else Some (x, r)
  end.

(** MCNPInput.py 1308-1316: every line whose first character is c is removed. *)
Definition is_comment_line (x : text) : bool :=
  match x with c :: _ => Ascii.eqb c "c" | [] => false end.
Definition drop_comment_lines (l : list text) : list text := filter (fun x => negb (is_comment_line x)) l.

(** MCNPInput.py 1081-1094, [__remove_inline_comment]. *)
Definition remove_inline_comment (x : text) : text :=
  if existsb (Ascii.eqb "$") x then slice_to x (find "$" x) else x.

(** MCNPInput.py 1129, 1178: the line begins with five blanks and is not blank. *)
Definition five : text := T "     ".
Definition begins_five (x : text) : bool := text_eqb (firstn 5 x) five.
Definition continues (x : text) : bool := begins_five x && negb (isspace x).

(** MCNPInput.py 1097-1139 and 1165-1190, [__get_cell_cards] and [__get_surface_cards], which differ only in the
    function [cut] that removes comments.  [cur] is the card being collected; the answer is the cards up to the
    first blank line and the lines after it; [None] is the IndexError at the end of the lines. *)
Fixpoint scan_block (cut : text -> text) (cur : option text) (l : list text) : option (list text * list text) :=
  match l with
  | [] => None
  | x :: r =>
      let y := cut x in
      match cur with
      | None => if isspace y then Some ([], r) else scan_block cut (Some y) r
      | Some card =>
          if continues y then scan_block cut (Some (card ++ y)) r
          else if isspace y then Some ([card], r)
          else match scan_block cut (Some y) r with
               | Some (cs, rest) => Some (card :: cs, rest)
               | None => None
               end
      end
  end.

(** MCNPInput.py 1097-1139. *)
Definition get_cell_cards (l : list text) : option (list text * list text) := scan_block remove_inline_comment None l.

(** MCNPInput.py 1165-1190. *)
Definition get_surface_cards (l : list text) : option (list text * list text) := scan_block strip_dollar_comments None l.

(** MCNPInput.py 101: the particle of an importance card.  [None] is an IndexError, or the TypeError of line 107 for a
    particle that is not known. *)
Definition importance_particle (x : text) : option particle :=
  match words x with
  | w :: _ => match split_on ":" w with _ :: p :: _ => mcnp_to_particle p | _ => None end
  | [] => None
  end.

(** Equality of particles (the keys of [importance_list], MCNPInput.py 113). *)
Definition particle_beq (a b : particle) : bool := text_eqb (particle_to_mcnp a) (particle_to_mcnp b).

(** [importance_list[p] = t] (MCNPInput.py 113) and [importance_list[p]]. *)
Fixpoint pset (p : particle) (t : text) (d : list (particle * text)) : list (particle * text) :=
  match d with
  | [] => [(p, t)]
  | (q, u) :: r => if particle_beq q p then (q, t) :: r else (q, u) :: pset p t r
  end.
Fixpoint pget (p : particle) (d : list (particle * text)) : option text :=
  match d with
  | [] => None
  | (q, u) :: r => if particle_beq q p then Some u else pget p r
  end.

(** MCNPInput.py 90-129, the loop of [__get_importances].  [cur] is the card being continued: its particle and the
    text so far, which [importance_list] holds only in [d] once the card is complete.  [None] is an exception; the end
    of the lines inside a card is the IndexError of line 116. *)
Fixpoint scan_importances (cur : option (particle * text)) (d : list (particle * text)) (l : list text)
  : option (list (particle * text)) :=
  match l with
  | [] => match cur with None => Some d | Some _ => None end
  | x :: r =>
      let fresh d' :=
        if sub_in (T "imp") x then
          match importance_particle x with
          | Some p => scan_importances (Some (p, rstrip (skipn 5 x))) d' r
          | None => None
          end
        else scan_importances None d' r in
      match cur with
      | None => fresh d
      | Some (p, t) =>
          if begins_five x then scan_importances (Some (p, t ++ rstrip x)) d r
          else fresh (pset p t d)
      end
  end.
Definition get_importances (l : list text) : option (list (particle * text)) := scan_importances None [] l.

(** MCNPInput.py 257: the pattern of a transform card. *)
Definition is_tr_line (x : text) : bool := text_eqb (firstn 2 x) (T "tr") || text_eqb (firstn 3 x) (T "*tr").

(** MCNPInput.py 250-270, [__get_transform_cards]: the texts of the transform cards; [None] is the IndexError of
    line 262 when the lines end inside a card. *)
Fixpoint scan_transforms (cur : option text) (l : list text) : option (list text) :=
  match l with
  | [] => match cur with None => Some [] | Some _ => None end
  | x :: r =>
      let fresh := scan_transforms (if is_tr_line x then Some x else None) r in
      match cur with
      | None => fresh
      | Some t =>
          if begins_five x then scan_transforms (Some (t ++ x)) r
          else match fresh with Some cs => Some (t :: cs) | None => None end
      end
  end.
Definition get_transform_cards (l : list text) : option (list text) := scan_transforms None l.

(** MCNPInput.py 59: the cards by their identifiers (a later card replaces an earlier one). *)
Fixpoint transform_list (cards : list text) (d : dict trans) : option (dict trans) :=
  match cards with
  | [] => Some d
  | t :: r => match read_trans_card t with Some (id, tr) => transform_list r (dset id tr d) | None => None end
  end.

(** MCNPInput.py 241: [re.match(" *m[0-9]/*", line)]. *)
Fixpoint is_material_line (x : text) : bool :=
  match x with
  | c :: r => if Ascii.eqb c blank then is_material_line r
              else Ascii.eqb c "m" && match r with d :: _ => is_digit d | [] => false end
  | [] => false
  end.

(** MCNPInput.py 187-192: the continuation lines with their comments cut. *)
Fixpoint continuation (l : list text) : text :=
  match l with
  | x :: r => if begins_five x then remove_inline_comment x ++ continuation r else []
  | [] => []
  end.

(** MCNPInput.py 165-197, [__get_material_card]: number and text of the card that begins with line [x]; [r] are the
    lines after it; [join_sp] is the join of line 174. *)
Definition material_card (x : text) (r : list text) : text * text :=
  match words x with
  | w :: ts => (replace_char "m" [] w, remove_inline_comment (join_sp ts ++ T " ") ++ continuation r)
  | [] => ([], [])
  end.

(** MCNPInput.py 217-247, [__get_material_cards]. *)
Fixpoint get_material_cards (l : list text) : list (text * text) :=
  match l with
  | [] => []
  | x :: r => if is_material_line x then material_card x r :: get_material_cards r else get_material_cards r
  end.

(** The parts of a file as [process] takes them apart (MCNPInput.py 1303-1345). *)
Record parts := mkParts { p_title : text; p_cells : list text; p_surfs : list text; p_imps : list (particle * text);
                          p_trans : list text; p_mats : list (text * text) }.
Definition split_file (s : text) : option parts :=
  match set_title (read_lines s) with
  | None => None
  | Some (title, l) =>
      match get_cell_cards (drop_comment_lines l) with
      | None => None
      | Some (cs, l1) =>
          match get_surface_cards l1 with
          | None => None
          | Some (ss, data) =>
              match get_importances data, get_transform_cards data with
              | Some imps, Some trs => Some (mkParts title cs ss imps trs (get_material_cards data))
              | _, _ => None
              end
          end
      end
  end.
