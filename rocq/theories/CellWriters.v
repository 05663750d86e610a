(** Models of the five cell writers. *)
From Verif Require Import PyStr Formatter PyInt RegionSpec CellModel.

(** The fields of a generic cell the writers print.  [w_univ], [w_fill],
    [w_offset], [w_rot]: [None] is the Python value 0.  Numbers are given by the
    text Python prints for them. *)
Record wcell := WCell {
  w_id : text;
  w_mat : Z;
  w_dens : text;
  w_items : list item;
  w_univ : option text;
  w_fill : option text;
  w_offset : option (list text);
  w_rot : option (list text);
  w_imp : text }.

(** [re.sub(" +", " ", s)] (MCNPCellCard.py 85, SerpentCellCard.py 61,
    SCONECellCard.py 73): every run of blanks becomes one. *)
Fixpoint collapse (s : text) : text :=
  match s with
  | [] => []
  | c :: r =>
      if Ascii.eqb c blank then
        match r with
        | d :: _ => if Ascii.eqb d blank then collapse r else c :: collapse r
        | [] => [c]
        end
      else c :: collapse r
  end.

(** MCNPCellCard.py 44-64, [mcnp_op_from_generic]. *)
Definition mcnp_op (i : item) : text :=
  match i with
  | Str s => if text_eqb s (T "(") then T " ( " else if text_eqb s (T ")") then T " ) " else s
  | Op NOT => T " #"
  | Op AND => T "  "
  | Op UNION => T " : "
  end.

Definition concat_sp (l : list text) : text := flat_map (fun t => t ++ T " ") l.

(** MCNPCellCard.py 88-110: keywords after the geometry.  Printing of the rotation
    through [float()] and [str()] is taken to give the texts in [w_rot]. *)
Definition mcnp_keywords (print_importances : bool) (c : wcell) : text :=
  match w_univ c with Some u => T " u=" ++ u | None => [] end ++
  match w_fill c with
  | Some f =>
      T " fill=" ++ f ++ T " " ++
      match w_offset c, w_rot c with
      | None, None => []
      | off, rot =>
          T "(" ++ match off with Some o => concat_sp (firstn 3 o) | None => T " 0 0 0 " end ++
          match rot with Some r => concat_sp (firstn 9 r) | None => [] end ++ T ")"
      end
  | None => []
  end ++
  (if print_importances then T " IMP:N=" ++ w_imp c else []).

(** MCNPCellCard.py 69-86: the card up to the geometry. *)
Definition mcnp_body (c : wcell) : text :=
  strip (collapse (w_id c ++ T " " ++ str_Z (w_mat c) ++ T " " ++
    (if (w_mat c =? 0)%Z then [] else w_dens c ++ T " ") ++
    flat_map mcnp_op (w_items c) ++ [newline])).

(** MCNPCellCard.py 68-113, [write_mcnp_cell]: the text handed to the file. *)
Definition mcnp_text (print_importances : bool) (c : wcell) : text :=
  mcnp_body c ++ mcnp_keywords print_importances c ++ [newline].
Definition write_mcnp_cell (fuel : nat) (print_importances : bool) (c : wcell) : option text :=
  mcnp_line_formatter fuel (mcnp_text print_importances c).

(** SerpentCellCard.py 11-31, [serpent_op_from_generic]. *)
Definition serpent_op (i : item) : text :=
  match i with
  | Str s => if text_eqb s (T "(") then T " ( " else if text_eqb s (T ")") then T " ) " else s
  | Op NOT => T " #"
  | Op AND => T " "
  | Op UNION => T ":"
  end.

(** SerpentCellCard.py 38: the universe as printed. *)
Definition univ_text (c : wcell) : text := match w_univ c with Some u => u | None => T "0" end.

(** SerpentCellCard.py 38-63, the cell line of [write_serpent_cell]. *)
Definition serpent_head (c : wcell) : text :=
  T "cell " ++ w_id c ++ T " " ++ univ_text c ++ T " " ++
  match w_fill c with
  | Some f => T " fill " ++ f ++ T " "
  | None => if (w_mat c =? 0)%Z then T "void " else str_Z (w_mat c) ++ T " "
  end.
Definition serpent_text (c : wcell) : text :=
  collapse (serpent_head c ++ T "( " ++ flat_map serpent_op (w_items c) ++ T " ) " ++ [newline]).
Definition write_serpent_cell (fuel : nat) (c : wcell) : option text :=
  mcnp_line_formatter fuel (serpent_text c).

(** SCONECellCard.py 11-31, [scone_op_from_generic]. *)
Definition scone_op (i : item) : text :=
  match i with
  | Str s => if text_eqb s (T "(") then T " < " else if text_eqb s (T ")") then T " > " else s
  | Op NOT => T " # "
  | Op AND => T " "
  | Op UNION => T " : "
  end.

(** SCONECellCard.py 46-75, [write_scone_cell].  The fill number is taken as the
    text of [int(cell_fill) + 1]. *)
Definition scone_head (c : wcell) : text :=
  w_id c ++ T " { type unionCell; id " ++ w_id c ++ T "; " ++
  match w_fill c with
  | Some f => T " filltype uni; universe " ++ f ++ T "; "
  | None => T " filltype mat; material " ++
            (if (w_mat c =? 0)%Z then T " void; " else T "m" ++ str_Z (w_mat c) ++ T "; ")
  end.
Definition scone_text (c : wcell) : text :=
  collapse (scone_head c ++ T "surfaces [ " ++ flat_map scone_op (w_items c) ++ T " ]; }" ++ [newline]).
Definition write_scone_cell (fuel : nat) (c : wcell) : option text :=
  mcnp_line_formatter fuel (scone_text c).

(** OpenMCCell.py 64-79, [openmc_op_from_generic]. *)
Definition openmc_op (i : item) : text :=
  match i with
  | Str s => s
  | Op NOT => T " ~ "
  | Op AND => T " "
  | Op UNION => T " | "
  end.

(** OpenMCCell.py 92-95: the region attribute of [get_openmc_cell_info]. *)
Definition openmc_region (l : list item) : text :=
  replace_char ")" (T " ) ") (replace_char "(" (T " ( ") (flat_map openmc_op l)).

(** FLUKACellCard.py 8-32, [fluka_op_from_generic]; [None] is the [ValueError] of
    [int()]. *)
Definition fluka_op (i : item) : option text :=
  match i with
  | Str s =>
      if text_eqb s (T "(") then Some (T " +( ")
      else if text_eqb s (T ")") then Some (T " ) ")
      else match py_int s with
           | None => None
           | Some z => if (z <? 0)%Z then Some (T " +S" ++ str_Z (Z.abs z))
                       else if (0 <? z)%Z then Some (T " -S" ++ str_Z z)
                       else Some s
           end
  | Op NOT => Some (T " -")
  | Op AND => Some (T "  ")
  | Op UNION => Some (T " | ")
  end.

Fixpoint fluka_ops (l : list item) : option text :=
  match l with
  | [] => Some []
  | i :: r => match fluka_op i, fluka_ops r with
              | Some a, Some b => Some (a ++ b)
              | _, _ => None
              end
  end.

(** [re.sub("  ", " ", s)] (FLUKACellCard.py 50): non-overlapping pairs of blanks
    become one blank. *)
Fixpoint halve (s : text) : text :=
  match s with
  | [] => []
  | c :: r =>
      match r with
      | d :: r' => if Ascii.eqb c blank && Ascii.eqb d blank then blank :: halve r'
                   else c :: halve r
      | [] => [c]
      end
  end.

(** [re.sub("\- \+", " -", s)] (FLUKACellCard.py 51): every minus, blank, plus
    becomes blank, minus. *)
Fixpoint fix_minus (s : text) : text :=
  match s with
  | [] => []
  | c :: r =>
      match r with
      | d :: r' =>
          match r' with
          | e :: r'' => if Ascii.eqb c "-" && Ascii.eqb d blank && Ascii.eqb e "+"
                        then blank :: "-"%char :: fix_minus r''
                        else c :: fix_minus r
          | [] => c :: fix_minus r
          end
      | [] => [c]
      end
  end.

(** FLUKACellCard.py 36-53, [write_fluka_cell]. *)
Definition write_fluka_cell (c : wcell) : option text :=
  match fluka_ops (w_items c) with
  | None => None
  | Some t => Some (fix_minus (halve (T " C" ++ w_id c ++ T " 5 " ++ T "( " ++ t ++ T " ) " ++ [newline])))
  end.
