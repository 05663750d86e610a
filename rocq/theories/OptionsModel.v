(** The command line: csg2csg/__main__.py 25-136, and the part of it that reads a Serpent file (csg2csg/SerpentInput.py
    78-101). *)
From Coq Require Import QArith Reals.
From Verif Require Import PyStr PyInt PyDict FortranNumber CellModel CellWriters FlattenModel SurfModel MaterialModel MaterialWriters NotsModel DeckScan ConvertModel MainModel.
From Verif Require UniverseModel.
Open Scope nat_scope.
Open Scope list_scope.

(** ** What is asked for *)

(** __main__.py 29-66: the values of the options that are looked at, and of [--preserve], which is not.  [--format] has six
    values (line 40); [None] for [--output] is its default, the text "all" (line 54), otherwise it is a list of words. *)
Record options := mkOpt { o_format : code; o_preserve : bool; o_output : option (list text); o_quick : bool }.

(** __main__.py 40 and 75: the names of the formats. *)
Definition code_name (c : code) : text :=
  match c with
  | MCNP => T "mcnp" | SERPENT => T "serpent" | OPENMC => T "openmc" | PHITS => T "phits" | FLUKA => T "fluka" | SCONE => T "scone"
  end.

(** __main__.py 74-77: [in] looks for a part of a text if the default is kept, and for a word of the list otherwise. *)
Definition asked_words (o : option (list text)) : list text :=
  match o with
  | None => if sub_in (T "all") (T "all") then map code_name all_codes else map (fun c => [c]) (T "all")
  | Some ws => if existsb (text_eqb (T "all")) ws then map code_name all_codes else ws
  end.

(** __main__.py 99-134: the formats written for one word, one [if] after the other. *)
Definition word_codes (w : text) : list code :=
  filter (fun c => sub_in (code_name c) w) [SERPENT; MCNP; OPENMC; PHITS; FLUKA; SCONE].
Definition asked (o : option (list text)) : list code := flat_map word_codes (asked_words o).

(** ** A Serpent file *)

(** SerpentInput.py 20-57 with SerpentMaterialCard.py 30-37, for the material of number [i] whose first line is [x]. *)
Definition serpent_material (i : Z) (x : text) (r : list text) : option material :=
  match words x, serpent_text r with
  | _ :: name :: d :: _, Some t =>
      match py_float d, serpent_composition (T " " ++ t) with
      | Some q, Some (c, l) => Some (mkM (str_Z i) name q c l None)
      | _, _ => None
      end
  | _, _ => None
  end.

(** SerpentInput.py 60-74, [__get_material_cards]: the materials under their numbers, which count up from 1.  (The numbers
    are integers in Python and texts here, which are printed alike; they are sorted as integers, [by_number].) *)
Fixpoint serpent_materials (i : Z) (l : list text) : option (dict material) :=
  match l with
  | [] => Some []
  | x :: r =>
      if is_mat_line x then
        match serpent_material i x r, serpent_materials (i + 1) r with
        | Some m, Some ms => Some ((m_num m, m) :: ms)
        | _, _ => None
        end
      else serpent_materials i r
  end.

(** SerpentInput.py 78-101, [process]: the deck in memory has what __init__ of Input.py 24-30 left there, and materials. *)
Definition serpent_deck (s : text) : option ConvertModel.deck :=
  option_map (fun ms => ConvertModel.mkDeck [] [] ms []) (serpent_materials 1 (serpent_lines (read_lines s))).

(** FLUKAMaterialCard.py 60 for a number that is not a text: [None] is the TypeError. *)
Definition writable (c : code) (d : ConvertModel.deck) : bool :=
  match c, d_mats d with FLUKA, _ :: _ => false | _, _ => true end.

(** [sorted(material_list.keys())] (MCNPInput.py 1399) for numbers that are integers. *)
Definition number_leb (a b : text) : bool := match py_int a, py_int b with Some x, Some y => (x <=? y)%Z | _, _ => true end.
Fixpoint insert_number (w : text) (l : list text) : list text :=
  match l with
  | [] => [w]
  | x :: r => if number_leb w x then w :: l else x :: insert_number w r
  end.
Definition sort_numbers (l : list text) : list text := fold_right insert_number [] l.
Definition by_number (ms : dict material) : option (list material) := mapM (fun k => dget k ms) (sort_numbers (keys ms)).

Section Options.
Context (str : R -> text) (show : Q -> text) (fuel : nat) (nuclide_order : dict material -> list text) (universe_order : list UniverseModel.ucell -> list Z).

(** MCNPInput.py 1383-1412, [write_mcnp], for a deck whose material numbers are integers. *)
Definition mcnp_by_number (d : ConvertModel.deck) : option text :=
  match by_number (d_mats d) with
  | Some l =>
      seqs [ConvertModel.line "C cell definitions"; texts (fun c => write_mcnp_cell fuel true (to_w show c)) (d_cells d); ConvertModel.line "";
            ConvertModel.line "C surface definitions"; texts (mcnp_surface str fuel) (d_surfs d); ConvertModel.line "";
            option_map (fun t => T "C material definitions" ++ newline :: t) (write_all (write_mcnp_material show false true) l)]
  | None => None
  end.

(** __main__.py 99-134 for one format and such a deck. *)
Definition write_numbered (c : code) (d : ConvertModel.deck) : option (ConvertModel.output * ConvertModel.deck) :=
  match c with
  | MCNP => option_map (fun t => (File t, d)) (mcnp_by_number d)
  | _ => write_code str show fuel nuclide_order universe_order c d
  end.

(** __main__.py 98-134 for the deck of a Serpent file, whose material numbers are integers. *)
Fixpoint run_serpent (cs : list code) (d : ConvertModel.deck) : list (code * ConvertModel.output) * option ConvertModel.deck :=
  match cs with
  | [] => ([], Some d)
  | c :: r =>
      if writable c d then
        match write_numbered c d with
        | Some (o, d') => let (os, e) := run_serpent r d' in ((c, o) :: os, e)
        | None => ([], None)
        end
      else ([], None)
  end.

(** __main__.py 68-134, on the characters of the file; [Raised]: NotImplementedError for the four formats that cannot be
    read (lines 90-97), or an exception while reading. *)
Definition main (o : options) (s : text) : outcome (list (code * ConvertModel.output) * option ConvertModel.deck) :=
  match o_format o with
  | MCNP => program str show fuel nuclide_order universe_order (o_quick o) (asked (o_output o)) s
  | SERPENT => match serpent_deck s with Some d => Done (run_serpent (asked (o_output o)) d) | None => Raised end
  | OPENMC | PHITS | FLUKA | SCONE => Raised
  end.
End Options.
