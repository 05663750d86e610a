(** From an MCNP file to the deck in memory that the writers are given: the whole of [MCNPInput.process],
    csg2csg/MCNPInput.py 1303-1378. *)
From Coq Require Import QArith Reals.
From Verif Require Import PyStr PyInt PyDict SurfModel CellModel FlattenModel NotsModel NamesModel BoundaryModel MaterialModel
  KeywordModel DeckScan FileModel ProcessModel ConvertModel.
Open Scope nat_scope.
Open Scope list_scope.

(** ** The transformation of a universe *)

(** A number of the transformation of a filled cell: a text of the cell card, a cosine (MCNPCellCard.py 363), or a number
    of a transform card (MCNPCellCard.py 371-372). *)
Inductive unum := UText (t : text) | UCos (q : Q) | UNum (r : R).

(** The fields cell_universe_offset and cell_universe_rotation (CellCard.py 34-35); [None] is the Python value 0. *)
Record placing := mkP { p_offset : option (list unum); p_rot : option (list unum) }.

(** The fields as the cell card has set them (MCNPCellCard.py 337-367). *)
Definition of_rotval (v : rotval) : unum := match v with RText t => UText t | RCos q => UCos q end.
Definition card_placing (k : keywords) : placing :=
  mkP (option_map (fun '(a, b, c) => [UText a; UText b; UText c]) (k_offset k)) (option_map (map of_rotval) (k_rot k)).

(** MCNPCellCard.py 370-374, [apply_universe_transform]. *)
Definition three (v : R * R * R) : list unum := let '(x, y, z) := v in [UNum x; UNum y; UNum z].
Definition apply_universe_transform (t : trans) : placing :=
  mkP (Some (three (t_shift t))) (Some (three (t_v1 t) ++ three (t_v2 t) ++ three (t_v3 t))).

(** MCNPInput.py 294-303, [__apply_universe_transformations], for one cell; [None] is the KeyError of line 302. *)
Definition universe_placing (ts : dict trans) (k : keywords) : option placing :=
  if text_eqb (k_trid k) (T "0") then Some (card_placing k) else option_map apply_universe_transform (dget (k_trid k) ts).

Section Main.
(** Python's [str] on floats, on densities, and on the cosine of an angle in degrees (MCNPCellCard.py 363). *)
Context (str : R -> text) (show : Q -> text).

(** A number of a transformation as the writers print it (MCNPCellCard.py 98, OpenMCCell.py 126, SerpentCellCard.py 76). *)
Definition print_unum (u : unum) : text :=
  match u with UText t => t | UCos q => str (cos (Q2R q / 180 * PI)) | UNum r => str r end.

(** The number of a material; a renumbered material is the text of a number (MCNPInput.py 306-316), which the writers
    only print or compare with 0. *)
Definition mat_number (m : matref) : Z := match m with MInt z => z | MStr t => match py_int t with Some z => z | None => 0%Z end end.

(** A cell in memory, from its description and importance, its keywords, its transformation and its material. *)
Definition gcell_of (x : icell) (k : keywords) (p : placing) (m : mcell) : gcell :=
  mkG (c_id (fst x)) (mat_number (k_mat m)) (show (k_dens m)) (c_text (fst x)) (c_items (fst x)) (k_univ k) (k_fill k)
      (option_map (map print_unum) (p_offset p)) (option_map (map print_unum) (p_rot p)) (snd x).

Fixpoint gcells (xs : list icell) (ks : list keywords) (ps : list placing) (ms : list mcell) : list gcell :=
  match xs, ks, ps, ms with
  | x :: xs, k :: ks, p :: ps, m :: ms => gcell_of x k p m :: gcells xs ks ps ms
  | _, _, _, _ => []
  end.

(** MCNPInput.py 98 and 1347-1378: what follows the reading of the cards.  The cells keep their positions in the list, so
    what the stages do to one field is put together at the end; the stages that can raise an exception do not depend on one
    another, and a loop that does not end comes before them (MCNPInput.py 1348). *)
Definition in_memory (fuel : nat) (quick : bool) (p : contents) : outcome ConvertModel.deck :=
  match process_importances (f_imps p) with
  | None => Raised
  | Some imps =>
      match process fuel (mkIn (f_surfs p) (map (fun x => (fst x, k_imp (snd x))) (f_cells p)) (fun id => dget id (f_trans p)) imps quick) with
      | Raised => Raised
      | Running => Running
      | Done o =>
          match mapM (universe_placing (f_trans p)) (map snd (f_cells p)),
                reorganise_materials show (f_mats p) (map (fun x => mkC (MInt (c_mat (fst x))) (c_dens (fst x))) (f_cells p)) with
          | Some ps, Some (ms, cs) =>
              Done (ConvertModel.mkDeck (map (fun s => (s, cone_box s (o_bounds o))) (o_surfs o))
                      (gcells (o_cells o) (map snd (f_cells p)) ps cs) ms [])
          | _, _ => Raised
          end
      end
  end.

(** MCNPInput.py 1303-1378 on the characters of a file (Input.py 46-54). *)
Definition load (fuel : nat) (quick : bool) (s : text) : outcome ConvertModel.deck :=
  match read_file fuel s with None => Raised | Some p => in_memory fuel quick p end.

(** __main__.py 74-134 for an MCNP file: the outputs in the order of the formats asked for, and the deck afterwards unless a
    writer raised an exception; an exception or an endless loop before writing is the outcome. *)
Definition program (fuel : nat) (nuclide_order : dict material -> list text) (universe_order : list UniverseModel.ucell -> list Z)
    (quick : bool) (cs : list code) (s : text) : outcome (list (code * ConvertModel.output) * option ConvertModel.deck) :=
  match load fuel quick s with
  | Done d => Done (run str show fuel nuclide_order universe_order cs d)
  | Raised => Raised
  | Running => Running
  end.
End Main.
