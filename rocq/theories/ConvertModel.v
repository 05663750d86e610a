(** The deck, the six writers that share it, and the loop over the formats asked for: csg2csg/__main__.py 74-134,
    Input.py 75-82 and the write methods of MCNPInput.py, SerpentInput.py, OpenMCInput.py, PhitsInput.py, FLUKAInput.py
    and SCONEInput.py.

    [from_input] (Input.py 75-82) copies references, so all writers work on the same lists, surfaces and materials. *)
From Coq Require Import Reals QArith.
From Verif Require Import PyStr PyInt Formatter CellModel CellWriters SurfModel SurfWriters FlattenModel PyDict MaterialModel
  MaterialWriters FlukaModel FlukaInput OpenMCPrune UniverseModel.
Open Scope nat_scope.
Open Scope list_scope.

(** A cell (CellCard.py 25-40); numbers as read, the density as Python prints it.  [None] is the Python value 0. *)
Record gcell := mkG {
  g_id : Z; g_mat : Z; g_dens : text; g_text : list text; g_items : list item;
  g_univ : option text; g_fill : option text; g_offset : option (list text); g_rot : option (list text); g_imp : Q }.

(** A deck (Input.py 12-40): the surfaces with their boxes (the attribute b_box), the cells, the materials and the
    universe cards. *)
Record deck := mkDeck {
  d_surfs : list (surface * list R); d_cells : list gcell; d_mats : dict material; d_univ : list ucard }.

(** What a writer leaves: a file, or the trees of geometry.xml and materials.xml. *)
Inductive output := File (t : text) | Xml (g : list element) (ms : list openmc_element).

Section Convert.
(** Python's [str] on floats and on importances and densities; the number of rounds the line formatter may take; the
    orders in which Python goes through a set of nuclides and a set of universe numbers. *)
Context (str : R -> text) (show : Q -> text) (fuel : nat)
        (nuclide_order : dict material -> list text) (universe_order : list ucell -> list Z).

(** The cell as the cell writers see it (CellWriters.v). *)
Definition to_w (c : gcell) : wcell :=
  WCell (str_Z (g_id c)) (g_mat c) (g_dens c) (g_items c) (g_univ c) (g_fill c) (g_offset c) (g_rot c) (show (g_imp c)).
(** The cell as the universe cards see it (UniverseModel.v). *)
Definition to_u (c : gcell) : ucell := mkUC (g_id c) (g_text c) (g_univ c) (g_fill c) (g_offset c) (g_rot c).

(** The texts of all elements of a list; [None] is an exception or a formatter still running. *)
Definition texts {A} (w : A -> option text) (l : list A) : option text := option_map (@concat ascii) (mapM w l).

(** A text after another. *)
Definition seq (a b : option text) : option text :=
  match a, b with Some x, Some y => Some (x ++ y) | _, _ => None end.
Definition line (s : string) : option text := Some (T s ++ [newline]).
Fixpoint seqs (l : list (option text)) : option text := match l with [] => Some [] | a :: r => seq a (seqs r) end.

(** MCNPSurfaceCard.py 213-254, [write_mcnp_surface] with bounded rounds. *)
Definition mcnp_surface (s : surface * list R) : option text :=
  match mcnp_surface_text str (fst s) with Some t => mcnp_line_formatter fuel t | None => None end.

(** MCNPInput.py 1383-1412: [__write_mcnp_cells], [__write_mcnp_surfaces], [__write_mcnp_materials], [write_mcnp]. *)
Definition mcnp_file (d : deck) : option text :=
  seqs [line "C cell definitions"; texts (fun c => write_mcnp_cell fuel true (to_w c)) (d_cells d); line "";
        line "C surface definitions"; texts mcnp_surface (d_surfs d); line "";
        write_mcnp_materials show (d_mats d)].

(** SerpentCellCard.py 67-90: the line for the transformation of a filled cell.  The numbers of the rotation are taken
    to be printed as they are in the list. *)
Definition serpent_trans (c : gcell) : text :=
  match g_fill c, g_offset c, g_rot c with
  | None, _, _ => []
  | Some _, None, None => []
  | Some _, o, r =>
      T "trans f " ++ str_Z (g_id c) ++ T " " ++
      match o with Some o => concat_sp (firstn 3 o) | None => T " 0 0 0 " end ++
      match r with Some r => concat_sp (firstn 9 r) | None => T "1 0 0 0 1 0 0 0 1 " end ++ T "1 " ++ [newline]
  end.
(** SerpentInput.py 104-132, [write_serpent]. *)
Definition serpent_file (d : deck) : option text :=
  seqs [line "% --- surface definitions --- %"; texts (fun s => write_serpent_surface str (fst s)) (d_surfs d);
        line "% --- cell definitions --- %"; texts (fun c => seq (write_serpent_cell fuel (to_w c)) (Some (serpent_trans c))) (d_cells d);
        Some (write_serpent_materials show (d_mats d))].

(** PhitsInput.py 43-54, [__write_phits_importances]. *)
Definition phits_importance (c : gcell) : text := T "    " ++ str_Z (g_id c) ++ T "        " ++ show (g_imp c) ++ [newline].
(** PhitsInput.py 17-79, [write_phits]. *)
Definition phits_file (d : deck) : option text :=
  seqs [line "[ T I T L E ]"; line "This PHITS file was produced automatically by csg2csg "; line "";
        line "[ P A R A M E T E R S ]"; line "icntl = 11"; line "maxbch = 10"; line "maxcas = 1000000"; line "";
        line "[ S U R F A C E ]"; texts mcnp_surface (d_surfs d); line "";
        line "[ C E L L ]"; texts (fun c => write_mcnp_cell fuel false (to_w c)) (d_cells d); line "";
        line "[ I M P O R T A N C E ]"; line "   reg       imp   "; Some (flat_map phits_importance (d_cells d)); line "";
        line "[ M A T E R I A L ]"; write_phits_materials show (d_mats d); line ""].

(** OpenMCSurface.py 80-89, [write_openmc_surface]. *)
Definition openmc_surface (s : surface) : option element :=
  match openmc_surface_info str s, openmc_boundary (s_bc s) with
  | Some (t, c), Some b =>
      Some (mkX (T "surface") [(T "id", str_Z (s_id s)); (T "type", t); (T "coeffs", c); (T "boundary", b)])
  | _, _ => None
  end.
(** OpenMCInput.py 47-59 and 103-120, [write_openmc].  The trees; the characters of the files are in XmlModel. *)
Definition openmc_trees (d : deck) : option (list element * list openmc_element) :=
  match mapM (fun s => openmc_surface (fst s)) (d_surfs d), mapM (fun e => write_openmc_material show (snd e)) (d_mats d) with
  | Some ss, Some ms =>
      match prune (ss ++ map (fun c => openmc_cell (to_w c)) (d_cells d)) with Pruned g => Some (g, ms) | _ => None end
  | _, _ => None
  end.

(** SCONECellCard.py 52: [str(int(cell_fill) + 1)]; [None] is a ValueError. *)
Definition scone_cell (c : gcell) : option text :=
  match g_fill c with
  | None => write_scone_cell fuel (to_w c)
  | Some f =>
      match py_int f with
      | Some n => write_scone_cell fuel (to_w (mkG (g_id c) (g_mat c) (g_dens c) (g_text c) (g_items c) (g_univ c)
                                                   (Some (str_Z (n + 1))) (g_offset c) (g_rot c) (g_imp c)))
      | None => None
      end
  end.
(** SCONEInput.py 21-102, [write_scone]: the file and the universe cards afterwards. *)
Definition scone_file (d : deck) : option (text * list ucard) :=
  match create_universes (universe_order (map to_u (d_cells d))) (map to_u (d_cells d)) (d_univ d) with
  | None => None
  | Some us =>
      match seqs [line "geometry { "; line "type geometryStd; "; line "boundary (0 0 0 0 0 0); "; line "graph {type shrunk;} ";
                  line "! --- surface definitions --- !"; line "surfaces { "; texts (fun s => write_scone_surface str (fst s)) (d_surfs d); line "} ";
                  line "! --- cell definitions --- !"; line "cells { "; texts scone_cell (d_cells d); line "} ";
                  line "! --- universe definitions --- !"; line "universes { "; texts (write_scone_universe fuel) us; line "} ";
                  line "} "; line "nuclearData { "; line "handles { ";
                  line "ce {type aceNeutronDatabase; aceLibrary $SCONE_ACE; ures 0;} "; line "} ";
                  line "! --- material definitions --- !"; line "materials { "; texts (fun e => write_scone_material (snd e)) (d_mats d); line "} ";
                  line "} "] with
      | Some t => Some (t, us)
      | None => None
      end
  end.

(** FLUKAInput.py 233-237, [__write_ruler]. *)
Definition ruler : option text := line "*...+....1....+....2....+....3....+....4....+....5....+....6....+....7....+....8".
(** FLUKAInput.py 249-259, [__write_fluka_surfaces]: the lines and the surfaces afterwards. *)
Fixpoint fluka_surfaces (l : list (surface * list R)) : option (text * list (surface * list R)) :=
  match l with
  | [] => Some ([], [])
  | (s, b) :: r =>
      match write_fluka_surface str b s, fluka_surfaces r with
      | Some (t, s'), Some (u, r') => Some (t ++ u, (s', b) :: r')
      | _, _ => None
      end
  end.
(** FLUKAInput.py 382-399, [write_fluka]: the file and the deck afterwards. *)
Definition fluka_file (d : deck) : option (text * deck) :=
  match fluka_surfaces (d_surfs d), write_fluka_materials show fuel (nuclide_order (d_mats d)) (d_mats d) with
  | Some (ss, surfs'), Some (ms, mats') =>
      match seqs [ruler; line "TITLE"; line " input deck automatically created by csg2csg"; ruler;
                  line "* --- surface definitions --- *"; ruler;
                  line "GEOBEGIN                                                              COMBNAME"; line "    0    0"; Some ss; line "END"; ruler;
                  line "* --- cell definitions --- *"; texts (fun c => write_fluka_cell (to_w c)) (d_cells d); line "END"; line "GEOEND"; ruler;
                  Some (concat (write_fluka_importances (map (fun c => (g_id c, g_imp c)) (d_cells d)))); ruler; ruler;
                  Some (concat (write_fluka_assignmats (map (fun c => (g_id c, g_mat c, g_imp c)) (d_cells d))));
                  line "* --- material definitions --- *"; ruler; Some (concat ms); ruler; line "STOP"] with
      | Some t => Some (t, mkDeck surfs' (d_cells d) mats' (d_univ d))
      | None => None
      end
  | _, _ => None
  end.

(** __main__.py 74-77: the formats. *)
Inductive code := MCNP | SERPENT | OPENMC | PHITS | FLUKA | SCONE.
Definition all_codes : list code := [MCNP; SERPENT; OPENMC; PHITS; FLUKA; SCONE].

(** __main__.py 99-134: one format; the output and the deck afterwards.  [None]: an exception, or the formatter still running. *)
Definition write_code (c : code) (d : deck) : option (output * deck) :=
  match c with
  | MCNP => option_map (fun t => (File t, d)) (mcnp_file d)
  | SERPENT => option_map (fun t => (File t, d)) (serpent_file d)
  | OPENMC => option_map (fun t => (Xml (fst t) (snd t), d)) (openmc_trees d)
  | PHITS => option_map (fun t => (File t, d)) (phits_file d)
  | FLUKA => option_map (fun t => (File (fst t), snd t)) (fluka_file d)
  | SCONE => option_map (fun t => (File (fst t), mkDeck (d_surfs d) (d_cells d) (d_mats d) (snd t))) (scone_file d)
  end.

(** __main__.py 98-134: the loop; the outputs written, and the deck afterwards unless an exception ended the program. *)
Fixpoint run (cs : list code) (d : deck) : list (code * output) * option deck :=
  match cs with
  | [] => ([], Some d)
  | c :: r =>
      match write_code c d with
      | Some (o, d') => let (os, e) := run r d' in ((c, o) :: os, e)
      | None => ([], None)
      end
  end.
End Convert.
