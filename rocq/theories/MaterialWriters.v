(** Writing materials (csg2csg/MCNPMaterialCard.py 9-22, MCNPInput.py 1397-1403, PhitsInput.py, SerpentMaterialCard.py 7-22,
    SerpentInput.py 128-131, OpenMCMaterial.py 145-176, SCONEMaterialCard.py 7-38) and reading those of a Serpent file
    (SerpentInput.py 20-99, SerpentMaterialCard.py 30-67).

    [show] is Python's [str] on a float. *)
From Coq Require Import QArith Qabs.
From Verif Require Import PyStr FortranNumber PyInt PyDict CellModel FlattenModel NuclideData MaterialModel NamesModel PyFmtE DeckScan.
Open Scope nat_scope.
Open Scope list_scope.

Section Writers.
Context (show : Q -> text).

(** MCNPMaterialCard.py 17-21: the line of a nuclide; [None] is the KeyError of line 19. *)
Definition mcnp_nuclide (preserve : bool) (m : material) (e : text * Q) : option text :=
  match (if preserve then option_map (fun x => T "." ++ x) (dget (fst e) (m_xs m)) else Some []) with
  | Some x => Some (T "     " ++ fst e ++ x ++ T " " ++ show (snd e) ++ [newline])
  | None => None
  end.

(** MCNPMaterialCard.py 9-22, [write_mcnp_material]. *)
Definition write_mcnp_material (preserve comment : bool) (m : material) : option text :=
  match mapM (mcnp_nuclide preserve m) (m_comp m) with
  | Some ls => Some ((if comment then T "C Material " ++ m_name m ++ [newline] else []) ++ T "M" ++ m_num m ++ concat ls)
  | None => None
  end.

(** The order of Python's strings, [a <= b] (MCNPInput.py 1399). *)
Fixpoint text_leb (a b : text) : bool :=
  match a, b with
  | [], _ => true
  | _ :: _, [] => false
  | x :: a', y :: b' =>
      if Ascii.eqb x y then text_leb a' b' else (N_of_ascii x <? N_of_ascii y)%N
  end.

(** [sorted(material_list.keys())] (MCNPInput.py 1399). *)
Fixpoint insert_text (w : text) (l : list text) : list text :=
  match l with
  | [] => [w]
  | x :: r => if text_leb w x then w :: l else x :: insert_text w r
  end.
Definition sort_texts (l : list text) : list text := fold_right insert_text [] l.

(** MCNPInput.py 1397-1403, [__write_mcnp_materials]; the loop of PhitsInput.py writes the materials in the order of
    the dictionary, with library names and without comments. *)
Definition write_all (w : material -> option text) (l : list material) : option text :=
  option_map (@concat ascii) (mapM w l).
Definition sorted_materials (ms : dict material) : option (list material) :=
  mapM (fun k => dget k ms) (sort_texts (keys ms)).
Definition write_mcnp_materials (ms : dict material) : option text :=
  match sorted_materials ms with
  | Some l => option_map (fun t => T "C material definitions" ++ newline :: t) (write_all (write_mcnp_material false true) l)
  | None => None
  end.
Definition write_phits_materials (ms : dict material) : option text :=
  write_all (write_mcnp_material true false) (map snd ms).

(** SerpentMaterialCard.py 7-22, [write_serpent_material]. *)
Definition serpent_nuclide (e : text * Q) : text := fst e ++ T " " ++ fmt_e 6 (snd e) ++ T " " ++ [newline].
Definition write_serpent_material (m : material) : text :=
  T "% " ++ m_name m ++ newline :: T "mat " ++ m_num m ++ T " " ++ show (m_dens m) ++
  match m_colour m with Some c => T " rgb " ++ T c ++ [newline] | None => [newline] end ++
  concat (map serpent_nuclide (m_comp m)).

(** SerpentInput.py 127-131, [__write_serpent_materials]. *)
Definition write_serpent_materials (ms : dict material) : text :=
  T "% --- material definitions --- %" ++ newline :: concat (map (fun e => write_serpent_material (snd e)) ms).

(** OpenMCMaterial.py 145-176: the element of a material.  A nuclide has its name, whether its attribute is [wo] (mass)
    or [ao] (atoms), and the value. *)
Record openmc_element := mkOM { om_id : text; om_name : text; om_value : text; om_units : text;
                                om_nuclides : list (text * bool * text) }.
Definition openmc_nuclide (e : text * Q) : option (text * bool * text) :=
  match zaid_to_name (fst e) with
  | Some n => Some (n, negb (Qle_bool 0 (snd e)), show (Qabs (snd e)))
  | None => None
  end.
Definition write_openmc_material (m : material) : option openmc_element :=
  match mapM openmc_nuclide (m_comp m) with
  | Some l => Some (mkOM (m_num m) (m_name m) (show (Qabs (m_dens m)))
                         (if Qle_bool 0 (m_dens m) then T "atom/b-cm" else T "g/cc") l)
  | None => None
  end.
End Writers.

(** SCONEMaterialCard.py 7-38, [write_scone_material]; [None] is the ValueError of [int] or the ZeroDivisionError. *)
Definition scone_nuclide (e : text * Q) : text := fst e ++ T ".03 " ++ fmt_e 6 (snd e) ++ T "; " ++ [newline].
Definition write_scone_material (m : material) : option text :=
  match scone_densities (m_dens m) (m_comp m) with
  | Some c => Some (T "! " ++ m_name m ++ T " " ++ newline :: T "m" ++ m_num m ++ T " { " ++ newline :: T "composition { " ++
                    newline :: concat (map scone_nuclide c) ++ T "} " ++ newline ::
                    match m_colour m with Some c => T "rgb (" ++ T c ++ T "); " ++ [newline] | None => [] end ++
                    T "} " ++ [newline])
  | None => None
  end.

(* ------------------------------------------------------------------ *)
(** * Reading a Serpent file *)

(** SerpentInput.py 81-91: blank lines and comment lines are removed. *)
Definition serpent_skips (x : text) : bool :=
  isspace x || match strip x with c :: _ => Ascii.eqb c "%" | [] => false end.
Definition serpent_lines (l : list text) : list text := filter (fun x => negb (serpent_skips x)) l.

(** SerpentInput.py 69: [re.match(" *mat /*", line)]. *)
Fixpoint is_mat_line (x : text) : bool :=
  text_eqb (firstn 4 x) (T "mat ") || match x with c :: r => Ascii.eqb c blank && is_mat_line r | [] => false end.

(** SerpentInput.py 44-46. *)
Definition cut_percent (x : text) : text :=
  if existsb (Ascii.eqb "%") x then slice_to x (find "%" x) else x.

(** SerpentInput.py 33-49: the text of a material up to the next one; [None] is the IndexError of line 41 on a blank
    line. *)
Fixpoint serpent_text (l : list text) : option text :=
  match l with
  | [] => Some []
  | x :: r =>
      match words x with
      | [] => None
      | w :: _ => if text_eqb w (T "mat") then Some [] else option_map (app (cut_percent x)) (serpent_text r)
      end
  end.

(** SerpentInput.py 20-56 with SerpentMaterialCard.py 30-37: name, density and composition. *)
Definition serpent_card (x : text) (r : list text) : option (text * Q * dict Q) :=
  match words x, serpent_text r with
  | _ :: name :: d :: _, Some t =>
      match py_float d, serpent_composition (T " " ++ t) with
      | Some q, Some (c, _) => Some (name, q, c)
      | _, _ => None
      end
  | _, _ => None
  end.

(** SerpentInput.py 59-74, [__get_material_cards]: the materials in order (their numbers are 1, 2, ...). *)
Fixpoint serpent_cards (l : list text) : option (list (text * Q * dict Q)) :=
  match l with
  | [] => Some []
  | x :: r =>
      if is_mat_line x then
        match serpent_card x r, serpent_cards r with
        | Some m, Some ms => Some (m :: ms)
        | _, _ => None
        end
      else serpent_cards r
  end.

(** SerpentInput.py 78-104, [process], on the text of a file. *)
Definition read_serpent (s : text) : option (list (text * Q * dict Q)) := serpent_cards (serpent_lines (read_lines s)).
