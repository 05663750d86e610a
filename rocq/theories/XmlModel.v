(** The characters of the files written for OpenMC: csg2csg/OpenMCInput.py 20-33 ([indent]) and 103-119 ([write_openmc]), with
    the part of Python's xml.etree.ElementTree that it uses ([ElementTree.write], which is not in the repository). *)
From Coq Require Import NArith.
From Verif Require Import PyStr PyInt PyDict OpenMCPrune MaterialWriters.
Open Scope nat_scope.
Open Scope list_scope.

(** An element of a tree (ElementTree's [Element]): tag, attributes in the order in which they were given, the text before
    its first child, its children, and the text after its end.  The empty text is also Python's [None]. *)
Inductive xml := Elem (tag : text) (attrs : list (text * text)) (txt : text) (kids : list xml) (tail : text).
Definition tail_of (e : xml) : text := match e with Elem _ _ _ _ t => t end.
Definition set_tail (t : text) (e : xml) : xml := match e with Elem n a x ks _ => Elem n a x ks t end.

(** OpenMCInput.py 21: [level * "  "]. *)
Fixpoint margin (level : nat) : text := match level with 0 => [] | S l => T "  " ++ margin l end.

(** OpenMCInput.py 23, 25, 29, 32: [not x or not x.strip()]. *)
Definition no_text (s : text) : bool := match strip s with [] => true | _ => false end.

(** OpenMCInput.py 27-30: in the loop the name [elem] is bound to the children one after the other, so that lines 29-30
    are about the last child. *)
Fixpoint close_last (i : text) (l : list xml) : list xml :=
  match l with
  | [] => []
  | [e] => [if no_text (tail_of e) then set_tail i e else e]
  | e :: r => e :: close_last i r
  end.

(** OpenMCInput.py 20-33. *)
Fixpoint indent (level : nat) (e : xml) : xml :=
  match e with
  | Elem n a x ks t =>
      let i := newline :: margin level in
      match ks with
      | [] => Elem n a x ks (if (0 <? level) && no_text t then i else t)
      | _ => Elem n a (if no_text x then i ++ T "  " else x) (close_last i (map (indent (S level)) ks)) (if no_text t then i else t)
      end
  end.

(** ElementTree's [_escape_cdata], then the encoding us-ascii of [ElementTree.write] (with xmlcharrefreplace).
    Simplification: characters up to 255. *)
Definition reference (c : ascii) : text := T "&#" ++ str_N (N_of_ascii c) ++ T ";".
Definition escape_cdata_char (c : ascii) : text :=
  if Ascii.eqb c "&" then T "&amp;" else if Ascii.eqb c "<" then T "&lt;" else if Ascii.eqb c ">" then T "&gt;"
  else if (127 <? N_of_ascii c)%N then reference c else [c].
(** ElementTree's [_escape_attrib], with the same encoding.  (One replacement after the other in Python, the one of & first,
    which is the same.) *)
Definition escape_attrib_char (c : ascii) : text :=
  if Ascii.eqb c "&" then T "&amp;" else if Ascii.eqb c "<" then T "&lt;" else if Ascii.eqb c ">" then T "&gt;"
  else if Ascii.eqb c """" then T "&quot;" else if Ascii.eqb c "013" then T "&#13;" else if Ascii.eqb c "010" then T "&#10;"
  else if Ascii.eqb c "009" then T "&#09;" else if (127 <? N_of_ascii c)%N then reference c else [c].

Definition attr_text (a : text * text) : text := T " " ++ fst a ++ T "=""" ++ flat_map escape_attrib_char (snd a) ++ T """".

(** ElementTree's [_serialize_xml] (with short_empty_elements, which is the default). *)
Fixpoint serialise (e : xml) : text :=
  match e with
  | Elem n a x ks t =>
      T "<" ++ n ++ flat_map attr_text a ++
      (match x, ks with
       | [], [] => T " />"
       | _, _ => T ">" ++ flat_map escape_cdata_char x ++ flat_map serialise ks ++ T "</" ++ n ++ T ">"
       end) ++ flat_map escape_cdata_char t
  end.

(** OpenMCSurface.py 80-90 and OpenMCCell.py 146-166: [ET.SubElement] for a surface or a cell. *)
Definition element_xml (x : element) : xml := Elem (x_tag x) (x_attrs x) [] [] [].

(** OpenMCMaterial.py 147-180, [write_openmc_material]: [ET.SubElement] for a material, its density and its nuclides. *)
Definition nuclide_xml (e : text * bool * text) : xml :=
  Elem (T "nuclide") [(T "name", fst (fst e)); (if snd (fst e) then T "wo" else T "ao", snd e)] [] [] [].
Definition material_xml (m : openmc_element) : xml :=
  Elem (T "material") [(T "id", om_id m); (T "name", om_name m)] []
    (Elem (T "density") [(T "value", om_value m); (T "units", om_units m)] [] [] [] :: map nuclide_xml (om_nuclides m)) [].

(** OpenMCInput.py 103-119, [write_openmc]: the characters of geometry.xml and materials.xml. *)
Definition geometry_text (g : list element) : text := serialise (indent 0 (Elem (T "geometry") [] [] (map element_xml g) [])).
Definition materials_text (ms : list openmc_element) : text := serialise (indent 0 (Elem (T "materials") [] [] (map material_xml ms) [])).
