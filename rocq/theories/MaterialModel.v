(** Materials: reading, normalising, exploding elements and the reorganisation by density
    (csg2csg/MaterialCard.py, MaterialData.py, MCNPMaterialCard.py, SerpentMaterialCard.py,
    SCONEMaterialCard.py, MCNPInput.py). Fractions and densities are rational numbers; rounding of
    floats is not modelled. An exception is [None]. *)
From Coq Require Import QArith Qabs.
From Verif Require Import PyStr FortranNumber PyInt PyDict NuclideData.
Open Scope nat_scope.
Open Scope list_scope.

(** MaterialCard.py 97-108: the fields of a material. [material_colour] is 0 when not set (107). *)
Record material := mkM { m_num : text; m_name : text; m_dens : Q; m_comp : dict Q; m_xs : dict text;
                         m_colour : option string }.

(** Assignments to one field. *)
Definition with_comp (m : material) (c : dict Q) : material :=
  mkM (m_num m) (m_name m) (m_dens m) c (m_xs m) (m_colour m).
Definition with_dens (m : material) (d : Q) : material :=
  mkM (m_num m) (m_name m) d (m_comp m) (m_xs m) (m_colour m).

(** MaterialCard.py 81-84 [get_material_colour]. *)
Definition get_material_colour (idx : nat) : string := nth (idx mod 63) colours EmptyString.

(** MCNPMaterialCard.py 63-69 / SerpentMaterialCard.py 52-57: the nuclide and the library of a token. *)
Definition nuclide_of (t : text) : text := nth 0 (split_on "."%char t) [].
Definition xsid_of (t : text) : text := nth 1 (split_on "."%char t) [].

(** MCNPMaterialCard.py 60-73: pairs of tokens are consumed; a repeated nuclide is added to. *)
Fixpoint mcnp_pairs (ts : list text) (c : dict Q) (x : dict text) : option (dict Q * dict text) :=
  match ts with
  | [] => Some (c, x)
  | [_] => None
  | a :: b :: r =>
      match get_fortran_formatted_number b with
      | None => None
      | Some f =>
          let n := nuclide_of a in
          let c' := match dget n c with Some g => dset n (g + f)%Q c | None => dset n f c end in
          mcnp_pairs r c' (dset n (xsid_of a) x)
      end
  end.

(** MCNPMaterialCard.py 35-73 [__process_string]: newlines are removed, tokens with "=" are ignored. *)
Definition mcnp_composition (s : text) : option (dict Q * dict text) :=
  mcnp_pairs (filter (fun t => negb (existsb (Ascii.eqb "="%char) t)) (words (replace_char newline [] s))) [] [].

(** MCNPMaterialCard.py 27-32: a material read from an MCNP card; its density is 0 (MaterialCard.py 105). *)
Definition read_mcnp_material (num s : text) : option material :=
  match mcnp_composition s with
  | Some (c, x) => Some (mkM num ("M"%char :: num) 0%Q c x None)
  | None => None
  end.

(** SerpentMaterialCard.py 50-64: a repeated nuclide is overwritten (62). *)
Fixpoint serpent_pairs (ts : list text) (c : dict Q) (x : dict text) : option (dict Q * dict text) :=
  match ts with
  | [] => Some (c, x)
  | [_] => None
  | a :: b :: r =>
      match get_fortran_formatted_number b with
      | None => None
      | Some f => let n := nuclide_of a in serpent_pairs r (dset n f c) (dset n (xsid_of a) x)
      end
  end.

(** SerpentMaterialCard.py 38-64 [__process_string]. *)
Definition serpent_composition (s : text) : option (dict Q * dict text) :=
  serpent_pairs (words (replace_char newline [blank] s)) [] [].

(** MaterialCard.py 122-126: the sum of the fractions. *)
Definition sum_q (l : list Q) : Q := fold_left Qplus l 0%Q.

(** MaterialCard.py 121-136 [normalise]; a zero sum is a ZeroDivisionError. *)
Definition normalise (c : dict Q) : option (dict Q) :=
  let s := Qabs (sum_q (map snd c)) in
  if (Qeq_bool s 0 && negb (Nat.eqb (length c) 0))%bool then None
  else Some (map (fun e => (fst e, (snd e / s)%Q)) c).

(** MaterialData.py 3662-3665 [get_aa] (of a positive zaid). *)
Definition get_aa (z : Z) : Z := (z - 1000 * (z / 1000))%Z.

(** MaterialData.py 3675-3676: the window in which the keys of an element are looked for. *)
Definition in_element (element : Z) (key : Z) : bool :=
  let nucid := (element * 10000)%Z in ((0 <? key - nucid) && (100 * (key - nucid) <? nucid))%Z%bool.

(** MaterialData.py 3669-3679 [get_nucs]; the abundance, which the caller looks up under the same key
    (MaterialCard.py 155, 163), is returned with each zaid. *)
Definition get_nucs (element : Z) : list (Z * Q) :=
  map (fun e => (fst e / 10000, fst (snd e)))%Z (filter (fun e => in_element element (fst e)) nuclide_table).

(** MaterialData.py 3682-3693 [atomic_mass]. *)
Definition atomic_mass (element : Z) : Q :=
  sum_q (map (fun e => fst (snd e) / 100 * snd (snd e))%Q
             (filter (fun e => in_element element (fst e)) nuclide_table)).

(** MaterialCard.py 149-165: the fraction of one isotope of an element of fraction [f]. *)
Definition iso_fraction (el : Z) (f : Q) (iso : Z) (abund : Q) : Q :=
  if negb (Qle_bool 0 f) then (f * abund / 100 * atomic_mass el / inject_Z (get_aa iso))%Q
  else (f * abund / 100)%Q.

(** MaterialCard.py 141-165: the keys to remove and the new nuclides; [int(nuc)] may fail. *)
Fixpoint explode_scan (c : dict Q) (rm : list text) (new : dict Q) : option (list text * dict Q) :=
  match c with
  | [] => Some (rm, new)
  | (k, f) :: r =>
      match py_int k with
      | None => None
      | Some z =>
          if (z mod 1000 =? 0)%Z
          then explode_scan r (rm ++ [k])
                 (fold_left (fun d e => dset (str_Z (fst e)) (iso_fraction z f (fst e) (snd e)) d) (get_nucs z) new)
          else explode_scan r rm new
      end
  end.

(** MaterialCard.py 140-172 [explode_elements]. *)
Definition explode_elements (c : dict Q) (x : dict text) : option (dict Q * dict text) :=
  match explode_scan c [] [] with
  | None => None
  | Some (rm, new) =>
      Some (fold_left (fun d e => dset (fst e) (snd e) d) new (fold_left (fun d k => ddel k d) rm c),
            fold_left (fun d e => dset (fst e) [] d) new x)
  end.

(** MCNPInput.py 377-381: [normalise] and [explode_elements] of one material. *)
Definition finish_material (m : material) : option material :=
  match normalise (m_comp m) with
  | None => None
  | Some c =>
      match explode_elements c (m_xs m) with
      | Some (c', x') => Some (mkM (m_num m) (m_name m) (m_dens m) c' x' (m_colour m))
      | None => None
      end
  end.

(** MCNPInput.py 306-313 [__next_free_int]: the first number from 1 on that is no key. The loop stops
    after at most one step per key; [fuel] is the number of keys plus one (see [next_free_fresh]). *)
Fixpoint free_from (fuel : nat) (idx : Z) (ks : list text) : option text :=
  match fuel with
  | O => None
  | S n => if existsb (text_eqb (str_Z idx)) ks then free_from n (idx + 1) ks else Some (str_Z idx)
  end.
Definition next_free_int (ks : list text) : option text := free_from (S (length ks)) 1 ks.

(** CellCard.py 28-29, as the reorganisation sees a cell: the material number is an [int] read from
    the card, or the [str] that MCNPInput.py 372 stores; the two are never equal in python. *)
Inductive matref := MInt (z : Z) | MStr (t : text).
Record mcell := mkC { k_mat : matref; k_dens : Q }.

(** [str(number)] (MCNPInput.py 361, and the lookups of the writers). *)
Definition ref_key (r : matref) : text := match r with MInt z => str_Z z | MStr t => t end.

(** MCNPInput.py 370: [cell.cell_material_number == mat]. *)
Definition is_mat (mat : Z) (r : matref) : bool := match r with MInt z => (z =? mat)%Z | MStr _ => false end.

(** MCNPInput.py 321-335: the densities of every material number, in order of appearance. (Numbers are
    ints here: this runs once, on the numbers read.) *)
Fixpoint add_density (mat : Z) (d : Q) (l : list (Z * list Q)) : list (Z * list Q) :=
  match l with
  | [] => [(mat, [d])]
  | (m, ds) :: r =>
      if (m =? mat)%Z then (m, if existsb (Qeq_bool d) ds then ds else ds ++ [d]) :: r
      else (m, ds) :: add_density mat d r
  end.
Definition densities (cells : list mcell) : list (Z * list Q) :=
  fold_left (fun l c => match k_mat c with MInt z => add_density z (k_dens c) l | MStr _ => l end) cells [].

(** MCNPInput.py 346: [sorted(material_density.keys())], with the densities. *)
Fixpoint insert_mat (e : Z * list Q) (l : list (Z * list Q)) : list (Z * list Q) :=
  match l with
  | [] => [e]
  | e' :: r => if (fst e <=? fst e')%Z then e :: l else e' :: insert_mat e r
  end.
Definition sort_mats (l : list (Z * list Q)) : list (Z * list Q) := fold_right insert_mat [] l.

(** MCNPInput.py 350, 375: the density of a material of the list; KeyError if there is none. *)
Definition set_density (mat : Z) (d : Q) (ms : dict material) : option (dict material) :=
  match dget (str_Z mat) ms with
  | Some m => Some (dset (str_Z mat) (with_dens m d) ms)
  | None => None
  end.

(** MCNPInput.py 364-372: the cells of this material and density get the new number. *)
Definition renumber (mat : Z) (d : Q) (new : text) (c : mcell) : mcell :=
  if (is_mat mat (k_mat c) && Qeq_bool (k_dens c) d)%bool then mkC (MStr new) (k_dens c) else c.

(** MCNPInput.py 353-372: one more material for each further density. [show] is [str] of a float. *)
Fixpoint copies (show : Q -> text) (mat : Z) (ds : list Q) (ms : dict material) (cs : list mcell)
  : option (dict material * list mcell) :=
  match ds with
  | [] => Some (ms, cs)
  | d :: r =>
      match dget (str_Z mat) ms, next_free_int (keys ms) with
      | Some m, Some n =>
          let name := T "Copy of Material " ++ str_Z mat ++ T " with density " ++ show d in
          copies show mat r (dset n (mkM n name d (m_comp m) (m_xs m) (m_colour m)) ms)
                 (map (renumber mat d n) cs)
      | _, _ => None
      end
  end.

(** MCNPInput.py 346-375: the loop over the material numbers. *)
Fixpoint split_materials (show : Q -> text) (l : list (Z * list Q)) (ms : dict material) (cs : list mcell)
  : option (dict material * list mcell) :=
  match l with
  | [] => Some (ms, cs)
  | (mat, []) :: r => None
  | (mat, d :: ds) :: r =>
      match set_density mat d ms with
      | Some ms1 =>
          match copies show mat ds ms1 cs with
          | Some (ms2, cs2) => split_materials show r ms2 cs2
          | None => None
          end
      | None => None
      end
  end.

(** MCNPInput.py 377-381: every material is normalised and exploded. *)
Fixpoint finish_all (ms : dict material) : option (dict material) :=
  match ms with
  | [] => Some []
  | (k, m) :: r =>
      match finish_material m, finish_all r with
      | Some m', Some r' => Some ((k, m') :: r')
      | _, _ => None
      end
  end.

(** MCNPInput.py 318-383 [__reorganise_materials]. *)
Definition reorganise_materials (show : Q -> text) (ms : dict material) (cs : list mcell)
  : option (dict material * list mcell) :=
  let l := filter (fun e => negb (fst e =? 0)%Z) (densities cs) in
  match l with
  | [] => Some (ms, cs)
  | _ =>
      match split_materials show (sort_mats l) ms cs with
      | Some (ms', cs') => match finish_all ms' with Some ms'' => Some (ms'', cs') | None => None end
      | None => None
      end
  end.

(** SCONEMaterialCard.py 14-30: the atom densities written for a material. *)
Fixpoint zaids (c : dict Q) : option (list Z) :=
  match c with
  | [] => Some []
  | (k, _) :: r => match py_int k, zaids r with Some z, Some l => Some (z :: l) | _, _ => None end
  end.
Definition scone_densities (dens : Q) (c : dict Q) : option (dict Q) :=
  if negb (Qle_bool dens 0) then Some (map (fun e => (fst e, (snd e * dens)%Q)) c)
  else
    match zaids c with
    | None => None
    | Some zs =>
        let molar := sum_q (map (fun p => snd (fst p) * inject_Z (snd p mod 1000))%Q (combine c zs)) in
        if Qeq_bool molar 0 then None
        else let adens := (- dens * (602214 # 1000000) / molar)%Q in
             Some (map (fun e => (fst e, (snd e * adens)%Q)) c)
    end.

(** MCNPInput.py 199-212, the end of [__get_material_card]: the material is made; it gets a colour if its
    density is positive; it is stored under its number. *)
Definition add_material (ms : dict material) (num s : text) : option (dict material) :=
  match read_mcnp_material num s with
  | None => None
  | Some m =>
      let m' := if negb (Qle_bool (m_dens m) 0)
                then mkM (m_num m) (m_name m) (m_dens m) (m_comp m) (m_xs m) (Some (get_material_colour (length ms))) else m in
      Some (dset (m_num m') m' ms)
  end.

(** MCNPInput.py 217-247: the cards of a deck, given as number and text, one after the other. *)
Fixpoint add_materials (ms : dict material) (cards : list (text * text)) : option (dict material) :=
  match cards with
  | [] => Some ms
  | (n, s) :: r => match add_material ms n s with Some ms' => add_materials ms' r | None => None end
  end.
