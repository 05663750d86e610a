(** Materials, importances and assignments written for FLUKA: csg2csg/FLUKAInput.py and csg2csg/FLUKAMaterialCard.py. *)
From Coq Require Import QArith Qabs.
From Verif Require Import PyStr PyInt FortranNumber PyDict NuclideData MaterialModel SurfWriters PyFmtE.
Open Scope nat_scope.
Open Scope list_scope.

(** FLUKAInput.py 15-39, [fluka_special_mats]. *)
Definition fluka_special_mats : list text := map T [
   "HYDROGEN"; "HELIUM"; "BERYLLIU"; "CARBON"; "NITROGEN"; "OXYGEN"; "MAGNESIU"; "ALUMINUM"; "IRON";
   "COPPER"; "SILVER"; "SILICON"; "GOLD"; "MERCURY"; "LEAD"; "TANTALUM"; "SODIUM"; "ARGON"; "CALCIUM"; "TIN";
   "TUNGSTEN"; "TITANIUM"; "NICKEL"]%string.

(** FLUKAInput.py 41-65, [zz_to_remove]. *)
Definition zz_to_remove : list Z := [
   34000; 37000; 39000; 44000; 45000; 59000; 61000; 63000; 66000; 67000; 68000; 69000; 70000; 76000; 81000;
   84000; 85000; 86000; 87000; 88000; 89000; 91000; 93000]%Z.

(** FLUKAInput.py 121-222, [zz_to_fluka]. *)
Definition zz_table : list (Z * string) := [
   (1000, "HYDROGEN"%string); (1001, "HYDROG-1"%string); (1002, "DEUTERIU"%string); (1003, "TRITIUM"%string);
   (2000, "HELIUM"%string); (2003, "HELIUM-3"%string); (2004, "HELIUM-4"%string); (3000, "LITHIUM"%string);
   (3006, "LITHIU-6"%string); (3007, "LITHIU-7"%string); (4000, "BERYLLIU"%string); (5000, "BORON"%string);
   (5010, "BORON-10"%string); (5011, "BORON-11"%string); (6000, "CARBON"%string); (7000, "NITROGEN"%string);
   (8000, "OXYGEN"%string); (9000, "FLUORINE"%string); (10000, "NEON"%string); (11000, "SODIUM"%string);
   (12000, "MAGNESIU"%string); (13000, "ALUMINUM"%string); (14000, "SILICON"%string);
   (15000, "PHOSPHO"%string); (16000, "SULFUR"%string); (17000, "CHLORINE"%string); (18000, "ARGON"%string);
   (18040, "ARGON-40"%string); (19000, "POTASSIU"%string); (20000, "CALCIUM"%string);
   (21000, "SCANDIUM"%string); (22000, "TITANIUM"%string); (23000, "VANADIUM"%string);
   (24000, "CHROMIUM"%string); (25000, "MANGANES"%string); (26000, "IRON"%string); (27000, "COBALT"%string);
   (28000, "NICKEL"%string); (29000, "COPPER"%string); (30000, "ZINC"%string); (31000, "GALLIUM"%string);
   (32000, "GERMANIU"%string); (33000, "ARSENIC"%string); (35000, "BROMINE"%string);
   (36000, "KRYPTON"%string); (38000, "STRONTIU"%string); (38090, "90-SR"%string);
   (40000, "ZIRCONIU"%string); (41000, "NIOBIUM"%string); (42000, "MOLYBDEN"%string);
   (43000, "99-TC"%string); (46000, "PALLADIU"%string); (47000, "SILVER"%string); (48000, "CADMIUM"%string);
   (49000, "INDIUM"%string); (50000, "TIN"%string); (51000, "ANTIMONY"%string); (53000, "IODINE"%string);
   (53129, "129-I"%string); (54000, "XENON"%string); (54124, "124-XE"%string); (54126, "126-XE"%string);
   (54128, "128-XE"%string); (54129, "129-XE"%string); (54130, "130-XE"%string); (54131, "131-XE"%string);
   (54132, "132-XE"%string); (54134, "134-XE"%string); (54135, "135-XE"%string); (54136, "136-XE"%string);
   (55000, "CESIUM"%string); (55135, "135-CS"%string); (55137, "137-CS"%string); (56000, "BARIUM"%string);
   (57000, "LANTHANU"%string); (58000, "CERIUM"%string); (60000, "NEODYMIU"%string);
   (62000, "SAMARIUM"%string); (64000, "GADOLINI"%string); (65000, "TERBIUM"%string);
   (71000, "LUTETIUM"%string); (72000, "HAFNIUM"%string); (73000, "TANTALUM"%string);
   (74000, "TUNGSTEN"%string); (75000, "RHENIUM"%string); (77000, "IRIDIUM"%string);
   (78000, "PLATINUM"%string); (79000, "GOLD"%string); (80000, "MERCURY"%string); (82000, "LEAD"%string);
   (83000, "BISMUTH"%string); (90230, "230-TH"%string); (90232, "232-TH"%string); (92233, "233-U"%string);
   (92234, "234-U"%string); (92235, "235-U"%string); (92238, "238-U"%string); (94239, "239-PU"%string);
   (95241, "241-AM"%string); (98000, "CALIFORN"%string)]%Z.
Definition zz_to_fluka (z : Z) : option text :=
  option_map (fun e => T (snd e)) (List.find (fun e => (fst e =? z)%Z) zz_table).

(** * COMPOUND cards *)

(** FLUKAMaterialCard.py 63-67: ["{:> 9.3e}"] and ["{:>10}"]. *)
Definition component (e : text * Q) : text := pad_left 9 (fmt_e_sp 3 (snd e)) ++ pad_left 10 (fst e).
Definition comp_string (c : dict Q) : text := flat_map component c.

(** [s[-n:]] and [s[:-n]]. *)
Definition tail_n (n : nat) (s : text) : text := skipn (length s - n) s.
Definition front_n (n : nat) (s : text) : text := firstn (length s - n) s.

(** FLUKAMaterialCard.py 59-60, 82-86: one card. *)
Definition compound_card (num part : text) : text :=
  pad_right 10 (T "COMPOUND") ++ part ++ pad_left 10 (T "M" ++ num) ++ nl.

(** FLUKAMaterialCard.py 70-86: the loop; [None] means that it has not finished. *)
Fixpoint compound_loop (fuel : nat) (num s : text) : option (list text) :=
  match fuel with
  | O => None
  | S f =>
      match s with
      | [] => Some []
      | _ =>
          let (part, rest) :=
            if 60 <=? length s then (tail_n 60 s, front_n 60 s)
            else if length s / 20 =? 2 then (tail_n 40 s ++ pad_left 20 [], front_n 40 s)
            else if length s / 20 =? 1 then (tail_n 20 s ++ pad_left 40 [], front_n 20 s)
            else ([], s) in
          option_map (cons (compound_card num part)) (compound_loop f num rest)
      end
  end.

(** FLUKAMaterialCard.py 57-89, [write_fluka_compound]: the cards written. *)
Definition write_fluka_compound (fuel : nat) (m : material) : option (list text) :=
  compound_loop fuel (m_num m) (comp_string (m_comp m)).

(** * MATERIAL cards *)

(** FLUKAMaterialCard.py 15-33: [float(int(int(zz) / 1000))]; [None] is a ValueError.  Simplification: atomic numbers
    below 10^16, which Python prints with a final ".0". *)
Definition write_fluka_material_element (zz name : text) : option text :=
  match py_int zz with
  | Some z => Some (pad_right 10 (T "MATERIAL") ++ pad_left 10 (str_Z (Z.quot z 1000) ++ T ".0") ++ pad_left 10 [] ++
                    pad_left 10 (T "1.0") ++ pad_left 10 [] ++ pad_left 10 [] ++ pad_left 10 [] ++ pad_left 10 name ++ nl)
  | None => None
  end.

(** FLUKAMaterialCard.py 36-54; [show] is Python's [str] on floats. *)
Definition write_fluka_material (show : Q -> text) (m : material) : text :=
  pad_right 10 (T "MATERIAL") ++ pad_left 10 [] ++ pad_left 10 [] ++ pad_left 10 (show (Qabs (m_dens m))) ++
  pad_left 10 [] ++ pad_left 10 [] ++ pad_left 10 [] ++ pad_left 10 (T "M" ++ m_num m) ++ nl.

(** * Collapsing nuclides to FLUKA names *)

(** FLUKAInput.py 337-341: the name of a nuclide; [Some None] if it is removed, [None] is a KeyError or ValueError. *)
Definition collapse (nuc : text) : option (option text) :=
  match py_int nuc with
  | None => None
  | Some z =>
      match zz_to_fluka z with
      | Some n => Some (Some n)
      | None =>
          let el := (Z.quot z 1000 * 1000)%Z in
          if existsb (Z.eqb el) zz_to_remove then Some None
          else match zz_to_fluka el with Some n => Some (Some n) | None => None end
      end
  end.

(** FLUKAInput.py 329-332: the nuclides of all materials; the set is enumerated in an arbitrary order. *)
Definition is_nuclide_set (ms : dict material) (order : list text) : Prop :=
  NoDup order /\ forall n, In n order <-> exists k m, In (k, m) ms /\ In n (keys (m_comp m)).

(** FLUKAInput.py 334-341: [collapsed_map]. *)
Fixpoint collapsed_map (order : list text) : option (dict text) :=
  match order with
  | [] => Some []
  | n :: r =>
      match collapse n, collapsed_map r with
      | Some (Some f), Some d => Some ((n, f) :: d)
      | Some None, Some d => Some d
      | _, _ => None
      end
  end.

(** FLUKAInput.py 343-351: the elements called out. *)
Fixpoint element_cards (cm : dict text) (written : list text) : option (list text) :=
  match cm with
  | [] => Some []
  | (n, f) :: r =>
      if existsb (text_eqb f) fluka_special_mats || existsb (text_eqb f) written then element_cards r written
      else match write_fluka_material_element n f, element_cards r (f :: written) with
           | Some c, Some l => Some (c :: l)
           | _, _ => None
           end
  end.

(** FLUKAInput.py 360-367: one entry of the map. *)
Definition add_name (comp : dict Q) (d : dict Q) (e : text * text) : dict Q :=
  match dget (fst e) comp with
  | Some q => dset (snd e) (match dget (snd e) d with Some q0 => (q0 + q)%Q | None => q end) d
  | None => d
  end.
Definition named (cm : dict text) (comp : dict Q) : dict Q := fold_left (add_name comp) cm [].

(** FLUKAInput.py 355-370: the materials afterwards. *)
Definition rename_all (cm : dict text) (ms : dict material) : dict material :=
  map (fun e => (fst e, with_comp (snd e) (named cm (m_comp (snd e))))) ms.

(** FLUKAInput.py 374-376. *)
Fixpoint material_cards (show : Q -> text) (fuel : nat) (ms : dict material) : option (list text) :=
  match ms with
  | [] => Some []
  | (_, m) :: r =>
      match write_fluka_compound fuel m, material_cards show fuel r with
      | Some cs, Some l => Some (write_fluka_material show m :: cs ++ l)
      | _, _ => None
      end
  end.

(** FLUKAInput.py 323-378, [__write_fluka_materials]: the cards after the heading, and the materials afterwards. *)
Definition write_fluka_materials (show : Q -> text) (fuel : nat) (order : list text) (ms : dict material)
  : option (list text * dict material) :=
  match collapsed_map order with
  | None => None
  | Some cm =>
      match element_cards cm [], material_cards show fuel (rename_all cm ms) with
      | Some es, Some l => Some (es ++ l, rename_all cm ms)
      | _, _ => None
      end
  end.

(** * Importances *)

(** FLUKAInput.py 262-269: largest and smallest positive importance. *)
Definition max_imp (l : list Q) : Q := fold_left (fun m q => if Qle_bool q m then m else q) l 1%Q.
Definition min_imp (l : list Q) : Q :=
  fold_left (fun m q => if negb (Qle_bool q 0) && negb (Qle_bool m q) then q else m) l (1000000000 # 1).

(** FLUKAInput.py 271-273. *)
Definition imp_scale (l : list Q) : Q := (max_imp l / (min_imp l * (max_imp l / 10000)))%Q.

(** FLUKAInput.py 284-290. *)
Definition fluka_importance (scale q : Q) : Q :=
  let i := if Qeq_bool q 0 then (1 # 10000)%Q else (q / scale)%Q in
  if Qle_bool i 100000 then i else 100000%Q.

(** FLUKAInput.py 281-296: one card, for cell [id]. *)
Definition biasing_card (scale : Q) (c : Z * Q) : text :=
  pad_right 10 (T "BIASING") ++ pad_left 10 (T "3.0") ++ pad_left 10 (T "1.0") ++
  pad_left 10 (fmt_e 4 (fluka_importance scale (snd c))) ++ pad_left 10 (T "C" ++ str_Z (fst c)) ++
  pad_left 10 [] ++ pad_left 10 [] ++ pad_left 10 (T "PRINT") ++ nl.

(** FLUKAInput.py 261-300, [__write_fluka_importances].  Simplification: exact numbers; the warning is not modelled. *)
Definition write_fluka_importances (cells : list (Z * Q)) : list text :=
  map (biasing_card (imp_scale (map snd cells))) cells.

(** * Assignments *)

(** FLUKAInput.py 307-319: cell number, material number, importance. *)
Definition assignmat_card (c : Z * Z * Q) : text :=
  let '(id, mat, imp) := c in
  pad_right 10 (T "ASSIGNMA") ++
  pad_left 10 (if negb (mat =? 0)%Z then T "M" ++ str_Z mat else if Qeq_bool imp 0 then T "BLCKHOLE" else T "VACUUM") ++
  pad_left 10 (T "C" ++ str_Z id) ++ nl.
Definition write_fluka_assignmats (cells : list (Z * Z * Q)) : list text := map assignmat_card cells.
