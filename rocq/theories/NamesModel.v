(** Names of nuclides for OpenMC (csg2csg/OpenMCMaterial.py) and of particles
    (csg2csg/ParticleNames.py, MCNPParticleNames.py). *)
From Verif Require Import PyStr PyInt.
Open Scope nat_scope.
Open Scope list_scope.

(** OpenMCMaterial.py 6-125 [name_zaid]: the symbols of the elements 1 to 118. *)
Definition symbols : list string := [
  "H"; "He"; "Li"; "Be"; "B"; "C"; "N"; "O"; "F"; "Ne"; "Na"; "Mg";
  "Al"; "Si"; "P"; "S"; "Cl"; "Ar"; "K"; "Ca"; "Sc"; "Ti"; "V"; "Cr";
  "Mn"; "Fe"; "Co"; "Ni"; "Cu"; "Zn"; "Ga"; "Ge"; "As"; "Se"; "Br"; "Kr";
  "Rb"; "Sr"; "Y"; "Zr"; "Nb"; "Mo"; "Tc"; "Ru"; "Rh"; "Pd"; "Ag"; "Cd";
  "In"; "Sn"; "Sb"; "Te"; "I"; "Xe"; "Cs"; "Ba"; "La"; "Ce"; "Pr"; "Nd";
  "Pm"; "Sm"; "Eu"; "Gd"; "Tb"; "Dy"; "Ho"; "Er"; "Tm"; "Yb"; "Lu"; "Hf";
  "Ta"; "W"; "Re"; "Os"; "Ir"; "Pt"; "Au"; "Hg"; "Tl"; "Pb"; "Bi"; "Po";
  "At"; "Rn"; "Fr"; "Ra"; "Ac"; "Th"; "Pa"; "U"; "Np"; "Pu"; "Am"; "Cm";
  "Bk"; "Cf"; "Es"; "Fm"; "Md"; "No"; "Lr"; "Rf"; "Db"; "Sg"; "Bh"; "Hs";
  "Mt"; "Ds"; "Rg"; "Cn"; "Nh"; "Fl"; "Mc"; "Lv"; "Ts"; "Og"
]%string.
Definition symbol (z : Z) : option text :=
  if (1 <=? z)%Z then option_map T (nth_error symbols (Z.to_nat (z - 1))) else None.

(** OpenMCMaterial.py 128-142 [zaid_to_name]; [None] is a ValueError, IndexError or KeyError. *)
Definition zaid_to_name (s : text) : option text :=
  let n := length s in
  let '(zt, at_) :=
    if n <=? 4 then (firstn 1 s, skipn 2 s)
    else if 5 <? n then (firstn 3 s, skipn 3 s)
    else (firstn 2 s, skipn 2 s) in
  match py_int zt, py_int at_ with
  | Some zz, Some aa => option_map (fun name => name ++ str_Z aa) (symbol zz)
  | _, _ => None
  end.

(** ParticleNames.py 10-23 [ParticleNames]. *)
Inductive particle :=
  NEUTRON | PHOTON | ELECTRON | POSITRON | PROTON | DEUTERON | TRITON | ALPHA | PION_PLUS | PION_NEUT | PION_NEG
| HELION | MUON_NEG.

(** MCNPParticleNames.py 6-32 [particleToMCNP]. *)
Definition particle_to_mcnp (p : particle) : text :=
  match p with
  | NEUTRON => T "n" | PHOTON => T "p" | ELECTRON => T "e" | POSITRON => T "f" | PROTON => T "h" | DEUTERON => T "d"
  | TRITON => T "t" | ALPHA => T "a" | PION_PLUS => T "/" | PION_NEUT => T "z" | PION_NEG => T "*" | HELION => T "s"
  | MUON_NEG => T "|"
  end.

(** MCNPParticleNames.py 35-61 [mcnpToParticle]; python's [None] for any other text. *)
Definition mcnp_to_particle (s : text) : option particle :=
  if text_eqb s (T "n") then Some NEUTRON
  else if text_eqb s (T "p") then Some PHOTON
  else if text_eqb s (T "e") then Some ELECTRON
  else if text_eqb s (T "f") then Some POSITRON
  else if text_eqb s (T "h") then Some PROTON
  else if text_eqb s (T "d") then Some DEUTERON
  else if text_eqb s (T "t") then Some TRITON
  else if text_eqb s (T "a") then Some ALPHA
  else if text_eqb s (T "/") then Some PION_PLUS
  else if text_eqb s (T "z") then Some PION_NEUT
  else if text_eqb s (T "*") then Some PION_NEG
  else if text_eqb s (T "s") then Some HELION
  else if text_eqb s (T "|") then Some MUON_NEG
  else None.

(** ParticleNames.py 26-53 [particleToGeneric]; python's [None] is passed through and gives [None], which
    MCNPInput.py 107-109 cannot append to a text (TypeError). *)
Definition particle_to_generic (p : particle) : text :=
  match p with
  | NEUTRON => T "Neutron" | PHOTON => T "Photon" | ELECTRON => T "Electron" | POSITRON => T "Positron"
  | PROTON => T "Proton" | DEUTERON => T "Deuteron" | TRITON => T "Triton" | ALPHA => T "Alpha"
  | PION_PLUS => T "Positive Pion" | PION_NEUT => T "Neutral Pion" | PION_NEG => T "Negative Pion"
  | HELION => T "Helion" | MUON_NEG => T "Negative Muon"
  end.
