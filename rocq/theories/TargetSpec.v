(** Specification: what the surface definitions of the other codes mean (not a model of any code).

    The equations are those of the manuals of Serpent 2 (surface types), OpenMC (geometry.xml) and SCONE (surface
    dictionaries).  The Serpent types ckx, cky and ckz follow MCNP (SerpentSurfaceCard.py 83-85): apex, squared
    tangent and an optional side. *)
From Coq Require Import Reals Ratan List.
From Verif Require Import PyStr SurfModel GeomSpec.
Import ListNotations.
Open Scope R_scope.

Inductive serpent_means : string -> list R -> sense -> Prop :=
| s_plane a b c d : serpent_means "plane" [a; b; c; d] (of_fun (fun p => a * px p + b * py p + c * pz p - d))
| s_px d : serpent_means "px" [d] (of_fun (fun p => px p - d))
| s_py d : serpent_means "py" [d] (of_fun (fun p => py p - d))
| s_pz d : serpent_means "pz" [d] (of_fun (fun p => pz p - d))
| s_cylx y z r : serpent_means "cylx" [y; z; r] (of_fun (fun p => (py p - y) ^ 2 + (pz p - z) ^ 2 - r ^ 2))
| s_cyly x z r : serpent_means "cyly" [x; z; r] (of_fun (fun p => (px p - x) ^ 2 + (pz p - z) ^ 2 - r ^ 2))
| s_cylz x y r : serpent_means "cylz" [x; y; r] (of_fun (fun p => (px p - x) ^ 2 + (py p - y) ^ 2 - r ^ 2))
| s_sph x y z r : serpent_means "sph" [x; y; z; r] (of_fun (fun p => (px p - x) ^ 2 + (py p - y) ^ 2 + (pz p - z) ^ 2 - r ^ 2))
| s_quadratic a b c d e f g h j k : serpent_means "quadratic" [a; b; c; d; e; f; g; h; j; k]
    (of_fun (fun p => a * px p ^ 2 + b * py p ^ 2 + c * pz p ^ 2 + d * px p * py p + e * py p * pz p + f * pz p * px p
       + g * px p + h * py p + j * pz p + k))
| s_ckx x y z t side : serpent_means "ckx" [x; y; z; t; side] (one_sheet (cone_x x y z t) (fun p => px p - x) side)
| s_cky x y z t side : serpent_means "cky" [x; y; z; t; side] (one_sheet (cone_y x y z t) (fun p => py p - y) side)
| s_ckz x y z t side : serpent_means "ckz" [x; y; z; t; side] (one_sheet (cone_z x y z t) (fun p => pz p - z) side)
| s_torx x y z A B C : serpent_means "torx" [x; y; z; A; B; C] (of_fun (torus_x x y z A B C))
| s_tory x y z A B C : serpent_means "tory" [x; y; z; A; B; C] (of_fun (torus_y x y z A B C))
| s_torz x y z A B C : serpent_means "torz" [x; y; z; A; B; C] (of_fun (torus_z x y z A B C)).

Inductive openmc_means : string -> list R -> sense -> Prop :=
| o_plane a b c d : openmc_means "plane" [a; b; c; d] (of_fun (fun p => a * px p + b * py p + c * pz p - d))
| o_px d : openmc_means "x-plane" [d] (of_fun (fun p => px p - d))
| o_py d : openmc_means "y-plane" [d] (of_fun (fun p => py p - d))
| o_pz d : openmc_means "z-plane" [d] (of_fun (fun p => pz p - d))
| o_cylx y z r : openmc_means "x-cylinder" [y; z; r] (of_fun (fun p => (py p - y) ^ 2 + (pz p - z) ^ 2 - r ^ 2))
| o_cyly x z r : openmc_means "y-cylinder" [x; z; r] (of_fun (fun p => (px p - x) ^ 2 + (pz p - z) ^ 2 - r ^ 2))
| o_cylz x y r : openmc_means "z-cylinder" [x; y; r] (of_fun (fun p => (px p - x) ^ 2 + (py p - y) ^ 2 - r ^ 2))
| o_sph x y z r : openmc_means "sphere" [x; y; z; r] (of_fun (fun p => (px p - x) ^ 2 + (py p - y) ^ 2 + (pz p - z) ^ 2 - r ^ 2))
| o_quadric a b c d e f g h j k : openmc_means "quadric" [a; b; c; d; e; f; g; h; j; k]
    (of_fun (fun p => a * px p ^ 2 + b * py p ^ 2 + c * pz p ^ 2 + d * px p * py p + e * py p * pz p + f * px p * pz p
       + g * px p + h * py p + j * pz p + k))
| o_conex x y z r2 : openmc_means "x-cone" [x; y; z; r2] (of_fun (fun p => (py p - y) ^ 2 + (pz p - z) ^ 2 - r2 * (px p - x) ^ 2))
| o_coney x y z r2 : openmc_means "y-cone" [x; y; z; r2] (of_fun (fun p => (px p - x) ^ 2 + (pz p - z) ^ 2 - r2 * (py p - y) ^ 2))
| o_conez x y z r2 : openmc_means "z-cone" [x; y; z; r2] (of_fun (fun p => (px p - x) ^ 2 + (py p - y) ^ 2 - r2 * (pz p - z) ^ 2))
| o_torx x y z A B C : openmc_means "x-torus" [x; y; z; A; B; C] (of_fun (torus_x x y z A B C))
| o_tory x y z A B C : openmc_means "y-torus" [x; y; z; A; B; C] (of_fun (torus_y x y z A B C))
| o_torz x y z A B C : openmc_means "z-torus" [x; y; z; A; B; C] (of_fun (torus_z x y z A B C)).

(** A SCONE cone: half opening angle in degrees, cut by planes at two heights measured from the vertex. *)
Definition scone_cut (f axial : pt -> R) (hmin hmax : R) : sense :=
  Sense (fun p => f p < 0 /\ hmin < axial p < hmax) (fun p => f p > 0 \/ axial p < hmin \/ hmax < axial p).
Definition tan2 (angle : R) : R := tan (angle * PI / 180) ^ 2.

(** Keywords and the numbers under them. *)
Inductive entry := Key (k : string) | Num (x : R).
Definition scone_nums (k : string) (l : list R) : list entry := Key k :: map Num l.

Inductive scone_means : string -> list entry -> sense -> Prop :=
| c_plane a b c d : scone_means "plane" (scone_nums "coeffs" [a; b; c; d]) (of_fun (fun p => a * px p + b * py p + c * pz p - d))
| c_px d : scone_means "xPlane" (scone_nums "x0" [d]) (of_fun (fun p => px p - d))
| c_py d : scone_means "yPlane" (scone_nums "y0" [d]) (of_fun (fun p => py p - d))
| c_pz d : scone_means "zPlane" (scone_nums "z0" [d]) (of_fun (fun p => pz p - d))
| c_cylx x y z r : scone_means "xCylinder" (scone_nums "radius" [r] ++ scone_nums "origin" [x; y; z])
    (of_fun (fun p => (py p - y) ^ 2 + (pz p - z) ^ 2 - r ^ 2))
| c_cyly x y z r : scone_means "yCylinder" (scone_nums "radius" [r] ++ scone_nums "origin" [x; y; z])
    (of_fun (fun p => (px p - x) ^ 2 + (pz p - z) ^ 2 - r ^ 2))
| c_cylz x y z r : scone_means "zCylinder" (scone_nums "radius" [r] ++ scone_nums "origin" [x; y; z])
    (of_fun (fun p => (px p - x) ^ 2 + (py p - y) ^ 2 - r ^ 2))
| c_sph x y z r : scone_means "sphere" (scone_nums "origin" [x; y; z] ++ scone_nums "radius" [r])
    (of_fun (fun p => (px p - x) ^ 2 + (py p - y) ^ 2 + (pz p - z) ^ 2 - r ^ 2))
| c_quadric a b c d e f g h j k : scone_means "quadric" (scone_nums "coeffs" [a; b; c; d; e; f; g; h; j; k])
    (of_fun (fun p => a * px p ^ 2 + b * py p ^ 2 + c * pz p ^ 2 + d * px p * py p + e * py p * pz p + f * px p * pz p
       + g * px p + h * py p + j * pz p + k))
| c_conex x y z w lo hi :
    scone_means "xCone" (scone_nums "vertex" [x; y; z] ++ scone_nums "angle" [w] ++ scone_nums "hMin" [lo] ++ scone_nums "hMax" [hi])
    (scone_cut (fun p => (py p - y) ^ 2 + (pz p - z) ^ 2 - tan2 w * (px p - x) ^ 2) (fun p => px p - x) lo hi)
| c_coney x y z w lo hi :
    scone_means "yCone" (scone_nums "vertex" [x; y; z] ++ scone_nums "angle" [w] ++ scone_nums "hMin" [lo] ++ scone_nums "hMax" [hi])
    (scone_cut (fun p => (px p - x) ^ 2 + (pz p - z) ^ 2 - tan2 w * (py p - y) ^ 2) (fun p => py p - y) lo hi)
| c_conez x y z w lo hi :
    scone_means "zCone" (scone_nums "vertex" [x; y; z] ++ scone_nums "angle" [w] ++ scone_nums "hMin" [lo] ++ scone_nums "hMax" [hi])
    (scone_cut (fun p => (px p - x) ^ 2 + (py p - y) ^ 2 - tan2 w * (pz p - z) ^ 2) (fun p => pz p - z) lo hi).

(** The words of a SCONE dictionary: brackets, braces and semicolons separate. *)
Definition scone_sep (c : ascii) : bool :=
  Ascii.eqb c "(" || Ascii.eqb c ")" || Ascii.eqb c "{" || Ascii.eqb c "}" || Ascii.eqb c ";".
Definition scone_words (t : text) : list text := words (map (fun c => if scone_sep c then " "%char else c) t).

(** A written number: what [str] prints for [x], or a literal worth [x]. *)
Definition shows (str : R -> text) (t : text) (x : R) : Prop := t = str x \/ to_float t = Some x.
