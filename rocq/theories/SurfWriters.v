(** Writing surfaces: csg2csg/MCNPSurfaceCard.py 10-254, SerpentSurfaceCard.py, OpenMCSurface.py and
    SCONESurfaceCard.py.

    Coefficients are real numbers (SurfModel.v).  Python's [str] on floats is a parameter of the writers; what the
    theorems need to know of it is a hypothesis on the coefficients concerned.  The fixed-point format of
    [format] with [:f] is modelled. *)
From Coq Require Import Reals Ratan R_Ifp.
From Verif Require Import PyStr PyInt Formatter SurfModel FlattenModel.
Open Scope nat_scope.
Open Scope list_scope.

(** * Numbers in fixed point *)

(** Nearest integer, ties to even. *)
Definition nearest (y : R) : Z :=
  let n := Int_part y in
  if Rlt_dec (y - IZR n) (1 / 2) then n
  else if Rlt_dec (1 / 2) (y - IZR n) then (n + 1)%Z
  else if Z.even n then n else (n + 1)%Z.

(** The six digits after the point. *)
Definition six_digits (n : N) : text :=
  [digit_char (n / 100000 mod 10); digit_char (n / 10000 mod 10); digit_char (n / 1000 mod 10);
   digit_char (n / 100 mod 10); digit_char (n / 10 mod 10); digit_char (n mod 10)].

(** Python ["{:f}".format(x)].  Simplification: no negative zero, so that a negative number rounded to zero keeps
    its sign and zero itself has none. *)
Definition fmt_f (x : R) : text :=
  let m := Z.to_N (nearest (Rabs x * 1000000)) in
  (if Rlt_dec x 0 then T "-" else []) ++ str_N (m / 1000000) ++ T "." ++ six_digits m.

(** A list of texts with one blank between them. *)
Definition spread (l : list text) : text := join_sp l.

Section Writers.
Context (str : R -> text).

Definition numbers (l : list R) : text := spread (map str l).
Definition nl : text := [newline].

(** * MCNP *)

(** MCNPSurfaceCard.py 10-21; [None]: the variable is unset for PERIODIC (UnboundLocalError). *)
Definition mcnp_boundary (b : bcond) : option text :=
  match b with
  | TRANSMISSION | VACUUM => Some []
  | REFLECTING => Some (T "*")
  | WHITE => Some (T "+")
  | PERIODIC => None
  end.

(** MCNPSurfaceCard.py 65-210 and 219-250; [None] is an IndexError. *)
Definition mcnp_body (s : surface) : option text :=
  match s_type s, s_coef s with
  | PLANE_GENERAL, a :: b :: c :: d :: _ => Some (T "p " ++ numbers [a; b; c; d] ++ nl)
  | PLANE_X, _ :: _ :: _ :: d :: _ => Some (T "px " ++ numbers [d] ++ nl)
  | PLANE_Y, _ :: _ :: _ :: d :: _ => Some (T "py " ++ numbers [d] ++ nl)
  | PLANE_Z, _ :: _ :: _ :: d :: _ => Some (T "pz " ++ numbers [d] ++ nl)
  | CYLINDER_X, a :: b :: c :: _ => Some (T "c/x " ++ numbers [a; b; c] ++ nl)
  | CYLINDER_Y, a :: b :: c :: _ => Some (T "c/y " ++ numbers [a; b; c] ++ nl)
  | CYLINDER_Z, a :: b :: c :: _ => Some (T "c/z " ++ numbers [a; b; c] ++ nl)
  | CONE_X, a :: b :: c :: d :: _ => Some (T "k/x " ++ numbers [a; b; c; d] ++ nl)
  | CONE_Y, a :: b :: c :: d :: _ => Some (T "k/y " ++ numbers [a; b; c; d] ++ nl)
  | CONE_Z, a :: b :: c :: d :: _ => Some (T "k/z " ++ numbers [a; b; c; d] ++ nl)
  | SPHERE_GENERAL, a :: b :: c :: d :: _ => Some (T "s " ++ numbers [a; b; c; d] ++ nl)
  | GENERAL_QUADRATIC, a :: b :: c :: d :: e :: f :: g :: h :: j :: k :: _ =>
      Some (T "gq " ++ numbers [a; b; c; d; e; f; g; h; j; k] ++ nl)
  | TORUS_X, a :: b :: c :: d :: e :: f :: _ => Some (T "tx " ++ numbers [a; b; c; d; e; f] ++ nl)
  | TORUS_Y, a :: b :: c :: d :: e :: f :: _ => Some (T "ty " ++ numbers [a; b; c; d; e; f] ++ nl)
  | TORUS_Z, a :: b :: c :: d :: e :: f :: _ => Some (T "tz " ++ numbers [a; b; c; d; e; f] ++ nl)
  | (UNSET | MACRO_RPP | MACRO_BOX | MACRO_RCC), _ => Some (T "Unknown surface type")
  | _, _ => None
  end.

(** MCNPSurfaceCard.py 213-252: the text handed to the line formatter. *)
Definition mcnp_surface_text (s : surface) : option text :=
  match mcnp_boundary (s_bc s), mcnp_body s with
  | Some b, Some t => Some (b ++ str_Z (s_id s) ++ T " " ++ t)
  | _, _ => None
  end.

(** MCNPSurfaceCard.py 213-254, [write_mcnp_surface] writes [r]. *)
Definition writes_mcnp_surface (s : surface) (r : text) : Prop :=
  exists t, mcnp_surface_text s = Some t /\ formatter_returns t r.

(** * Serpent *)

(** SerpentSurfaceCard.py 86-131: cones, with the side if there is one. *)
Definition serpent_cone (name : text) (l : list R) : option text :=
  match l with
  | x :: y :: z :: r :: side :: _ => Some (T " " ++ spread (name :: map fmt_f [x; y; z; r; side]) ++ nl)
  | [x; y; z; r] => Some (T " " ++ spread (name :: map fmt_f [x; y; z; r]) ++ nl)
  | _ => None
  end.

(** SerpentSurfaceCard.py 135-168: tori. *)
Definition serpent_torus (name : text) (l : list R) : option text :=
  match l with
  | x :: y :: z :: a :: b :: c :: _ => Some (T " " ++ spread (name :: map fmt_f [x; y; z; a; b; c]) ++ nl)
  | _ => None
  end.

(** SerpentSurfaceCard.py 7-83 and 270-323, [write_serpent_surface]. *)
Definition serpent_body (s : surface) : option text :=
  match s_type s, s_coef s with
  | PLANE_GENERAL, a :: b :: c :: d :: _ => Some (T " plane " ++ numbers [a; b; c; d] ++ nl)
  | PLANE_X, _ :: _ :: _ :: d :: _ => Some (T " px " ++ numbers [d] ++ nl)
  | PLANE_Y, _ :: _ :: _ :: d :: _ => Some (T " py " ++ numbers [d] ++ nl)
  | PLANE_Z, _ :: _ :: _ :: d :: _ => Some (T " pz " ++ numbers [d] ++ nl)
  | CYLINDER_X, a :: b :: c :: _ => Some (T " cylx " ++ numbers [a; b; c] ++ T " " ++ nl)
  | CYLINDER_Y, a :: b :: c :: _ => Some (T " cyly " ++ numbers [a; b; c] ++ T " " ++ nl)
  | CYLINDER_Z, a :: b :: c :: _ => Some (T " cylz " ++ numbers [a; b; c] ++ T " " ++ nl)
  | SPHERE_GENERAL, a :: b :: c :: d :: _ => Some (T " sph " ++ numbers [a; b; c; d] ++ nl)
  | GENERAL_QUADRATIC, l => Some (T " quadratic " ++ flat_map (fun c => T " " ++ str c ++ T " ") l ++ nl)
  | CONE_X, l => serpent_cone (T "ckx") l
  | CONE_Y, l => serpent_cone (T "cky") l
  | CONE_Z, l => serpent_cone (T "ckz") l
  | TORUS_X, l => serpent_torus (T "torx") l
  | TORUS_Y, l => serpent_torus (T "tory") l
  | TORUS_Z, l => serpent_torus (T "torz") l
  | _, _ => None
  end.
Definition write_serpent_surface (s : surface) : option text :=
  match s_type s with
  | UNSET | MACRO_RPP | MACRO_BOX | MACRO_RCC => Some (T "surface not supported" ++ nl)
  | _ => option_map (fun t => T "surf " ++ str_Z (s_id s) ++ t) (serpent_body s)
  end.

(** * OpenMC *)

(** OpenMCSurface.py 26-75, [openmc_surface_info]: the attributes type and coeffs. *)
Definition openmc_surface_info (s : surface) : option (text * text) :=
  match s_type s, s_coef s with
  | PLANE_GENERAL, l => Some (T "plane", numbers l)
  | PLANE_X, _ :: _ :: _ :: d :: _ => Some (T "x-plane", str d)
  | PLANE_Y, _ :: _ :: _ :: d :: _ => Some (T "y-plane", str d)
  | PLANE_Z, _ :: _ :: _ :: d :: _ => Some (T "z-plane", str d)
  | CYLINDER_X, l => Some (T "x-cylinder", numbers l)
  | CYLINDER_Y, l => Some (T "y-cylinder", numbers l)
  | CYLINDER_Z, l => Some (T "z-cylinder", numbers l)
  | SPHERE_GENERAL, l => Some (T "sphere", numbers l)
  | GENERAL_QUADRATIC, l => Some (T "quadric", numbers l)
  | CONE_X, l => Some (T "x-cone", numbers (firstn 4 l))
  | CONE_Y, l => Some (T "y-cone", numbers (firstn 4 l))
  | CONE_Z, l => Some (T "z-cone", numbers (firstn 4 l))
  | TORUS_X, l => Some (T "x-torus", numbers l)
  | TORUS_Y, l => Some (T "y-torus", numbers l)
  | TORUS_Z, l => Some (T "z-torus", numbers l)
  | (UNSET | MACRO_RPP | MACRO_BOX | MACRO_RCC), _ => Some (T "error", T "error")
  | _, _ => None
  end.

(** OpenMCSurface.py 9-23; [None]: the variable is unset for PERIODIC (UnboundLocalError). *)
Definition openmc_boundary (b : bcond) : option text :=
  match b with
  | TRANSMISSION => Some (T "transmission")
  | VACUUM | WHITE => Some (T "vacuum")
  | REFLECTING => Some (T "reflecting")
  | PERIODIC => None
  end.

(** * SCONE *)

Open Scope R_scope.
(** SCONESurfaceCard.py 79-192: cones; [None] is an IndexError or the ValueError of [sqrt].  The heights are printed by [str] from floats and from the integer 0. *)
Definition scone_cone (name : text) (l : list R) : option text :=
  match l with
  | x :: y :: z :: t2 :: r =>
      let sign := match r with s :: _ => s | [] => 0 end in
      let '(hmin, hmax) :=
        if Rlt_dec sign 0 then (str (-10000000000), T "0")
        else if Rlt_dec 0 sign then (T "0", str 10000000000)
        else (str (-10000000000), str 10000000000) in
      let angle := atan (sqrt t2) * (180 / PI) in
      if Rlt_dec t2 0 then None else
      Some (T " " ++ T " " ++ name ++ T "; vertex ( " ++ spread (map fmt_f [x; y; z]) ++ T "  ); " ++ nl ++
            T "angle " ++ str angle ++ T "; hMin " ++ hmin ++ T "; hMax " ++ hmax ++ T "; } " ++ nl)
  | _ => None
  end.
Close Scope R_scope.

(** SCONESurfaceCard.py 7-76 and 300-344, [write_scone_surface]. *)
Definition scone_body (s : surface) : option text :=
  match s_type s, s_coef s with
  | PLANE_GENERAL, a :: b :: c :: d :: _ => Some (T " plane; coeffs ( " ++ numbers [a; b; c; d] ++ T "); } " ++ nl)
  | PLANE_X, _ :: _ :: _ :: d :: _ => Some (T " xPlane; x0 " ++ str d ++ T "; } " ++ nl)
  | PLANE_Y, _ :: _ :: _ :: d :: _ => Some (T " yPlane; y0 " ++ str d ++ T "; } " ++ nl)
  | PLANE_Z, _ :: _ :: _ :: d :: _ => Some (T " zPlane; z0 " ++ str d ++ T "; } " ++ nl)
  | CYLINDER_X, a :: b :: c :: _ =>
      Some (T " xCylinder; radius " ++ str c ++ T "; origin ( 0.0 " ++ str a ++ T " " ++ str b ++ T "); } " ++ nl)
  | CYLINDER_Y, a :: b :: c :: _ =>
      Some (T " yCylinder; radius " ++ str c ++ T "; origin (" ++ str a ++ T " 0 " ++ str b ++ T "); } " ++ nl)
  | CYLINDER_Z, a :: b :: c :: _ =>
      Some (T " zCylinder; radius " ++ str c ++ T "; origin (" ++ str a ++ T " " ++ str b ++ T " 0); } " ++ nl)
  | SPHERE_GENERAL, a :: b :: c :: d :: _ =>
      Some (T " sphere; origin (" ++ str a ++ T " " ++ str b ++ T " " ++ str c ++ T "); radius " ++ str d ++ T "; } " ++ nl)
  | GENERAL_QUADRATIC, l => Some (T " quadric; coeffs ( " ++ flat_map (fun c => T " " ++ str c ++ T " ") l ++ T "); } " ++ nl)
  | CONE_X, l => scone_cone (T "xCone") l
  | CONE_Y, l => scone_cone (T "yCone") l
  | CONE_Z, l => scone_cone (T "zCone") l
  | _, _ => None
  end.
Definition write_scone_surface (s : surface) : option text :=
  match s_type s with
  | UNSET | MACRO_RPP | MACRO_BOX | MACRO_RCC | TORUS_X | TORUS_Y | TORUS_Z => Some (T "surface not supported" ++ nl)
  | _ => option_map (fun t => str_Z (s_id s) ++ T " { id " ++ str_Z (s_id s) ++ T "; type " ++ t) (scone_body s)
  end.

End Writers.
