(** Specification: what surfaces mean (not a model of any code).

    The equations are those of the MCNP manual (surface cards) and of plane analytic
    geometry.  A surface splits space into a negative and a positive side. *)
From Coq Require Import Reals List.
From Verif Require Import PyStr.
Import ListNotations.
Open Scope R_scope.

Record pt := Pt { px : R; py : R; pz : R }.

Record sense := Sense { neg : pt -> Prop; pos : pt -> Prop }.

Definition same_sense (a b : sense) : Prop :=
  forall p, (neg a p <-> neg b p) /\ (pos a p <-> pos b p).

Definition opposite_sense (a b : sense) : Prop :=
  forall p, (neg a p <-> pos b p) /\ (pos a p <-> neg b p).

(** The sides of the zero set of [f]. *)
Definition of_fun (f : pt -> R) : sense := Sense (fun p => f p < 0) (fun p => f p > 0).

Definition plane (a b c d : R) (p : pt) : R := a * px p + b * py p + c * pz p - d.
Definition sphere (x0 y0 z0 r : R) (p : pt) : R :=
  (px p - x0) ^ 2 + (py p - y0) ^ 2 + (pz p - z0) ^ 2 - r ^ 2.
Definition cyl_x (y0 z0 r : R) (p : pt) : R := (py p - y0) ^ 2 + (pz p - z0) ^ 2 - r ^ 2.
Definition cyl_y (x0 z0 r : R) (p : pt) : R := (px p - x0) ^ 2 + (pz p - z0) ^ 2 - r ^ 2.
Definition cyl_z (x0 y0 r : R) (p : pt) : R := (px p - x0) ^ 2 + (py p - y0) ^ 2 - r ^ 2.
Definition cone_x (x0 y0 z0 t2 : R) (p : pt) : R :=
  (py p - y0) ^ 2 + (pz p - z0) ^ 2 - t2 * (px p - x0) ^ 2.
Definition cone_y (x0 y0 z0 t2 : R) (p : pt) : R :=
  (px p - x0) ^ 2 + (pz p - z0) ^ 2 - t2 * (py p - y0) ^ 2.
Definition cone_z (x0 y0 z0 t2 : R) (p : pt) : R :=
  (px p - x0) ^ 2 + (py p - y0) ^ 2 - t2 * (pz p - z0) ^ 2.
Definition quadric (a b c d e f g h j k : R) (p : pt) : R :=
  a * px p ^ 2 + b * py p ^ 2 + c * pz p ^ 2 + d * px p * py p + e * py p * pz p + f * pz p * px p
  + g * px p + h * py p + j * pz p + k.
(** MCNP sq: the axes of the quadric are parallel to the coordinate axes. *)
Definition special_quadric (a b c d e f g x0 y0 z0 : R) (p : pt) : R :=
  a * (px p - x0) ^ 2 + b * (py p - y0) ^ 2 + c * (pz p - z0) ^ 2
  + 2 * d * (px p - x0) + 2 * e * (py p - y0) + 2 * f * (pz p - z0) + g.
(** MCNP tx ty tz: centre, major radius A, B along the axis, C across. *)
Definition torus (axial rho2 A B C : R) : R :=
  axial ^ 2 / B ^ 2 + (sqrt rho2 - A) ^ 2 / C ^ 2 - 1.
Definition torus_x (x0 y0 z0 A B C : R) (p : pt) : R :=
  torus (px p - x0) ((py p - y0) ^ 2 + (pz p - z0) ^ 2) A B C.
Definition torus_y (x0 y0 z0 A B C : R) (p : pt) : R :=
  torus (py p - y0) ((px p - x0) ^ 2 + (pz p - z0) ^ 2) A B C.
Definition torus_z (x0 y0 z0 A B C : R) (p : pt) : R :=
  torus (pz p - z0) ((px p - x0) ^ 2 + (py p - y0) ^ 2) A B C.

(** A cone with a sheet selected (+1 or -1) has as negative side the inside of that
    sheet only; sheet 0 is the two-sheeted cone. *)
Definition one_sheet (f axial : pt -> R) (sheet : R) : sense :=
  Sense (fun p => f p < 0 /\ (sheet <> 0 -> sheet * axial p > 0))
        (fun p => f p > 0 \/ (sheet <> 0 /\ sheet * axial p < 0)).

(** Meaning of an MCNP surface card: mnemonic and entries.  For the three-point form
    of p the side is fixed separately ([three_points] below). *)
Inductive mcnp_means : string -> list R -> sense -> Prop :=
| m_px d : mcnp_means "px" [d] (of_fun (plane 1 0 0 d))
| m_py d : mcnp_means "py" [d] (of_fun (plane 0 1 0 d))
| m_pz d : mcnp_means "pz" [d] (of_fun (plane 0 0 1 d))
| m_p a b c d : mcnp_means "p" [a; b; c; d] (of_fun (plane a b c d))
| m_so r : mcnp_means "so" [r] (of_fun (sphere 0 0 0 r))
| m_s x y z r : mcnp_means "s" [x; y; z; r] (of_fun (sphere x y z r))
| m_sx x r : mcnp_means "sx" [x; r] (of_fun (sphere x 0 0 r))
| m_sy y r : mcnp_means "sy" [y; r] (of_fun (sphere 0 y 0 r))
| m_sz z r : mcnp_means "sz" [z; r] (of_fun (sphere 0 0 z r))
| m_cpx y z r : mcnp_means "c/x" [y; z; r] (of_fun (cyl_x y z r))
| m_cpy x z r : mcnp_means "c/y" [x; z; r] (of_fun (cyl_y x z r))
| m_cpz x y r : mcnp_means "c/z" [x; y; r] (of_fun (cyl_z x y r))
| m_cx r : mcnp_means "cx" [r] (of_fun (cyl_x 0 0 r))
| m_cy r : mcnp_means "cy" [r] (of_fun (cyl_y 0 0 r))
| m_cz r : mcnp_means "cz" [r] (of_fun (cyl_z 0 0 r))
| m_kpx x y z t : mcnp_means "k/x" [x; y; z; t] (of_fun (cone_x x y z t))
| m_kpy x y z t : mcnp_means "k/y" [x; y; z; t] (of_fun (cone_y x y z t))
| m_kpz x y z t : mcnp_means "k/z" [x; y; z; t] (of_fun (cone_z x y z t))
| m_kpx1 x y z t s : mcnp_means "k/x" [x; y; z; t; s] (one_sheet (cone_x x y z t) (fun p => px p - x) s)
| m_kpy1 x y z t s : mcnp_means "k/y" [x; y; z; t; s] (one_sheet (cone_y x y z t) (fun p => py p - y) s)
| m_kpz1 x y z t s : mcnp_means "k/z" [x; y; z; t; s] (one_sheet (cone_z x y z t) (fun p => pz p - z) s)
| m_kx x t : mcnp_means "kx" [x; t] (of_fun (cone_x x 0 0 t))
| m_ky y t : mcnp_means "ky" [y; t] (of_fun (cone_y 0 y 0 t))
| m_kz z t : mcnp_means "kz" [z; t] (of_fun (cone_z 0 0 z t))
| m_kx1 x t s : mcnp_means "kx" [x; t; s] (one_sheet (cone_x x 0 0 t) (fun p => px p - x) s)
| m_ky1 y t s : mcnp_means "ky" [y; t; s] (one_sheet (cone_y 0 y 0 t) (fun p => py p - y) s)
| m_kz1 z t s : mcnp_means "kz" [z; t; s] (one_sheet (cone_z 0 0 z t) (fun p => pz p - z) s)
| m_gq a b c d e f g h j k : mcnp_means "gq" [a; b; c; d; e; f; g; h; j; k] (of_fun (quadric a b c d e f g h j k))
| m_sq a b c d e f g x y z :
    mcnp_means "sq" [a; b; c; d; e; f; g; x; y; z] (of_fun (special_quadric a b c d e f g x y z))
| m_tx x y z A B C : mcnp_means "tx" [x; y; z; A; B; C] (of_fun (torus_x x y z A B C))
| m_ty x y z A B C : mcnp_means "ty" [x; y; z; A; B; C] (of_fun (torus_y x y z A B C))
| m_tz x y z A B C : mcnp_means "tz" [x; y; z; A; B; C] (of_fun (torus_z x y z A B C))
| m_sph x y z r : mcnp_means "sph" [x; y; z; r] (of_fun (sphere x y z r)).

(** MCNP manual, plane through three points: the origin has negative sense; if the
    plane meets the origin, (0,0,infinity) has positive sense, failing that
    (0,infinity,0), failing that (infinity,0,0). *)
Definition three_points (p1 p2 p3 : pt) (s : sense) : Prop :=
  exists a b c d, s = of_fun (plane a b c d) /\ (a, b, c) <> (0, 0, 0) /\
    plane a b c d p1 = 0 /\ plane a b c d p2 = 0 /\ plane a b c d p3 = 0 /\
    (0 < d \/ (d = 0 /\ 0 < c) \/ (d = 0 /\ c = 0 /\ 0 < b) \/ (d = 0 /\ c = 0 /\ b = 0 /\ 0 < a)).

Definition cross_pt (u v : pt) : pt :=
  Pt (py u * pz v - pz u * py v) (pz u * px v - px u * pz v) (px u * py v - py u * px v).
Definition sub_pt (p q : pt) : pt := Pt (px p - px q) (py p - py q) (pz p - pz q).
Definition add_pt (p q : pt) : pt := Pt (px p + px q) (py p + py q) (pz p + pz q).
Definition scale_pt (k : R) (p : pt) : pt := Pt (k * px p) (k * py p) (k * pz p).
Definition dot (u v : pt) : R := px u * px v + py u * py v + pz u * pz v.

(** Three points not on a line. *)
Definition not_collinear (p1 p2 p3 : pt) : Prop :=
  cross_pt (sub_pt p2 p1) (sub_pt p3 p1) <> Pt 0 0 0.

(** MCNP TR card: displacement [o] and rows of the rotation matrix; the surface is
    written in the auxiliary system x' = B (x - o). *)
Record motion := Motion { mo : pt; r1 : pt; r2 : pt; r3 : pt }.
Definition to_aux (t : motion) (p : pt) : pt :=
  let q := sub_pt p (mo t) in Pt (dot (r1 t) q) (dot (r2 t) q) (dot (r3 t) q).
Definition moved (t : motion) (s : sense) : sense :=
  Sense (fun p => neg s (to_aux t p)) (fun p => pos s (to_aux t p)).
