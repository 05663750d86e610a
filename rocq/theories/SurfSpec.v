(** Specification: the sides of a generic surface (not a model of any code).

    SurfaceCard.py 22-40 names the types; the comment MCNPSurfaceCard.py 7 says cones
    are kept in MCNP form.  The equations are those of the MCNP manual. *)
From Coq Require Import Reals List.
From Verif Require Import PyStr GeomSpec SurfModel.
Import ListNotations.
Open Scope R_scope.

(** Sides of a surface with the given type and coefficients. *)
Definition sem (t : stype) (l : list R) : option sense :=
  match t, l with
  | PLANE_GENERAL, [a; b; c; d] => Some (of_fun (plane a b c d))
  | PLANE_X, [_; _; _; d] => Some (of_fun (plane 1 0 0 d))
  | PLANE_Y, [_; _; _; d] => Some (of_fun (plane 0 1 0 d))
  | PLANE_Z, [_; _; _; d] => Some (of_fun (plane 0 0 1 d))
  | CYLINDER_X, [u; v; r] => Some (of_fun (cyl_x u v r))
  | CYLINDER_Y, [u; v; r] => Some (of_fun (cyl_y u v r))
  | CYLINDER_Z, [u; v; r] => Some (of_fun (cyl_z u v r))
  | SPHERE_GENERAL, [x; y; z; r] => Some (of_fun (sphere x y z r))
  | CONE_X, [x; y; z; t2; sh] => Some (one_sheet (cone_x x y z t2) (fun p => px p - x) sh)
  | CONE_Y, [x; y; z; t2; sh] => Some (one_sheet (cone_y x y z t2) (fun p => py p - y) sh)
  | CONE_Z, [x; y; z; t2; sh] => Some (one_sheet (cone_z x y z t2) (fun p => pz p - z) sh)
  | TORUS_X, [x; y; z; A; B; C] => Some (of_fun (torus_x x y z A B C))
  | TORUS_Y, [x; y; z; A; B; C] => Some (of_fun (torus_y x y z A B C))
  | TORUS_Z, [x; y; z; A; B; C] => Some (of_fun (torus_z x y z A B C))
  | GENERAL_QUADRATIC, [a; b; c; d; e; f; g; h; j; k] => Some (of_fun (quadric a b c d e f g h j k))
  | _, _ => None
  end.

Definition surf_sense (s : surface) : option sense := sem (s_type s) (s_coef s).

(** A surface with sides [sn]. *)
Definition denotes (s : surface) (sn : sense) : Prop :=
  exists sn', surf_sense s = Some sn' /\ same_sense sn' sn.

(** A cone on which one of the two sheets has been selected. *)
Definition sheeted (s : surface) : Prop :=
  match s_type s, s_coef s with
  | (CONE_X | CONE_Y | CONE_Z), [_; _; _; _; sh] => sh <> 0
  | _, _ => False
  end.

Definition is_torus (t : stype) : bool :=
  match t with TORUS_X | TORUS_Y | TORUS_Z => true | _ => false end.

(** MCNP requires the radii of a torus to be positive. *)
Definition torus_ok (s : surface) : Prop :=
  is_torus (s_type s) = true -> match s_coef s with [_; _; _; _; _; C] => 0 < C | _ => True end.

(** A quadric whose only second-order term is the zx term. *)
Definition only_zx (s : surface) : Prop :=
  match s_type s, s_coef s with
  | GENERAL_QUADRATIC, [a; b; c; d; e; f; _; _; _; _] => a = 0 /\ b = 0 /\ c = 0 /\ d = 0 /\ e = 0 /\ f <> 0
  | _, _ => False
  end.

(** MCNP manual, x y z cards with two (coordinate, radius) pairs on the axis given by
    [along] (position along the axis) and [across] (squared distance from it): a
    plane if the coordinates agree, else a cylinder if the radii agree, else the
    sheet of a cone containing both circles. *)
Definition two_circles (along across : pt -> R) (a1 q1 a2 q2 : R) (sn : sense) : Prop :=
  (a1 = a2 -> same_sense sn (of_fun (fun p => along p - a1))) /\
  (a1 <> a2 -> q1 = q2 -> same_sense sn (of_fun (fun p => across p - q1 ^ 2))) /\
  (a1 <> a2 -> q1 <> q2 -> exists apex t2 sheet, 0 < t2 /\ (sheet = 1 \/ sheet = -1) /\
      q1 ^ 2 = t2 * (a1 - apex) ^ 2 /\ 0 <= sheet * (a1 - apex) /\
      q2 ^ 2 = t2 * (a2 - apex) ^ 2 /\ 0 <= sheet * (a2 - apex) /\
      same_sense sn (one_sheet (fun p => across p - t2 * (along p - apex) ^ 2) (fun p => along p - apex) sheet)).

(** The rotation matrix given by a TR card: its rows, with angles in degrees on a
    starred card. *)
Definition cosine_of (deg : bool) (x : R) : R := if deg then cos (x * PI / 180) else x.
Definition row_of (deg : bool) (x y z : R) : pt :=
  Pt (cosine_of deg x) (cosine_of deg y) (cosine_of deg z).

(** MCNP manual, TRn: three entries translate; twelve give the matrix; nine leave the
    third row to be the cross product of the first two; a thirteenth entry -1 means
    the displacement is that of the main origin in the auxiliary system. *)
Inductive tr_means (deg : bool) : list R -> motion -> Prop :=
| tr3 x y z : tr_means deg [x; y; z] (Motion (Pt x y z) (Pt 1 0 0) (Pt 0 1 0) (Pt 0 0 1))
| tr9 x y z a b c d e f :
    tr_means deg [x; y; z; a; b; c; d; e; f]
      (Motion (Pt x y z) (row_of deg a b c) (row_of deg d e f) (cross_pt (row_of deg a b c) (row_of deg d e f)))
| tr12 x y z a b c d e f g h j :
    tr_means deg [x; y; z; a; b; c; d; e; f; g; h; j]
      (Motion (Pt x y z) (row_of deg a b c) (row_of deg d e f) (row_of deg g h j))
| tr13 x y z a b c d e f g h j :
    tr_means deg [x; y; z; a; b; c; d; e; f; g; h; j; 1]
      (Motion (Pt x y z) (row_of deg a b c) (row_of deg d e f) (row_of deg g h j))
| tr13m x y z a b c d e f g h j o :
    (** the main origin has coordinates (x, y, z) in the auxiliary system *)
    to_aux (Motion o (row_of deg a b c) (row_of deg d e f) (row_of deg g h j)) (Pt 0 0 0) = Pt x y z ->
    tr_means deg [x; y; z; a; b; c; d; e; f; g; h; j; -1]
      (Motion o (row_of deg a b c) (row_of deg d e f) (row_of deg g h j)).

Definition pt_of (v : R * R * R) : pt := let '(x, y, z) := v in Pt x y z.
Definition motion_of (t : trans) : motion :=
  Motion (pt_of (t_shift t)) (pt_of (t_v1 t)) (pt_of (t_v2 t)) (pt_of (t_v3 t)).
