(** Model of the generic surface card (csg2csg/SurfaceCard.py) and of reading an MCNP
    surface card (csg2csg/MCNPSurfaceCard.py 10-61, 213-1095).

    Simplification: Python floats are exact reals. *)
From Coq Require Import Reals Qreals.
From Verif Require Import PyStr FortranNumber PyInt.
Open Scope R_scope.

(** SurfaceCard.py 15-20, [BoundaryCondition]. *)
Inductive bcond := TRANSMISSION | VACUUM | REFLECTING | PERIODIC | WHITE.

(** SurfaceCard.py 22-40, [SurfaceType]; [UNSET] is the initial 0 of line 44. *)
Inductive stype :=
| PLANE_GENERAL | PLANE_X | PLANE_Y | PLANE_Z | CYLINDER_X | CYLINDER_Y | CYLINDER_Z
| SPHERE_GENERAL | CONE_X | CONE_Y | CONE_Z | TORUS_X | TORUS_Y | TORUS_Z
| GENERAL_QUADRATIC | MACRO_RPP | MACRO_BOX | MACRO_RCC | UNSET.

Scheme Equality for stype.
Scheme Equality for bcond.

(** SurfaceCard.py 43-51: the fields used here.  [s_tr] is [None] for the integer 0
    (no transform), otherwise the token of the card. *)
Record surface := mkS {
  s_id : Z; s_tr : option text; s_type : stype; s_coef : list R; s_bc : bcond }.

(** SurfaceCard.py 43-51, the constructor. *)
Definition fresh : surface := mkS 0 None UNSET [] TRANSMISSION.

(** SurfaceCard.py 116-120, [set_type]. *)
Definition set_type (s : surface) (id : Z) (tr : option text) (t : stype) (c : list R) : surface :=
  mkS id tr t c (s_bc s).

(** Assignment to the type and the coefficients (e.g. SurfaceCard.py 317-319). *)
Definition set_tc (s : surface) (t : stype) (c : list R) : surface :=
  mkS (s_id s) (s_tr s) t c (s_bc s).

(** SurfaceCard.py 111-114, [reverse]. *)
Definition reverse (s : surface) : surface := set_tc s (s_type s) (map (fun i => i * -1) (s_coef s)).

(** SurfaceCard.py 123-130, [is_macrobody]. *)
Definition is_macrobody (s : surface) : bool :=
  match s_type s with MACRO_RPP | MACRO_BOX | MACRO_RCC => true | _ => false end.

(** SurfaceCard.py 171-320, [generalise]; [None] is an IndexError. *)
Definition generalise (s : surface) : option surface :=
  let gq a b c d e f g h j k := Some (set_tc s GENERAL_QUADRATIC [a; b; c; d; e; f; g; h; j; k]) in
  match s_type s, s_coef s with
  | PLANE_X, _ :: _ :: _ :: c3 :: _ => gq 0 0 0 0 0 0 1 0 0 (-1 * c3)
  | PLANE_Y, _ :: _ :: _ :: c3 :: _ => gq 0 0 0 0 0 0 0 1 0 (-1 * c3)
  | PLANE_Z, _ :: _ :: _ :: c3 :: _ => gq 0 0 0 0 0 0 0 0 1 (-1 * c3)
  | PLANE_GENERAL, c0 :: c1 :: c2 :: c3 :: _ => gq 0 0 0 0 0 0 c0 c1 c2 (-1 * c3)
  | SPHERE_GENERAL, c0 :: c1 :: c2 :: c3 :: _ =>
      gq 1 1 1 0 0 0 (-2 * c0) (-2 * c1) (-2 * c2) (c0 ^ 2 + c1 ^ 2 + c2 ^ 2 - c3 ^ 2)
  | CYLINDER_X, c0 :: c1 :: c2 :: _ =>
      gq 0 1 1 0 0 0 0 (-2 * c0) (-2 * c1) (c0 ^ 2 + c1 ^ 2 - c2 ^ 2)
  | CYLINDER_Y, c0 :: c1 :: c2 :: _ =>
      gq 1 0 1 0 0 0 (-2 * c0) 0 (-2 * c1) (c0 ^ 2 + c1 ^ 2 - c2 ^ 2)
  | CYLINDER_Z, c0 :: c1 :: c2 :: _ =>
      gq 1 1 0 0 0 0 (-2 * c0) (-2 * c1) 0 (c0 ^ 2 + c1 ^ 2 - c2 ^ 2)
  | CONE_X, c0 :: c1 :: c2 :: c3 :: _ =>
      gq (-1 * c3) 1 1 0 0 0 (2 * c0 * c3) (-2 * c1) (-2 * c2) (- c3 * c0 ^ 2 + c1 ^ 2 + c2 ^ 2)
  | CONE_Y, c0 :: c1 :: c2 :: c3 :: _ =>
      gq 1 (-1 * c3) 1 0 0 0 (-2 * c0) (2 * c1 * c3) (-2 * c2) (c0 ^ 2 - c3 * c1 ^ 2 + c2 ^ 2)
  | CONE_Z, c0 :: c1 :: c2 :: c3 :: _ =>
      gq 1 1 (-1 * c3) 0 0 0 (-2 * c0) (-2 * c1) (2 * c2 * c3) (c0 ^ 2 + c1 ^ 2 - c2 ^ 2 * c3)
  | GENERAL_QUADRATIC, a :: b :: c :: d :: e :: f :: g :: h :: j :: k :: _ => gq a b c d e f g h j k
  | (TORUS_X | TORUS_Y | TORUS_Z), _ => Some s
  | (MACRO_RPP | MACRO_BOX | MACRO_RCC | UNSET), _ => gq 0 0 0 0 0 0 0 0 0 0
  | _, _ => None
  end.

(** Float equality test. *)
Definition Reqb (x y : R) : bool := if Req_EM_T x y then true else false.

(** Equality of two lists of floats (e.g. SurfaceCard.py 89). *)
Fixpoint list_Reqb (a b : list R) : bool :=
  match a, b with
  | [], [] => true
  | x :: a', y :: b' => Reqb x y && list_Reqb a' b'
  | _, _ => false
  end.

(** SurfaceCard.py 322-341, [simplify]; [None] is an IndexError.  (The second branch
    is kept although the first one covers it.) *)
Definition simplify (s : surface) : option surface :=
  match s_type s with
  | GENERAL_QUADRATIC =>
      if forallb (fun v => Reqb v 0) (firstn 5 (s_coef s)) then
        match s_coef s with
        | _ :: _ :: _ :: _ :: _ :: _ :: g :: h :: j :: k :: _ =>
            Some (set_tc s PLANE_GENERAL [g; h; j; -1 * k])
        | _ => None
        end
      else if forallb (fun v => Reqb v 0) (firstn 7 (s_coef s)) then
        match s_coef s with
        | _ :: _ :: _ :: _ :: _ :: _ :: _ :: _ :: _ :: k :: _ => Some (set_tc s PLANE_Z [0; 0; 1; -1 * k])
        | _ => None
        end
      else Some s
  | _ => Some s
  end.

(** SurfaceCard.py 77-103, [diff] with already_generalised (the coefficients of the
    other surface are reversed twice on the way and the result is returned). *)
Definition diff_gen (self other : surface) (both : bool) : (bool * bool) * surface :=
  if negb (stype_beq (s_type other) (s_type self)) then ((false, false), other)
  else if list_Reqb (s_coef other) (s_coef self) then ((true, false), other)
  else if both then
    let o1 := reverse other in
    if list_Reqb (s_coef o1) (s_coef self) then ((true, true), reverse o1)
    else ((false, false), reverse o1)
  else ((false, false), other).

(** SurfaceCard.py 77-103, [diff]: the answer and the two surfaces afterwards. *)
Definition diff (self other : surface) (both already : bool) : option ((bool * bool) * surface * surface) :=
  if already then
    let (r, o) := diff_gen self other both in Some (r, self, o)
  else
    match generalise self, generalise other with
    | Some s1, Some o1 => let (r, o) := diff_gen s1 o1 both in Some (r, s1, o)
    | _, _ => None
    end.

(** SurfaceCard.py 133-168, [bounding_box]; [None] is an IndexError. *)
Definition bounding_box (s : surface) : option (list R) :=
  match s_type s, s_coef s with
  | PLANE_X, _ :: _ :: _ :: c3 :: _ => Some [c3; c3; 0; 0; 0; 0]
  | PLANE_Y, _ :: _ :: _ :: c3 :: _ => Some [0; 0; c3; c3; 0; 0]
  | PLANE_Z, _ :: _ :: _ :: c3 :: _ => Some [0; 0; 0; 0; c3; c3]
  | CYLINDER_X, c0 :: c1 :: c2 :: _ => Some [0; 0; c0 - c2; c0 + c2; c1 - c2; c1 + c2]
  | CYLINDER_Y, c0 :: c1 :: c2 :: _ => Some [c0 - c2; c0 + c2; 0; 0; c1 - c2; c1 + c2]
  | CYLINDER_Z, c0 :: c1 :: c2 :: _ => Some [c0 - c2; c0 + c2; c1 - c2; c1 + c2; 0; 0]
  | SPHERE_GENERAL, c0 :: c1 :: c2 :: c3 :: _ =>
      Some [c0 - c3; c0 + c3; c1 - c3; c1 + c3; c2 - c3; c2 + c3]
  | (PLANE_X | PLANE_Y | PLANE_Z | CYLINDER_X | CYLINDER_Y | CYLINDER_Z | SPHERE_GENERAL), _ => None
  | _, _ => Some [0; 0; 0; 0; 0; 0]
  end.

(* ------------------------------------------------------------------ *)
(** * Reading an MCNP surface card *)

(** Python [a in b] on strings (e.g. MCNPSurfaceCard.py 310, 928). *)
Fixpoint starts_with (a b : text) : bool :=
  match a, b with
  | [], _ => true
  | x :: a', y :: b' => Ascii.eqb x y && starts_with a' b'
  | _ :: _, [] => false
  end.
Fixpoint sub_in (a b : text) : bool :=
  starts_with a b || match b with [] => false | _ :: b' => sub_in a b' end.

(** Python [float(tok)] as a real; [None] is a ValueError. *)
Definition to_float (t : text) : option R :=
  match py_float t with Some q => Some (Q2R q) | None => None end.

(** What the classification of a card does: an exception, or the surface afterwards
    (untouched if no branch applies). *)
Definition outcome := option surface.

(** The dictionary built in classify (MCNPSurfaceCard.py 1002-1016). *)
Record scard := mkCard { k_id : Z; k_tr : option text; k_type : text; k_coef : list text }.

(** float() of the first [n] entries (e.g. MCNPSurfaceCard.py 711-712, 817-818). *)
Fixpoint floats (n : nat) (l : list text) : option (list R) :=
  match n, l with
  | O, _ => Some []
  | S m, t :: r =>
      match to_float t, floats m r with Some x, Some xs => Some (x :: xs) | _, _ => None end
  | S _, [] => None
  end.

(** The common shape of the classifiers: read [n] entries, then set_type. *)
Definition reading (k : scard) (s : surface) (n : nat) (t : stype) (f : list R -> list R) : outcome :=
  match floats n (k_coef k) with
  | Some l => Some (set_type s (k_id k) (k_tr k) t (f l))
  | None => None
  end.

(** [l[i]] where the list is known to be long enough. *)
Definition c_ (l : list R) (i : nat) : R := nth i l 0.

(** MCNPSurfaceCard.py 319-360, [__classify_xyz_planes]. *)
Definition classify_xyz_planes (k : scard) (s : surface) : outcome :=
  if text_eqb (k_type k) (T "px") then reading k s 1 PLANE_X (fun l => [1; 0; 0; c_ l 0])
  else if text_eqb (k_type k) (T "py") then reading k s 1 PLANE_Y (fun l => [0; 1; 0; c_ l 0])
  else if text_eqb (k_type k) (T "pz") then reading k s 1 PLANE_Z (fun l => [0; 0; 1; c_ l 0])
  else Some s.

(** MCNPSurfaceCard.py 386-395: normal and offset of the plane through three points,
    loops unrolled. *)
Definition three_point_coords (s : nat -> R) : list R :=
  let co j k := s j * (s (k + 3)%nat - s (k + 6)%nat) + s (j + 3)%nat * (s (k + 6)%nat - s k)
                + s (j + 6)%nat * (s k - s (k + 3)%nat) in
  let d i j k := s i * (s (j + 3)%nat * s (k + 6)%nat - s (j + 6)%nat * s (k + 3)%nat) in
  [co 1%nat 2%nat; co 2%nat 0%nat; co 0%nat 1%nat;
   0 + d 0%nat 1%nat 2%nat + d 1%nat 2%nat 0%nat + d 2%nat 0%nat 1%nat].

(** One turn of the loop MCNPSurfaceCard.py 398-401: new coeff and new entry. *)
Definition norm_step (coeff x : R) : R * R :=
  let coeff' := if Reqb coeff 0 && negb (Reqb x 0) then 1 / x else coeff in
  (coeff', x * coeff').

(** MCNPSurfaceCard.py 397-401: the loop for i = 3, 2, 1, 0. *)
Definition normalise_plane (l : list R) : list R :=
  let (k3, d) := norm_step 0 (c_ l 3) in
  let (k2, c) := norm_step k3 (c_ l 2) in
  let (k1, b) := norm_step k2 (c_ l 1) in
  let (_, a) := norm_step k1 (c_ l 0) in
  [a; b; c; d].

(** MCNPSurfaceCard.py 363-424, [__classify_general_planes]. *)
Definition classify_general_planes (k : scard) (s : surface) : outcome :=
  if Nat.eqb (length (k_coef k)) 9 then
    reading k s 9 PLANE_GENERAL (fun l => normalise_plane (three_point_coords (c_ l)))
  else if Nat.eqb (length (k_coef k)) 4 then reading k s 4 PLANE_GENERAL (fun l => l)
  else None.

(** MCNPSurfaceCard.py 427-441, [__classify_general_sphere]; 800-812, [__classify_sph]. *)
Definition classify_general_sphere (k : scard) (s : surface) : outcome :=
  reading k s 4 SPHERE_GENERAL (fun l => l).

(** MCNPSurfaceCard.py 444-457, [__classify_origin_sphere]. *)
Definition classify_origin_sphere (k : scard) (s : surface) : outcome :=
  reading k s 1 SPHERE_GENERAL (fun l => [0; 0; 0; c_ l 0]).

(** MCNPSurfaceCard.py 460-495, [__classify_xyz_sphere]. *)
Definition classify_xyz_sphere (k : scard) (s : surface) : outcome :=
  if text_eqb (k_type k) (T "sx") then reading k s 2 SPHERE_GENERAL (fun l => [c_ l 0; 0; 0; c_ l 1])
  else if text_eqb (k_type k) (T "sy") then reading k s 2 SPHERE_GENERAL (fun l => [0; c_ l 0; 0; c_ l 1])
  else if text_eqb (k_type k) (T "sz") then reading k s 2 SPHERE_GENERAL (fun l => [0; 0; c_ l 0; c_ l 1])
  else Some s.

(** MCNPSurfaceCard.py 498-529, [__classify_cylinder_parallel]. *)
Definition classify_cylinder_parallel (k : scard) (s : surface) : outcome :=
  if text_eqb (k_type k) (T "c/x") then reading k s 3 CYLINDER_X (fun l => l)
  else if text_eqb (k_type k) (T "c/y") then reading k s 3 CYLINDER_Y (fun l => l)
  else if text_eqb (k_type k) (T "c/z") then reading k s 3 CYLINDER_Z (fun l => l)
  else Some s.

(** MCNPSurfaceCard.py 532-565, [__classify_cylinder_on_axis]. *)
Definition classify_cylinder_on_axis (k : scard) (s : surface) : outcome :=
  if text_eqb (k_type k) (T "cx") then reading k s 1 CYLINDER_X (fun l => [0; 0; c_ l 0])
  else if text_eqb (k_type k) (T "cy") then reading k s 1 CYLINDER_Y (fun l => [0; 0; c_ l 0])
  else if text_eqb (k_type k) (T "cz") then reading k s 1 CYLINDER_Z (fun l => [0; 0; c_ l 0])
  else Some s.

(** MCNPSurfaceCard.py 568-600, [__classify_cone_parallel]: the fifth entry is read
    only when there are exactly five. *)
Definition classify_cone_parallel (k : scard) (s : surface) : outcome :=
  let n := if Nat.eqb (length (k_coef k)) 5 then 5%nat else 4%nat in
  let f l := [c_ l 0; c_ l 1; c_ l 2; c_ l 3; c_ l 4] in
  if text_eqb (k_type k) (T "k/x") then reading k s n CONE_X f
  else if text_eqb (k_type k) (T "k/y") then reading k s n CONE_Y f
  else if text_eqb (k_type k) (T "k/z") then reading k s n CONE_Z f
  else match floats n (k_coef k) with Some _ => Some s | None => None end.

(** MCNPSurfaceCard.py 603-646, [__classify_cone_on_axis]: the third entry is read
    only when there are exactly three. *)
Definition classify_cone_on_axis (k : scard) (s : surface) : outcome :=
  let n := if Nat.eqb (length (k_coef k)) 3 then 3%nat else 2%nat in
  if text_eqb (k_type k) (T "kx") then reading k s n CONE_X (fun l => [c_ l 0; 0; 0; c_ l 1; c_ l 2])
  else if text_eqb (k_type k) (T "ky") then reading k s n CONE_Y (fun l => [0; c_ l 0; 0; c_ l 1; c_ l 2])
  else if text_eqb (k_type k) (T "kz") then reading k s n CONE_Z (fun l => [0; 0; c_ l 0; c_ l 1; c_ l 2])
  else Some s.

(** MCNPSurfaceCard.py 657-692: the coefficients of an sq card as a quadric. *)
Definition sq_coords (l : list R) : list R :=
  let a := c_ l 0 in let b := c_ l 1 in let c := c_ l 2 in
  let d := c_ l 3 in let e := c_ l 4 in let f := c_ l 5 in
  let x := c_ l 7 in let y := c_ l 8 in let z := c_ l 9 in
  [a; b; c; 0; 0; 0; 2 * d - 2 * a * x; 2 * e - 2 * b * y; 2 * f - 2 * c * z;
   a * x ^ 2 + b * y ^ 2 + c * z ^ 2 - 2 * d * x - 2 * e * y - 2 * f * z + c_ l 6].

(** MCNPSurfaceCard.py 648-705, [__classify_gq]. *)
Definition classify_gq (k : scard) (s : surface) : outcome :=
  if text_eqb (k_type k) (T "gq") then reading k s 10 GENERAL_QUADRATIC (fun l => l)
  else if text_eqb (k_type k) (T "sq") then reading k s 10 GENERAL_QUADRATIC sq_coords
  else Some s.

(** MCNPSurfaceCard.py 708-733, [__classify_torus]. *)
Definition classify_torus (k : scard) (s : surface) : outcome :=
  if text_eqb (k_type k) (T "tx") then reading k s 6 TORUS_X (fun l => l)
  else if text_eqb (k_type k) (T "ty") then reading k s 6 TORUS_Y (fun l => l)
  else if text_eqb (k_type k) (T "tz") then reading k s 6 TORUS_Z (fun l => l)
  else match floats 6 (k_coef k) with Some _ => Some s | None => None end.

(** MCNPSurfaceCard.py 736-797, [__classify_box]. *)
Definition classify_box (k : scard) (s : surface) : outcome :=
  match floats 12 (k_coef k) with
  | Some [vx; vy; vz; a1x; a1y; a1z; a2x; a2y; a2z; a3x; a3y; a3z] =>
      if Reqb a1y 0 && Reqb a1z 0 && Reqb a2x 0 && Reqb a2z 0 && Reqb a3x 0 && Reqb a3y 0 then
        Some (set_type s (k_id k) (k_tr k) MACRO_RPP [vx; vx + a1x; vy; vy + a2y; vz; vz + a3z])
      else
        Some (set_type s (k_id k) (k_tr k) MACRO_BOX
                [vx; vy; vz; a1x; a1y; a1z; a2x; a2y; a2z; a3x; a3y; a3z])
  | _ => None
  end.

(** MCNPSurfaceCard.py 815-825, [__classify_rpp]. *)
Definition classify_rpp (k : scard) (s : surface) : outcome := reading k s 6 MACRO_RPP (fun l => l).

(** MCNPSurfaceCard.py 828-838, [__classify_rcc]. *)
Definition classify_rcc (k : scard) (s : surface) : outcome := reading k s 7 MACRO_RCC (fun l => l).

(** The three axes passed as a letter to __define_edp_2coord. *)
Inductive axis := AX | AY | AZ.

(** MCNPSurfaceCard.py 843-876, [__define_edp_2coord]: points (a1, r1) and (a2, r2).
    The calls to __classify_xyz_planes, __classify_cylinder_on_axis and
    __classify_cone_on_axis with the computed coefficients are unfolded. *)
Definition define_edp_2coord (k : scard) (s : surface) (a1 q1 a2 q2 : R) (dir : axis) : surface :=
  let put := set_type s (k_id k) (k_tr k) in
  if Reqb a1 a2 then
    match dir with
    | AX => put PLANE_X [1; 0; 0; a1] | AY => put PLANE_Y [0; 1; 0; a1] | AZ => put PLANE_Z [0; 0; 1; a1]
    end
  else if Reqb q1 q2 then
    match dir with
    | AX => put CYLINDER_X [0; 0; q1] | AY => put CYLINDER_Y [0; 0; q1] | AZ => put CYLINDER_Z [0; 0; q1]
    end
  else
    let dx := q2 - q1 in
    let dy := a2 - a1 in
    let grad := dy / dx in
    let offset := a2 - grad * q2 in
    let angle := (-1 / grad) ^ 2 in
    let sheet := if Rlt_dec grad 0 then -1 else 1 in
    match dir with
    | AX => put CONE_X [offset; 0; 0; angle; sheet]
    | AY => put CONE_Y [0; offset; 0; angle; sheet]
    | AZ => put CONE_Z [0; 0; offset; angle; sheet]
    end.

(** MCNPSurfaceCard.py 879-919, [__classify_edp] ([__define_edp_1coord], 840-841, does
    nothing; line 911 passes "y" for an x card). *)
Definition classify_edp (k : scard) (s : surface) : outcome :=
  let ty := k_type k in
  if Nat.eqb (length (k_coef k)) 2 then
    match floats 2 (k_coef k) with
    | Some _ => if text_eqb ty (T "x") || text_eqb ty (T "y") || text_eqb ty (T "z") then Some s else None
    | None => None
    end
  else if Nat.eqb (length (k_coef k)) 4 then
    match floats 4 (k_coef k) with
    | Some [a1; q1; a2; q2] =>
        if text_eqb ty (T "x") then Some (define_edp_2coord k s a1 q1 a2 q2 AY)
        else if text_eqb ty (T "y") then Some (define_edp_2coord k s a1 q1 a2 q2 AY)
        else if text_eqb ty (T "z") then Some (define_edp_2coord k s a1 q1 a2 q2 AZ)
        else None
    | _ => None
    end
  else Some s.

(** MCNPSurfaceCard.py 935, 953: one of the letters x, y, z occurs. *)
Definition has_xyz (ty : text) : bool := sub_in (T "x") ty || sub_in (T "y") ty || sub_in (T "z") ty.

(** MCNPSurfaceCard.py 922-966, [__classify_surface_types]. *)
Definition classify_surface_types (k : scard) (s : surface) : outcome :=
  let ty := k_type k in
  if sub_in (T "p") ty && text_eqb ty (T "p") then classify_general_planes k s
  else if sub_in (T "p") ty && negb (text_eqb ty (T "p")) then classify_xyz_planes k s
  else if sub_in (T "s") ty then
    if text_eqb ty (T "so") then classify_origin_sphere k s
    else if has_xyz ty then classify_xyz_sphere k s
    else if sub_in (T "q") ty then classify_gq k s
    else if text_eqb ty (T "s") then classify_general_sphere k s
    else Some s
  else if sub_in (T "c") ty && sub_in (T "/") ty then classify_cylinder_parallel k s
  else if sub_in (T "c") ty && negb (sub_in (T "/") ty) then classify_cylinder_on_axis k s
  else if sub_in (T "k") ty && sub_in (T "/") ty then classify_cone_parallel k s
  else if sub_in (T "k") ty && negb (sub_in (T "/") ty) then classify_cone_on_axis k s
  else if sub_in (T "g") ty && sub_in (T "q") ty then classify_gq k s
  else if sub_in (T "t") ty && has_xyz ty then classify_torus k s
  else if sub_in (T "box") ty then classify_box k s
  else if sub_in (T "rpp") ty then classify_rpp k s
  else if sub_in (T "sph") ty then classify_general_sphere k s
  else if sub_in (T "rcc") ty then classify_rcc k s
  else classify_edp k s.

(** MCNPSurfaceCard.py 969-987, [__classify_macrobody_types]; the last branch ends in
    an exception (sys is not imported). *)
Definition classify_macrobody_types (k : scard) (s : surface) : outcome :=
  let ty := k_type k in
  if sub_in (T "box") ty then classify_box k s
  else if sub_in (T "rpp") ty then classify_rpp k s
  else if sub_in (T "sph") ty then classify_general_sphere k s
  else if sub_in (T "rcc") ty then classify_rcc k s
  else None.

(** MCNPSurfaceCard.py 266-296, [__mcnp_surface_types]. *)
Definition mcnp_surface_types : list text :=
  [T "p"; T "px"; T "py"; T "pz"; T "s"; T "so"; T "sx"; T "sy"; T "sz"; T "cx"; T "cy"; T "cz";
   T "c/x"; T "c/y"; T "c/z"; T "kx"; T "ky"; T "kz"; T "k/x"; T "k/y"; T "k/z"; T "tx"; T "ty"; T "tz";
   T "gq"; T "sq"; T "x"; T "y"; T "z"].

(** MCNPSurfaceCard.py 298, [__mcnp_macro_types]. *)
Definition mcnp_macro_types : list text := [T "rpp"; T "box"; T "sph"; T "rcc"].

(** MCNPSurfaceCard.py 308-316 and 1018-1022: the dispatch at the end of classify. *)
Definition classify_card (k : scard) (s : surface) : outcome :=
  if existsb (sub_in (k_type k)) mcnp_surface_types then classify_surface_types k s
  else if existsb (sub_in (k_type k)) mcnp_macro_types then classify_macrobody_types k s
  else Some s.

(** MCNPSurfaceCard.py 50-61, [surface_has_transform]. *)
Definition surface_has_transform (tokens : list text) : bool :=
  match tokens with
  | _ :: t1 :: _ => match py_float t1 with Some _ => true | None => false end
  | _ => false
  end.

(** MCNPSurfaceCard.py 992-997: the text before a dollar sign. *)
Definition before_dollar (t : text) : text :=
  if existsb (Ascii.eqb "$") t then firstn (Z.to_nat (find "$" t)) t else t.

(** MCNPSurfaceCard.py 990-1016: the card as id, transform, mnemonic and entries
    ([None]: int() fails or there are too few tokens).  The boundary condition of a
    starred number is put in the dictionary only (1004) and never used. *)
Definition card_of_text (t : text) : option scard :=
  let tokens := words (before_dollar t) in
  match tokens with
  | t0 :: rest =>
      match py_int (if existsb (Ascii.eqb "*") t0 then replace_char "*" [] t0 else t0) with
      | Some id =>
          if surface_has_transform tokens then
            match rest with
            | tr :: ty :: coefs => Some (mkCard id (Some tr) ty coefs)
            | _ => None
            end
          else
            match rest with
            | ty :: coefs => Some (mkCard id None ty coefs)
            | _ => None
            end
      | None => None
      end
  | [] => None
  end.

(** MCNPSurfaceCard.py 303-305 and 990-1022, the constructor and [classify]. *)
Definition read_surface (t : text) : outcome :=
  match card_of_text t with
  | Some k => classify_card k fresh
  | None => None
  end.

(* ------------------------------------------------------------------ *)
(** * Transforming a surface *)

(** The vectors of a transform card (MCNPDataCard.py 16-27). *)
Record trans := mkTr { t_shift : R * R * R; t_v1 : R * R * R; t_v2 : R * R * R; t_v3 : R * R * R }.

(** numpy.matmul and numpy.transpose on 4 by 4 matrices (MCNPSurfaceCard.py 1067-1081),
    a matrix being a function of row and column. *)
Definition mat := nat -> nat -> R.
Definition matmul (a b : mat) : mat :=
  fun i j => a i 0%nat * b 0%nat j + a i 1%nat * b 1%nat j + a i 2%nat * b 2%nat j + a i 3%nat * b 3%nat j.
Definition transpose (a : mat) : mat := fun i j => a j i.
Definition mk_mat (rows : list (list R)) : mat := fun i j => nth j (nth i rows []) 0.

(** MCNPSurfaceCard.py 1025-1095, [transform]; [None] is an IndexError. *)
Definition transform (s : surface) (t : trans) : option surface :=
  match s_tr s with
  | None => Some s
  | Some _ =>
      match s_coef s with
      | a :: b :: c :: d :: e :: f :: g :: h :: j :: k :: rest =>
          let '(sx, sy, sz) := t_shift t in
          let '(b1, b2, b3) := t_v1 t in
          let '(b4, b5, b6) := t_v2 t in
          let '(b7, b8, b9) := t_v3 t in
          let A := mk_mat [[k; g / 2; h / 2; j / 2]; [g / 2; a; d / 2; f / 2];
                           [h / 2; d / 2; b; e / 2]; [j / 2; f / 2; e / 2; c]] in
          let rot := mk_mat [[1; 0; 0; 0]; [0; b1; b2; b3]; [0; b4; b5; b6]; [0; b7; b8; b9]] in
          let m1 := matmul (transpose rot) (matmul A rot) in
          let shf := mk_mat [[1; 0; 0; 0]; [- sx; 1; 0; 0]; [- sy; 0; 1; 0]; [- sz; 0; 0; 1]] in
          let m := matmul (transpose shf) (matmul m1 shf) in
          Some (set_tc s (s_type s)
                  ([m 1%nat 1%nat; m 2%nat 2%nat; m 3%nat 3%nat; m 1%nat 2%nat + m 2%nat 1%nat; m 3%nat 2%nat + m 2%nat 3%nat; m 1%nat 3%nat + m 3%nat 1%nat;
                    m 1%nat 0%nat + m 0%nat 1%nat; m 2%nat 0%nat + m 0%nat 2%nat; m 3%nat 0%nat + m 0%nat 3%nat; m 0%nat 0%nat] ++ rest))
      | _ => None
      end
  end.

(** MCNPInput.py 281-291, the body of the loop of [__apply_surface_transformations] for
    one surface; the transform cards are looked up by their text. *)
Definition apply_transform (cards : text -> option trans) (s : surface) : option surface :=
  match s_tr s with
  | Some id =>
      if is_macrobody s then Some s
      else
        match generalise s with
        | None => None
        | Some g =>
            match cards id with
            | Some t => match transform g t with Some m => simplify m | None => None end
            | None => Some g
            end
        end
  | None => Some s
  end.

(* ------------------------------------------------------------------ *)
(** * Reading a transform card *)

(** Vector.py 23-28, [cross]. *)
Definition py_cross (u v : R * R * R) : R * R * R :=
  let '(u0, u1, u2) := u in
  let '(v0, v1, v2) := v in
  (u1 * v2 - v1 * u2, u0 * v2 - v0 * u2, u0 * v1 - v0 * u1).

(** MCNPDataCard.py 62-65, 71-73: degrees to cosines. *)
Definition cosines (deg : bool) (v : R * R * R) : R * R * R :=
  let '(x, y, z) := v in
  if deg then (cos (x / 180 * PI), cos (y / 180 * PI), cos (z / 180 * PI)) else v.

(** MCNPDataCard.py 42-86, [__process_string] on the entries after the name: three,
    nine, twelve or thirteen of them; any other number only warns and keeps the
    identity.  The thirteenth entry is not looked at. *)
Definition read_trans (deg : bool) (entries : list text) : option trans :=
  match floats 3 entries with
  | Some [x; y; z] =>
      let n := length entries in
      if Nat.eqb n 12 || Nat.eqb n 13 then
        match floats 12 entries with
        | Some [_; _; _; a; b; c; d; e; f; g; h; j] =>
            Some (mkTr (x, y, z) (cosines deg (a, b, c)) (cosines deg (d, e, f)) (cosines deg (g, h, j)))
        | _ => None
        end
      else if Nat.eqb n 9 then
        match floats 9 entries with
        | Some [_; _; _; a; b; c; d; e; f] =>
            let v1 := cosines deg (a, b, c) in
            let v2 := cosines deg (d, e, f) in
            Some (mkTr (x, y, z) v1 v2 (py_cross v1 v2))
        | _ => None
        end
      else Some (mkTr (x, y, z) (1, 0, 0) (0, 1, 0) (0, 0, 1))
  | _ => None
  end.

(** MCNPDataCard.py 42-55: the name of the card decides degrees (a star) and the
    identifier (the text after the first r). *)
Definition read_trans_card (t : text) : option (text * trans) :=
  match words t with
  | name :: entries =>
      match read_trans (existsb (Ascii.eqb "*") name) entries with
      | Some tr => Some (skipn (Z.to_nat (find "r" name + 1)) name, tr)
      | None => None
      end
  | [] => None
  end.
