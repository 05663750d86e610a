(** Model of macrobodies: csg2csg/MCNPInput.py 386-509 and 704-873.

    Simplification: the new surfaces are made by the code from a text holding the
    printed numbers; here they are made from the numbers, i.e. printing and reading a
    float is taken to be exact. *)
From Coq Require Import Reals.
From Verif Require Import PyStr PyInt SurfModel.
Open Scope R_scope.

(** What explode_macrobody returns: the texts of the inside and outside expression and
    the new surfaces (MCNPInput.py 873). *)
Record exploded := mkX { x_in : text; x_out : text; x_surfs : list surface }.

(** [str(surf.surface_id)]. *)
Definition sid (n : Z) : text := str_Z n.

(** MCNPInput.py 386-395, [__make_new_plane]: the surface card n p a b c d. *)
Definition new_plane (n : Z) (a b c d : R) : surface := mkS n None PLANE_GENERAL [a; b; c; d] TRANSMISSION.

(** The cards n px d, n py d, n pz d of MCNPInput.py 714-747. *)
Definition new_px (n : Z) (d : R) : surface := mkS n None PLANE_X [1; 0; 0; d] TRANSMISSION.
Definition new_py (n : Z) (d : R) : surface := mkS n None PLANE_Y [0; 1; 0; d] TRANSMISSION.
Definition new_pz (n : Z) (d : R) : surface := mkS n None PLANE_Z [0; 0; 1; d] TRANSMISSION.

(** MCNPInput.py 710-776, the RPP branch; [n] is last_free_surface_index. *)
Definition explode_rpp (n : Z) (c0 c1 c2 c3 c4 c5 : R) : exploded :=
  let s i := sid (n + i) in
  mkX (T "( -" ++ s 1%Z ++ T " -" ++ s 2%Z ++ T " -" ++ s 3%Z ++ T " -" ++ s 4%Z ++ T " -" ++ s 5%Z
         ++ T " -" ++ s 6%Z ++ T " )")
      (T "( " ++ s 1%Z ++ T " : " ++ s 2%Z ++ T " : " ++ s 3%Z ++ T " : " ++ s 4%Z ++ T " : " ++ s 5%Z
         ++ T " : " ++ s 6%Z ++ T ")")
      [new_px (n + 1) c1; new_plane (n + 2) (-1) 0 0 (-1 * c0);
       new_py (n + 3) c3; new_plane (n + 4) 0 (-1) 0 (-1 * c2);
       new_pz (n + 5) c5; new_plane (n + 6) 0 0 (-1) (-1 * c4)].

(** numpy.linalg.norm of a vector. *)
Definition norm3 (x y z : R) : R := sqrt (x ^ 2 + y ^ 2 + z ^ 2).

(** MCNPInput.py 397-509, [__macro_rcc_cylinder_arbitrary]: base (c0 c1 c2), axis
    (v0 v1 v2), radius c6. *)
Definition explode_rcc (n : Z) (c0 c1 c2 v0 v1 v2 c6 : R) : exploded :=
  let s i := sid (n + i) in
  let w := norm3 v0 v1 v2 in
  let a0 := v0 / w in let a1 := v1 / w in let a2 := v2 / w in
  let g0 := 1 - a0 ^ 2 in let g1 := 1 - a1 ^ 2 in let g2 := 1 - a2 ^ 2 in
  let g3 := -2 * a0 * a1 in let g4 := -2 * a1 * a2 in let g5 := -2 * a0 * a2 in
  let g6 := - c1 * g3 - c2 * g5 - 2 * c0 * g0 in
  let g7 := - c0 * g3 - c2 * g4 - 2 * c1 * g1 in
  let g8 := - c0 * g5 - c1 * g4 - 2 * c2 * g2 in
  let g9 := c0 * c1 * g3 + c1 * c2 * g4 + c0 * c2 * g5 + c0 ^ 2 * g0 + c1 ^ 2 * g1 + c2 ^ 2 * g2 - c6 ^ 2 in
  let d1 := a0 * c0 + a1 * c1 + a2 * c2 in
  let d2 := a0 * (c0 + v0) + a1 * (c1 + v1) + a2 * (c2 + v2) in
  mkX (T "( -" ++ s 1%Z ++ T " -" ++ s 2%Z ++ T " -" ++ s 3%Z ++ T ")")
      (T "(" ++ s 1%Z ++ T ":" ++ s 2%Z ++ T ":" ++ s 3%Z ++ T ")")
      [mkS (n + 1) None GENERAL_QUADRATIC [g0; g1; g2; g3; g4; g5; g6; g7; g8; g9] TRANSMISSION;
       new_plane (n + 2) (-1 * a0) (-1 * a1) (-1 * a2) (- d1);
       new_plane (n + 3) a0 a1 a2 d2].

(** MCNPInput.py 790-868, the BOX branch. *)
Definition explode_box (n : Z) (o0 o1 o2 u0 u1 u2 v0 v1 v2 w0 w1 w2 : R) : exploded :=
  let s i := sid (n + i) in
  let pair k x0 x1 x2 :=
    let m := norm3 x0 x1 x2 in
    let e0 := x0 / m in let e1 := x1 / m in let e2 := x2 / m in
    let dlow := e0 * o0 + e1 * o1 + e2 * o2 in
    let dhigh := e0 * (o0 + x0) + e1 * (o1 + x1) + e2 * (o2 + x2) in
    [new_plane (n + k) e0 e1 e2 dhigh; new_plane (n + k + 1) (-1 * e0) (-1 * e1) (-1 * e2) (-1 * dlow)] in
  mkX (T "( -" ++ s 1%Z ++ T " -" ++ s 2%Z ++ T " -" ++ s 3%Z ++ T " -" ++ s 4%Z ++ T " -" ++ s 5%Z
         ++ T " -" ++ s 6%Z ++ T ")")
      (T "( " ++ s 1%Z ++ T ":" ++ s 2%Z ++ T ":" ++ s 3%Z ++ T ":" ++ s 4%Z ++ T ":" ++ s 5%Z
         ++ T ":" ++ s 6%Z ++ T ")")
      (pair 1%Z u0 u1 u2 ++ pair 3%Z v0 v1 v2 ++ pair 5%Z w0 w1 w2).

(** MCNPInput.py 704-873, [explode_macrobody]; [None] is an IndexError.  The counter
    after the call is [n] plus the number of new surfaces.  A surface that is no
    macrobody gets two empty texts (the warning branch). *)
Definition explode_macrobody (n : Z) (s : surface) : option exploded :=
  match s_type s, s_coef s with
  | MACRO_RPP, c0 :: c1 :: c2 :: c3 :: c4 :: c5 :: _ => Some (explode_rpp n c0 c1 c2 c3 c4 c5)
  | MACRO_RCC, c0 :: c1 :: c2 :: v0 :: v1 :: v2 :: c6 :: _ => Some (explode_rcc n c0 c1 c2 v0 v1 v2 c6)
  | MACRO_BOX, o0 :: o1 :: o2 :: u0 :: u1 :: u2 :: v0 :: v1 :: v2 :: w0 :: w1 :: w2 :: _ =>
      Some (explode_box n o0 o1 o2 u0 u1 u2 v0 v1 v2 w0 w1 w2)
  | (MACRO_RPP | MACRO_RCC | MACRO_BOX), _ => None
  | _, _ => Some (mkX [] [] [])
  end.
