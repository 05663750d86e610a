(** The comparison of spheres in binary64 arithmetic: csg2csg/SurfaceCard.py 77-114 and 200-215.

    Python's floats are the binary64 numbers of Flocq, with rounding to nearest, ties to even.  Simplification: the power
    function of the C library is taken to round correctly for the exponent 2. *)
From Coq Require Import ZArith Reals Bool List.
From Flocq Require Import Core BinarySingleNaN.
Import ListNotations.
Open Scope list_scope.

Definition prec_positive : Prec_gt_0 53 := eq_refl.
Definition prec_small : Prec_lt_emax 53 1024 := eq_refl.
Definition float := binary_float 53 1024.
Definition fmul : float -> float -> float := @Bmult 53 1024 prec_positive prec_small mode_NE.
Definition fadd : float -> float -> float := @Bplus 53 1024 prec_positive prec_small mode_NE.
Definition fsub : float -> float -> float := @Bminus 53 1024 prec_positive prec_small mode_NE.
(** The float [m * 2 ^ e], rounded. *)
Definition fnum (m e : Z) : float := @binary_normalize 53 1024 prec_positive prec_small mode_NE m e false.
Definition finite (x : float) : bool := is_finite x.

(** [x ** 2]; [None] is the OverflowError of Python (SurfaceCard.py 211-214). *)
Definition fsquare (x : float) : option float :=
  let y := fmul x x in if finite x && negb (finite y) then None else Some y.

(** A sphere: its centre and its radius. *)
Record fsphere := mkFS { f_x : float; f_y : float; f_z : float; f_r : float }.

(** SurfaceCard.py 200-215: the ten coefficients.  The integers 0 and 1 are taken as floats, which compares the same. *)
Definition sphere_general (s : fsphere) : option (list float) :=
  match fsquare (f_x s), fsquare (f_y s), fsquare (f_z s), fsquare (f_r s) with
  | Some xx, Some yy, Some zz, Some rr =>
      let one := fnum 1 0 in
      let nul := fnum 0 0 in
      let m2 := fnum (-2) 0 in
      Some [one; one; one; nul; nul; nul; fmul m2 (f_x s); fmul m2 (f_y s); fmul m2 (f_z s); fsub (fadd (fadd xx yy) zz) rr]
  | _, _, _, _ => None
  end.

(** [==] on lists of floats (SurfaceCard.py 88, 94). *)
Fixpoint same_list (a b : list float) : bool :=
  match a, b with
  | [], [] => true
  | x :: a', y :: b' => Beqb x y && same_list a' b'
  | _, _ => false
  end.

(** SurfaceCard.py 111-114, [reverse]. *)
Definition freverse (l : list float) : list float := map (fun x => fmul x (fnum (-1) 0)) l.

(** SurfaceCard.py 77-103, [diff] with [both]: same surface, and same but for the side.  [None] is the OverflowError. *)
Definition fdiff (s t : fsphere) : option (bool * bool) :=
  match sphere_general s, sphere_general t with
  | Some a, Some b =>
      Some (if same_list b a then (true, false) else if same_list (freverse b) a then (true, true) else (false, false))
  | _, _ => None
  end.
