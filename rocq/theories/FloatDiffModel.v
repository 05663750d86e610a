(** The comparison of surfaces of every type in binary64 arithmetic: csg2csg/SurfaceCard.py 77-114 and 171-320.

    As in FloatModel: Python's floats are the binary64 numbers of Flocq, rounded to nearest, ties to even; the power function
    is taken to round correctly for the exponent 2; the integers among the coefficients are taken as floats, which compares
    the same. *)
From Coq Require Import ZArith Reals Bool List.
From Flocq Require Import Core BinarySingleNaN.
From Verif Require Import FloatModel SurfModel.
Import ListNotations.
Open Scope list_scope.

(** A surface: its type and its coefficients (SurfaceCard.py 43-51). *)
Record fsurf := mkF { f_type : stype; f_coef : list float }.

(** The numbers 0, 1, -1, 2 and -2 (SurfaceCard.py 172-283) and the unary minus (line 256). *)
Definition n0 : float := fnum 0 0.
Definition n1 : float := fnum 1 0.
Definition nm1 : float := fnum (-1) 0.
Definition n2 : float := fnum 2 0.
Definition nm2 : float := fnum (-2) 0.
Definition fopp : float -> float := @Bopp 53 1024.

(** SurfaceCard.py 171-320, [generalise]; [None] is an IndexError or an OverflowError. *)
Definition fgeneral (s : fsurf) : option fsurf :=
  let gq a b c d e f g h j k := Some (mkF GENERAL_QUADRATIC [a; b; c; d; e; f; g; h; j; k]) in
  match f_type s, f_coef s with
  | PLANE_X, _ :: _ :: _ :: c3 :: _ => gq n0 n0 n0 n0 n0 n0 n1 n0 n0 (fmul nm1 c3)
  | PLANE_Y, _ :: _ :: _ :: c3 :: _ => gq n0 n0 n0 n0 n0 n0 n0 n1 n0 (fmul nm1 c3)
  | PLANE_Z, _ :: _ :: _ :: c3 :: _ => gq n0 n0 n0 n0 n0 n0 n0 n0 n1 (fmul nm1 c3)
  | PLANE_GENERAL, c0 :: c1 :: c2 :: c3 :: _ => gq n0 n0 n0 n0 n0 n0 c0 c1 c2 (fmul nm1 c3)
  | SPHERE_GENERAL, c0 :: c1 :: c2 :: c3 :: _ =>
      match fsquare c0, fsquare c1, fsquare c2, fsquare c3 with
      | Some q0, Some q1, Some q2, Some q3 => gq n1 n1 n1 n0 n0 n0 (fmul nm2 c0) (fmul nm2 c1) (fmul nm2 c2) (fsub (fadd (fadd q0 q1) q2) q3)
      | _, _, _, _ => None
      end
  | CYLINDER_X, c0 :: c1 :: c2 :: _ =>
      match fsquare c0, fsquare c1, fsquare c2 with
      | Some q0, Some q1, Some q2 => gq n0 n1 n1 n0 n0 n0 n0 (fmul nm2 c0) (fmul nm2 c1) (fsub (fadd q0 q1) q2)
      | _, _, _ => None
      end
  | CYLINDER_Y, c0 :: c1 :: c2 :: _ =>
      match fsquare c0, fsquare c1, fsquare c2 with
      | Some q0, Some q1, Some q2 => gq n1 n0 n1 n0 n0 n0 (fmul nm2 c0) n0 (fmul nm2 c1) (fsub (fadd q0 q1) q2)
      | _, _, _ => None
      end
  | CYLINDER_Z, c0 :: c1 :: c2 :: _ =>
      match fsquare c0, fsquare c1, fsquare c2 with
      | Some q0, Some q1, Some q2 => gq n1 n1 n0 n0 n0 n0 (fmul nm2 c0) (fmul nm2 c1) n0 (fsub (fadd q0 q1) q2)
      | _, _, _ => None
      end
  | CONE_X, c0 :: c1 :: c2 :: c3 :: _ =>
      match fsquare c0, fsquare c1, fsquare c2 with
      | Some q0, Some q1, Some q2 =>
          gq (fmul nm1 c3) n1 n1 n0 n0 n0 (fmul (fmul n2 c0) c3) (fmul nm2 c1) (fmul nm2 c2) (fadd (fadd (fmul (fopp c3) q0) q1) q2)
      | _, _, _ => None
      end
  | CONE_Y, c0 :: c1 :: c2 :: c3 :: _ =>
      match fsquare c0, fsquare c1, fsquare c2 with
      | Some q0, Some q1, Some q2 =>
          gq n1 (fmul nm1 c3) n1 n0 n0 n0 (fmul nm2 c0) (fmul (fmul n2 c1) c3) (fmul nm2 c2) (fadd (fsub q0 (fmul c3 q1)) q2)
      | _, _, _ => None
      end
  | CONE_Z, c0 :: c1 :: c2 :: c3 :: _ =>
      match fsquare c0, fsquare c1, fsquare c2 with
      | Some q0, Some q1, Some q2 =>
          gq n1 n1 (fmul nm1 c3) n0 n0 n0 (fmul nm2 c0) (fmul nm2 c1) (fmul (fmul n2 c2) c3) (fsub (fadd q0 q1) (fmul q2 c3))
      | _, _, _ => None
      end
  | GENERAL_QUADRATIC, a :: b :: c :: d :: e :: f :: g :: h :: j :: k :: _ => gq a b c d e f g h j k
  | (TORUS_X | TORUS_Y | TORUS_Z), _ => Some s
  | (MACRO_RPP | MACRO_BOX | MACRO_RCC | UNSET), _ => gq n0 n0 n0 n0 n0 n0 n0 n0 n0 n0
  | _, _ => None
  end.

(** SurfaceCard.py 77-103, [diff] with [both]: same surface, and same but for the side. *)
Definition fcompare (s t : fsurf) : option (bool * bool) :=
  match fgeneral s, fgeneral t with
  | Some a, Some b =>
      Some (if negb (stype_beq (f_type b) (f_type a)) then (false, false)
            else if same_list (f_coef b) (f_coef a) then (true, false)
            else if same_list (freverse (f_coef b)) (f_coef a) then (true, true) else (false, false))
  | _, _ => None
  end.
