(** Writing surfaces for FLUKA: csg2csg/FLUKASurfaceCard.py.

    As in SurfWriters.v the coefficients are real numbers and Python's [str] on them is a parameter.  The box is
    the attribute b_box of the surface (MCNPInput.py 1060-1078, [cone_box]).  Simplification: a number held as a
    Python integer is printed like the float. *)
From Coq Require Import Reals.
From Verif Require Import PyStr PyInt SurfModel SurfWriters.
Open Scope list_scope.
Open Scope R_scope.

Section Fluka.
Context (str : R -> text).

(** Each number followed by a blank. *)
Definition each (l : list R) : text := flat_map (fun x => str x ++ T " ") l.

(** FLUKASurfaceCard.py 9-28; [None] is a ZeroDivisionError. *)
Definition fluka_plane (id : Z) (a b c d : R) : option text :=
  let mag := a ^ 2 + b ^ 2 + c ^ 2 in
  if Req_EM_T mag 0 then None
  else
    let v := a * 0 + b * 0 + c * 0 + d in
    Some (T "PLA S" ++ str_Z id ++ T " " ++ each [a; b; c; a * v / mag; b * v / mag; c * v / mag] ++ nl).

(** FLUKASurfaceCard.py 129-162: the order of the mixed terms is changed. *)
Definition fluka_gq (id : Z) (l : list R) : option text :=
  match l with
  | a :: b :: c :: d :: e :: f :: g :: h :: j :: k :: _ =>
      Some (T "QUA S" ++ str_Z id ++ flat_map (fun x => T " " ++ str x ++ T " ") [a; b; c; d; f; e; g; h; j; k] ++ nl)
  | _ => None
  end.

(** FLUKASurfaceCard.py 166-338: the base and the height of a half cone with apex [apex] on its axis.
    [None]: the variables are not set for other values of the sheet (for x they are 0, [first_axis]). *)
Definition half_cone_base (first_axis : bool) (sheet lo hi apex : R) : option (R * R) :=
  if Req_EM_T sheet (-1) then Some (lo, Rabs lo + apex)
  else if Req_EM_T sheet 1 then Some (hi, -1 * (hi - apex))
  else if first_axis then Some (0, 0) else None.

(** FLUKASurfaceCard.py 191-211, 252-270, 311-328: the coefficients that replace those of a whole cone. *)
Definition cone_coefficients (t : stype) (x y z t2 : R) : list R :=
  match t with
  | CONE_X => [t2; 1; 1; 0; 0; 0; -2 * t2 * x; -2 * y; -2 * z; t2 * x ^ 2 + y ^ 2 + z ^ 2]
  | CONE_Y => [1; t2; 1; 0; 0; 0; -2 * x; -2 * t2 * y; -2 * z; x ^ 2 + t2 * y ^ 2 + z ^ 2]
  | _ => [1; 1; t2; 0; 0; 0; -2 * x; -2 * y; -2 * t2 * z; x ^ 2 + y ^ 2 + t2 * z ^ 2]
  end.

(** FLUKASurfaceCard.py 164-338: the line for a cone and the coefficients the surface has afterwards.
    [None] is an IndexError, UnboundLocalError or the ValueError of [sqrt]. *)
Definition fluka_cone (t : stype) (id : Z) (box l : list R) : option (text * list R) :=
  match l, box with
  | x :: y :: z :: t2 :: sheet :: _, [x0; x1; y0; y1; z0; z1] =>
      if Req_EM_T sheet 0 then
        let l' := cone_coefficients t x y z t2 in
        match fluka_gq id l' with Some s => Some (s, l') | None => None end
      else
        let '(first, lo, hi, apex) :=
          match t with CONE_X => (true, x0, x1, x) | CONE_Y => (false, y0, y1, y) | _ => (false, z0, z1, z) end in
        match half_cone_base first sheet lo hi apex with
        | None => None
        | Some (base, h) =>
            if Rlt_dec t2 0 then None
            else
              let r := Rabs h * sqrt t2 in
              let head := T "TRC S" ++ str_Z id ++ T " " in
              Some (match t with
                    | CONE_X => head ++ each [base; y; z; h] ++ T "0. 0. " ++ str r ++ T " 0.0" ++ nl
                    | CONE_Y => head ++ each [x; base; z] ++ T "0. " ++ str h ++ T " 0. " ++ str r ++ T " 0.0" ++ nl
                    | _ => head ++ each [x; y; base] ++ T "0. 0. " ++ str h ++ T " " ++ str r ++ T " 0.0" ++ nl
                    end, l)
        end
  | _, _ => None
  end.

(** FLUKASurfaceCard.py 377-434, [write_fluka_surface], with the functions of 30-125 (planes, cylinders, spheres) and 345-373 (tori)
    written out: the text written and the surface afterwards. *)
Definition write_fluka_surface (box : list R) (s : surface) : option (text * surface) :=
  let same := option_map (fun t : text => (t, s)) in
  let id := s_id s in
  match s_type s, s_coef s with
  | PLANE_GENERAL, a :: b :: c :: d :: _ => same (fluka_plane id a b c d)
  | PLANE_X, _ :: _ :: _ :: d :: _ => same (Some (T "YZP S" ++ str_Z id ++ T " " ++ str d ++ nl))
  | PLANE_Y, _ :: _ :: _ :: d :: _ => same (Some (T "XZP S" ++ str_Z id ++ T " " ++ str d ++ nl))
  | PLANE_Z, _ :: _ :: _ :: d :: _ => same (Some (T "XYP S" ++ str_Z id ++ T " " ++ str d ++ nl))
  | CYLINDER_X, a :: b :: c :: _ => same (Some (T "XCC S" ++ str_Z id ++ T " " ++ each [a; b; c] ++ nl))
  | CYLINDER_Y, a :: b :: c :: _ => same (Some (T "YCC S" ++ str_Z id ++ T " " ++ each [b; a; c] ++ nl))
  | CYLINDER_Z, a :: b :: c :: _ => same (Some (T "ZCC S" ++ str_Z id ++ T " " ++ each [a; b; c] ++ nl))
  | SPHERE_GENERAL, a :: b :: c :: d :: _ => same (Some (T "SPH S" ++ str_Z id ++ T " " ++ each [a; b; c] ++ str d ++ nl))
  | (CONE_X | CONE_Y | CONE_Z), l =>
      match fluka_cone (s_type s) id box l with
      | Some (t, l') => Some (t, mkS id (s_tr s) (s_type s) l' (s_bc s))
      | None => None
      end
  | TORUS_X, _ => same (Some (T "* Surface TORUS_X not supported" ++ nl))
  | TORUS_Y, _ => same (Some (T "* Surface TORUS_Y not supported" ++ nl))
  | TORUS_Z, _ => same (Some (T "* Surface TORUS_Z not supported" ++ nl))
  | GENERAL_QUADRATIC, l => same (fluka_gq id l)
  | (UNSET | MACRO_RPP | MACRO_BOX | MACRO_RCC), _ => same (Some (T "surface not supported" ++ nl))
  | _, _ => None
  end.

End Fluka.
