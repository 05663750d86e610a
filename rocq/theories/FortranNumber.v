(** Model of [get_fortran_formatted_number] (csg2csg/MCNPFormatter.py 15-30) and
    of the part of Python's [float()] on strings it relies on. *)
From Coq Require Import QArith Qpower.
From Verif Require Import PyStr.
Open Scope list_scope.

(** Longest prefix of digits and the rest (part of Python's [float()]). *)
Fixpoint take_digits (s : text) : text * text :=
  match s with
  | c :: r => if is_digit c then let (d, t) := take_digits r in (c :: d, t) else ([], s)
  | [] => ([], [])
  end.

(** An optional sign: [true] means minus (part of Python's [float()]). *)
Definition take_sign (s : text) : bool * text :=
  match s with
  | c :: r => if Ascii.eqb c "-" then (true, r) else if Ascii.eqb c "+" then (false, r) else (false, s)
  | [] => (false, [])
  end.

Definition signed (neg : bool) (z : Z) : Z := if neg then Z.opp z else z.

(** An optional exponent, which must end the text (part of Python's [float()]). *)
Definition parse_exponent (s : text) : option Z :=
  match s with
  | [] => Some 0%Z
  | c :: r =>
      if Ascii.eqb c "e" || Ascii.eqb c "E" then
        let (neg, r1) := take_sign r in
        let (d, r2) := take_digits r1 in
        match d, r2 with
        | _ :: _, [] => Some (signed neg (digits_val d))
        | _, _ => None
        end
      else None
  end.

(** Python [float(s)] for decimal literals; [None] is a [ValueError].
    Simplifications: the value is the exact rational rather than the nearest
    binary64 number; [inf], [nan], underscores and surrounding white space are
    answered with [None]. *)
Definition py_float (s : text) : option Q :=
  let (neg, s1) := take_sign s in
  let (ip, s2) := take_digits s1 in
  let (fp, s3) := match s2 with
                  | c :: r => if Ascii.eqb c "." then take_digits r else ([], s2)
                  | [] => ([], [])
                  end in
  match ip ++ fp with
  | [] => None
  | ds =>
      match parse_exponent s3 with
      | None => None
      | Some e =>
          Some (inject_Z (signed neg (digits_val ds)) * Qpower 10 (e - Z.of_nat (length fp)))%Q
      end
  end.

(** MCNPFormatter.py 23: the test for one of e-, e+, e in the lower-cased piece
    amounts to the presence of the letter e in it. *)
Definition has_e (s : text) : bool := existsb (Ascii.eqb "e"%char) (lower s).

(** MCNPFormatter.py 15-30, [get_fortran_formatted_number]. *)
Definition get_fortran_formatted_number (s : text) : option Q :=
  match split_on "."%char s with
  | w0 :: w1 :: _ =>
      if has_e w1 then py_float s
      else
        let w1' := replace_char "+"%char (T "e+") (replace_char "-"%char (T "e-") w1) in
        py_float (w0 ++ "."%char :: w1')
  | _ => py_float s
  end.
