(** Python's formatting of numbers in scientific notation and of padded fields, as used by
    csg2csg/FLUKAInput.py 281-296, FLUKAMaterialCard.py 15-89 and SCONEMaterialCard.py 26. *)
From Coq Require Import QArith Qpower Qround Qabs.
From Verif Require Import PyStr PyInt.
Open Scope nat_scope.
Open Scope list_scope.

(** ["{:>w}".format(s)] and ["{:<w}".format(s)]: padded with blanks, never cut (FLUKAMaterialCard.py 59-66). *)
Definition pad_left (w : nat) (s : text) : text := repeat blank (w - length s) ++ s.
Definition pad_right (w : nat) (s : text) : text := s ++ repeat blank (w - length s).

(** The last [k] decimal digits of [n]. *)
Fixpoint fix_digits (k : nat) (n : N) : text :=
  match k with
  | O => []
  | S k' => fix_digits k' (n / 10) ++ [digit_char (n mod 10)]
  end.

(** Number of decimal digits. *)
Definition ndig (n : N) : Z := Z.of_nat (length (str_N n)).

(** Nearest integer, ties to even. *)
Definition nearest_Q (y : Q) : Z :=
  let n := Qfloor y in
  match (y - inject_Z n ?= 1 # 2)%Q with
  | Lt => n
  | Gt => (n + 1)%Z
  | Eq => if Z.even n then n else (n + 1)%Z
  end.

(** The decimal exponent of a number that is not zero. *)
Definition expo10 (q : Q) : Z :=
  let e := (ndig (Z.abs_N (Qnum q)) - ndig (Npos (Qden q)))%Z in
  if Qle_bool (10 ^ e) (Qabs q) then e else (e - 1)%Z.

(** Digits and exponent printed by ["{:.de}"] (SCONEMaterialCard.py 26: d = 6; FLUKAMaterialCard.py 63: d = 3;
    FLUKAInput.py 291: d = 4): the number is about m * 10^(e-d). *)
Definition sci (d : nat) (q : Q) : N * Z :=
  if Qeq_bool q 0 then (0%N, 0%Z)
  else
    let e := expo10 q in
    let m := Z.to_N (nearest_Q (Qabs q * 10 ^ (Z.of_nat d - e))) in
    if (10 ^ N.of_nat (S d) <=? m)%N then (10 ^ N.of_nat d, (e + 1)%Z)%N else (m, e).

(** The exponent has at least two digits. *)
Definition exp_digits (n : N) : text := if (n <? 10)%N then "0"%char :: str_N n else str_N n.

Definition sci_text (d : nat) (m : N) (e : Z) : text :=
  fix_digits 1 (m / 10 ^ N.of_nat d) ++ T "." ++ fix_digits d m ++ T "e" ++ (if (e <? 0)%Z then T "-" else T "+") ++ exp_digits (Z.abs_N e).

(** ["{:.de}".format(q)].  Simplification: no negative zero, infinity or nan; [q] is the exact value; [d] is positive. *)
Definition fmt_e (d : nat) (q : Q) : text :=
  let (m, e) := sci d q in
  (if Qle_bool 0 q then [] else T "-") ++ sci_text d m e.

(** ["{: .de}".format(q)]: a blank in place of the plus sign. *)
Definition fmt_e_sp (d : nat) (q : Q) : text :=
  let (m, e) := sci d q in
  (if Qle_bool 0 q then T " " else T "-") ++ sci_text d m e.

(** The number that [fmt_e] shows. *)
Definition sci_value (d : nat) (q : Q) : Q :=
  let (m, e) := sci d q in
  ((if Qle_bool 0 q then 1 else - 1) * (inject_Z (Z.of_N m) * 10 ^ (e - Z.of_nat d)))%Q.

Example fmt_ex : fmt_e 3 (1 # 3) = T "3.333e-01" /\ fmt_e 4 (99999 # 1) = T "9.9999e+04" /\ fmt_e 3 (99999 # 1) = T "1.000e+05"
  /\ fmt_e 3 (25 # 10000000) = T "2.500e-06" /\ fmt_e_sp 3 (-12345 # 1) = T "-1.234e+04" /\ fmt_e_sp 3 0 = T " 0.000e+00".
Proof. vm_compute. repeat split. Qed.
