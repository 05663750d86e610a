(** Python [int(str)] and [str(int)]. *)
From Verif Require Import PyStr FortranNumber.

(** Python [int(s)] on decimal literals with optional sign; [None] is a
    [ValueError].  Simplification: underscores and surrounding white space are
    rejected (tokens come from [str.split()]). *)
Definition py_int (s : text) : option Z :=
  let (neg, d) := take_sign s in
  match d with
  | [] => None
  | _ => if forallb is_digit d then Some (signed neg (digits_val d)) else None
  end.

Definition digit_char (n : N) : ascii := ascii_of_N (48 + n).

(** Decimal digits of a natural number, enough fuel given. *)
Fixpoint dec_digits (fuel : nat) (n : N) : text :=
  match fuel with
  | O => []
  | S f => if (n <? 10)%N then [digit_char n]
           else dec_digits f (n / 10) ++ [digit_char (n mod 10)]
  end.

Definition str_N (n : N) : text := dec_digits (S (N.to_nat (N.log2 n))) n.

(** Python [str(z)] for an integer. *)
Definition str_Z (z : Z) : text :=
  if (z <? 0)%Z then "-"%char :: str_N (Z.to_N (- z)) else str_N (Z.to_N z).
