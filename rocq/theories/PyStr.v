(** Text and the Python string operations the code base uses.

    A Python [str] is modelled as a list of characters below 256 (Latin-1).
    Simplification: characters above 255 are not representable. *)
From Coq Require Export Ascii String List ZArith NArith Bool Arith Lia.
Export ListNotations.
Open Scope list_scope.

(** A Python string. *)
Definition text := list ascii.

(** String literals as text. *)
Definition T (s : string) : text := list_ascii_of_string s.

(** The characters for which Python's [str.isspace] holds, restricted to codes
    below 256: 9-13, 28-32, 133, 160.  Used by [str.split()], [str.isspace()]
    and [str.strip()] (e.g. MCNPFormatter.py 47, 60; MCNPCellCard.py 74, 328). *)
Definition is_space (c : ascii) : bool :=
  let n := N_of_ascii c in
  ((9 <=? n) && (n <=? 13) || (28 <=? n) && (n <=? 32) || (n =? 133) || (n =? 160))%N.

(** Python [str.split()] with no argument: maximal runs of non-space characters
    (e.g. MCNPCellCard.py 293, MCNPMaterialCard.py 38). *)
Fixpoint words (s : text) : list text :=
  match s with
  | [] => []
  | c :: r =>
      if is_space c then words r
      else match r with
           | [] => [[c]]
           | d :: _ =>
               if is_space d then [c] :: words r
               else match words r with
                    | w :: ws => (c :: w) :: ws
                    | [] => [[c]]
                    end
           end
  end.

(** Python [str.isspace()]: non-empty and all characters are white space. *)
Definition isspace (s : text) : bool :=
  match s with [] => false | _ => forallb is_space s end.

(** Python slice [s[:k]] for an integer [k] (negative counts from the end). *)
Definition slice_to (s : text) (k : Z) : text :=
  if (k <? 0)%Z then firstn (length s - Z.to_nat (- k)) s else firstn (Z.to_nat k) s.

(** Python slice [s[k:]] for an integer [k]. *)
Definition slice_from (s : text) (k : Z) : text :=
  if (k <? 0)%Z then skipn (length s - Z.to_nat (- k)) s else skipn (Z.to_nat k) s.

(** Python [s.rfind(c)] for a one-character string: last index or -1. *)
Fixpoint rfind (c : ascii) (s : text) : Z :=
  match s with
  | [] => -1
  | d :: r =>
      let p := rfind c r in
      if (p <? 0)%Z then (if Ascii.eqb c d then 0 else -1)%Z else (p + 1)%Z
  end.

(** Python [s.find(c)] for a one-character string: first index or -1. *)
Fixpoint find (c : ascii) (s : text) : Z :=
  match s with
  | [] => -1
  | d :: r => if Ascii.eqb c d then 0%Z
              else let p := find c r in if (p <? 0)%Z then (-1)%Z else (p + 1)%Z
  end.

(** Python [s.split(c)] for a one-character separator. *)
Fixpoint split_on (c : ascii) (s : text) : list text :=
  match s with
  | [] => [[]]
  | d :: r =>
      if Ascii.eqb c d then [] :: split_on c r
      else match split_on c r with
           | w :: ws => (d :: w) :: ws
           | [] => [[d]]
           end
  end.

(** Python [s.replace(c, t)] for a one-character pattern. *)
Definition replace_char (c : ascii) (t : text) (s : text) : text :=
  flat_map (fun d => if Ascii.eqb c d then t else [d]) s.

(** Python [s.lower()] on ASCII letters.  Simplification: letters above 127 are
    left alone. *)
Definition lower_char (c : ascii) : ascii :=
  let n := N_of_ascii c in
  if ((65 <=? n) && (n <=? 90))%N then ascii_of_N (n + 32) else c.

Definition lower (s : text) : text := map lower_char s.

(** Python [s.lstrip()], [s.rstrip()], [s.strip()]. *)
Fixpoint lstrip (s : text) : text :=
  match s with
  | c :: r => if is_space c then lstrip r else s
  | [] => []
  end.

Definition rstrip (s : text) : text := rev (lstrip (rev s)).
Definition strip (s : text) : text := rstrip (lstrip s).

(** The physical lines of a text: what lies between newline characters. *)
Definition newline : ascii := "010"%char.
Definition blank : ascii := " "%char.
Definition text_lines (s : text) : list text := split_on newline s.

(** Equality test on texts. *)
Fixpoint text_eqb (a b : text) : bool :=
  match a, b with
  | [], [] => true
  | x :: a', y :: b' => Ascii.eqb x y && text_eqb a' b'
  | _, _ => false
  end.

(** Decimal digits. *)
Definition is_digit (c : ascii) : bool :=
  let n := N_of_ascii c in ((48 <=? n) && (n <=? 57))%N.

Definition digit_val (c : ascii) : Z := (Z.of_N (N_of_ascii c) - 48)%Z.

(** Value of a string of digits, most significant first. *)
Definition digits_val (s : text) : Z :=
  fold_left (fun acc c => acc * 10 + digit_val c)%Z s 0%Z.
