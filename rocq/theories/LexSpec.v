(** Specification: how the target codes split a region expression into tokens. *)
From Verif Require Import PyStr RegionSpec.

(** White space separates words; the characters in the domain of [d] are tokens. *)
Fixpoint glex (d : ascii -> option rtok) (s cur : text) : list rtok :=
  match s with
  | [] => flush cur
  | c :: r =>
      if is_space c then flush cur ++ glex d r []
      else match d c with
           | Some t => flush cur ++ t :: glex d r []
           | None => glex d r (c :: cur)
           end
  end.

(** Serpent: ( ) : # *)
Definition serpent_delim (c : ascii) : option rtok :=
  if Ascii.eqb c "(" then Some TOpen else if Ascii.eqb c ")" then Some TClose
  else if Ascii.eqb c ":" then Some TUnion else if Ascii.eqb c "#" then Some TNot else None.

(** OpenMC: ( ) | ~ *)
Definition openmc_delim (c : ascii) : option rtok :=
  if Ascii.eqb c "(" then Some TOpen else if Ascii.eqb c ")" then Some TClose
  else if Ascii.eqb c "|" then Some TUnion else if Ascii.eqb c "~" then Some TNot else None.

(** SCONE: < > : # *)
Definition scone_delim (c : ascii) : option rtok :=
  if Ascii.eqb c "<" then Some TOpen else if Ascii.eqb c ">" then Some TClose
  else if Ascii.eqb c ":" then Some TUnion else if Ascii.eqb c "#" then Some TNot else None.

(** FLUKA: ( ) | are tokens of their own; a sign in front of an opening
    parenthesis says whether the group is intersected (+) or subtracted (-). *)
Definition fluka_delim (c : ascii) : option rtok :=
  if Ascii.eqb c "(" then Some TOpen else if Ascii.eqb c ")" then Some TClose
  else if Ascii.eqb c "|" then Some TUnion else None.

Fixpoint fluka_signs (ts : list rtok) : list rtok :=
  match ts with
  | TAtom w :: r =>
      match r with
      | TOpen :: _ =>
          if text_eqb w (T "+") then fluka_signs r
          else if text_eqb w (T "-") then TNot :: fluka_signs r
          else TAtom w :: fluka_signs r
      | _ => TAtom w :: fluka_signs r
      end
  | t :: r => t :: fluka_signs r
  | [] => []
  end.

Definition fluka_lex (s : text) : list rtok := fluka_signs (glex fluka_delim s []).

(** FLUKA: +B is the inside of body B, -B its outside. *)
Definition fluka_env (inside : text -> bool) (w : text) : bool :=
  match w with
  | c :: n => if Ascii.eqb c "-" then negb (inside n) else inside n
  | [] => false
  end.
