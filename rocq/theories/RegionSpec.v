(** Specification (not a model of any code): what a region expression means.

    An expression is a list of tokens.  Complement binds tightest, juxtaposition is
    intersection, ":" is union; this is the convention of MCNP, Serpent, OpenMC,
    SCONE and (with other characters) FLUKA, whose lexers are specified elsewhere. *)
From Verif Require Import PyStr.

(** Tokens.  An atom is any word: a signed surface number such as -12, a facet
    such as 3.2, or a cell complement such as #7. *)
Inductive rtok :=
| TUnion
| TNot
| TOpen
| TClose
| TAtom (w : text).

Inductive region :=
| RAtom (w : text)
| RAnd (a b : region)
| ROr (a b : region)
| RNot (a : region).

(** Truth of a region when [env] says which atoms hold at the point considered. *)
Fixpoint holds (env : text -> bool) (r : region) : bool :=
  match r with
  | RAtom w => env w
  | RAnd a b => holds env a && holds env b
  | ROr a b => holds env a || holds env b
  | RNot a => negb (holds env a)
  end.

(** The grammar, relating a token list to the region it denotes. *)
Inductive expr : list rtok -> region -> Prop :=
| expr_term ts r : term ts r -> expr ts r
| expr_or ts1 r1 ts2 r2 :
    expr ts1 r1 -> term ts2 r2 -> expr (ts1 ++ TUnion :: ts2) (ROr r1 r2)
with term : list rtok -> region -> Prop :=
| term_factor ts r : factor ts r -> term ts r
| term_and ts1 r1 ts2 r2 :
    term ts1 r1 -> factor ts2 r2 -> term (ts1 ++ ts2) (RAnd r1 r2)
with factor : list rtok -> region -> Prop :=
| factor_atom w : factor [TAtom w] (RAtom w)
| factor_paren ts r : expr ts r -> factor (TOpen :: ts ++ [TClose]) r
| factor_not ts r : expr ts r -> factor (TNot :: TOpen :: ts ++ [TClose]) (RNot r).

Scheme expr_ind3 := Induction for expr Sort Prop
  with term_ind3 := Induction for term Sort Prop
  with factor_ind3 := Induction for factor Sort Prop.
Combined Scheme region_mutind from expr_ind3, term_ind3, factor_ind3.

(** [ts] is well formed. *)
Definition well_formed (ts : list rtok) : Prop := exists r, expr ts r.

(** Two token lists denote the same region: both are well formed or neither is,
    and whatever the truth of the atoms, they agree. *)
Definition same_region (ts1 ts2 : list rtok) : Prop :=
  (forall r1, expr ts1 r1 -> exists r2, expr ts2 r2 /\ forall env, holds env r1 = holds env r2) /\
  (forall r2, expr ts2 r2 -> exists r1, expr ts1 r1 /\ forall env, holds env r1 = holds env r2).

(** Truth of atoms at a point, from the sense of surfaces ([true] = positive side)
    and membership of cells. *)
Definition atom_env (sense incell : text -> bool) (w : text) : bool :=
  match w with
  | c :: n =>
      if Ascii.eqb c "#" then negb (incell n)
      else if Ascii.eqb c "-" then negb (sense n)
      else sense w
  | [] => sense w
  end.

(** Characters that delimit words inside MCNP cell geometry. *)
Definition is_delim (c : ascii) : bool :=
  Ascii.eqb c "(" || Ascii.eqb c ")" || Ascii.eqb c ":" || Ascii.eqb c "#".

Definition delim_tok (c : ascii) : rtok :=
  if Ascii.eqb c "(" then TOpen else if Ascii.eqb c ")" then TClose
  else if Ascii.eqb c ":" then TUnion else TNot.

(** Tokens of a text, MCNP convention: white space separates; parentheses, colon
    and hash are delimiters; a hash directly followed by a digit starts a cell
    complement; plus signs are redundant.  [cur] holds, reversed, the word being
    read. *)
Definition flush (cur : text) : list rtok :=
  match cur with [] => [] | _ => [TAtom (rev cur)] end.

Fixpoint lex (s cur : text) : list rtok :=
  match s with
  | [] => flush cur
  | c :: r =>
      if is_space c then flush cur ++ lex r []
      else if Ascii.eqb c "+" then lex r cur
      else if Ascii.eqb c "#" then
        match r with
        | d :: _ => if is_digit d then flush cur ++ lex r [c]
                    else flush cur ++ TNot :: lex r []
        | [] => flush cur ++ [TNot]
        end
      else if is_delim c then flush cur ++ delim_tok c :: lex r []
      else lex r (c :: cur)
  end.

Definition mcnp_lex (s : text) : list rtok := lex s [].
