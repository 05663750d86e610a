(** Model of the keywords of a cell card: csg2csg/MCNPCellCard.py 194-286 and 335-367. *)
From Coq Require Import QArith.
From Verif Require Import PyStr FortranNumber CellWriters FlattenModel.
Open Scope nat_scope.
Open Scope list_scope.

(** Python [s.find(p)] for a text [p] that is not empty; [None] is -1. *)
Fixpoint find_sub (p s : text) : option nat :=
  match after p s with
  | Some _ => Some 0
  | None => match s with [] => None | _ :: r => option_map S (find_sub p r) end
  end.
Definition contains (p s : text) : bool := match find_sub p s with Some _ => true | None => false end.

(** A number in the rotation of a fill: a text of the card, or the cosine of an angle in degrees (MCNPCellCard.py
    361-363). *)
Inductive rotval := RText (t : text) | RCos (q : Q).

(** What the keywords set (CellCard.py 29-38); [None] for universe, fill, offset and rotation is the Python value 0. *)
Record keywords := mkK {
  k_univ : option text;
  k_fill : option text;
  k_imp : Q;
  k_trid : text;
  k_offset : option (text * text * text);
  k_rot : option (list rotval) }.
(** CellCard.py 29-38, the values before the card is read. *)
Definition no_keywords : keywords := mkK None None 1 (T "0") None None.

(** The number in the regular expression of MCNPCellCard.py 198-200: a sign, digits, and a point with digits, each of
    which may be missing. *)
Definition lead_sign (s : text) : text * text :=
  match s with
  | c :: r => if Ascii.eqb c "+" || Ascii.eqb c "-" then ([c], r) else ([], s)
  | [] => ([], [])
  end.
Definition take_number (s : text) : text :=
  let (sg, r) := lead_sign s in
  let (d, r2) := take_digits r in
  sg ++ d ++ match r2 with
             | c :: r3 => if Ascii.eqb c "." then match take_digits r3 with (x :: f, _) => c :: x :: f | _ => [] end else []
             | [] => [] end.

(** MCNPCellCard.py 198-200: what the regular expression matches at the beginning of a text: the keyword, a blank or
    none, the equals sign, a blank or none, and the number.  Before the number there must be a character that is not a
    line end; if there is none after the blank, the blank itself is that character. *)
Definition kw_match (kw s : text) : option text :=
  match after kw s with
  | None => None
  | Some r =>
      let (b1, r1) := match r with c :: x => if Ascii.eqb c blank then ([c], x) else ([], r) | [] => ([], []) end in
      match r1 with
      | e :: r2 =>
          if Ascii.eqb e "=" then
            match r2 with
            | c :: r3 =>
                if Ascii.eqb c blank then
                  match r3 with
                  | d :: _ => if Ascii.eqb d newline then Some (kw ++ b1 ++ [e])
                              else Some (kw ++ b1 ++ [e; c] ++ take_number r3)
                  | [] => Some (kw ++ b1 ++ [e])
                  end
                else if Ascii.eqb c newline then None
                else Some (kw ++ b1 ++ [e] ++ take_number r2)
            | [] => None
            end
          else None
      | [] => None
      end
  end.

(** [regex.search]: the first place where the expression matches. *)
Fixpoint kw_search (kw s : text) : option text :=
  match kw_match kw s with
  | Some t => Some t
  | None => match s with [] => None | _ :: r => kw_search kw r end
  end.

(** MCNPCellCard.py 196-202, [__get_keyword_value]; [None] is the TypeError of [None[0]] or an IndexError. *)
Definition get_keyword_value (kw s : text) : option text :=
  match kw_search kw s with Some t => nth_error (split_on blank t) 2 | None => None end.

(** MCNPCellCard.py 204-212, [__extract_string_between]. *)
Definition extract_between (s : text) (a b : ascii) : text :=
  let p1 := (find a s + 1)%Z in
  let p2 := find b s in
  join_sp (words (slice_from (slice_to s p2) p1)).

(** MCNPCellCard.py 362: every angle becomes its cosine; [None] is a ValueError. *)
Definition rot_values (degrees : bool) (ts : list text) : option (list rotval) :=
  if degrees then mapM (fun t => option_map RCos (py_float t)) ts else Some (map RText ts).

(** MCNPCellCard.py 337-367, [__set_universe_transform]. *)
Definition set_universe_transform (k : keywords) (tr : text) (degrees : bool) : option keywords :=
  match words tr with
  | [t] => Some (mkK (k_univ k) (k_fill k) (k_imp k) t (k_offset k) (k_rot k))
  | a :: b :: c :: r =>
      if 9 <=? length r then
        match rot_values degrees (firstn 9 r) with
        | Some v => Some (mkK (k_univ k) (k_fill k) (k_imp k) (k_trid k) (Some (a, b, c)) (Some v))
        | None => None
        end
      else Some (mkK (k_univ k) (k_fill k) (k_imp k) (k_trid k) (Some (a, b, c)) (k_rot k))
  | _ => Some k
  end.

(** MCNPCellCard.py 14. *)
Definition cell_keywords : list text := [T "imp"; T "u"; T "fill"; T "vol"; T "tmp"].

(** MCNPCellCard.py 245-248: the first of the positions that are greater than 0; [None] is the ValueError of [min]. *)
Fixpoint first_position (l : list (option nat)) : option nat :=
  match l with
  | [] => None
  | p :: r =>
      match p, first_position r with
      | Some (S n), Some m => Some (Nat.min (S n) m)
      | Some (S n), None => Some (S n)
      | _, m => m
      end
  end.

(** MCNPCellCard.py 252-255: blanks around the equals signs. *)
Definition spacify (s : text) : text := halve (replace_char "=" (T "= ") (replace_char "=" (T " =") s)) ++ [blank].

(** MCNPCellCard.py 215-286, [__detect_keywords]: the fields, and the card before the keywords. *)
Definition detect_keywords (k : keywords) (s : text) : option (keywords * text) :=
  if negb (existsb (fun w => contains w s) cell_keywords) then Some (k, s)
  else
    let s := match find_sub (T "$") s with Some n => firstn n s | None => s end in
    let posu := find_sub (T "u") s in
    let star := contains (T "*fill") s in
    let posf := match find_sub (T "fill") s with
                | Some n => if star then match n with S m => Some m | 0 => None end else Some n
                | None => None end in
    let posi := find_sub (T "imp") s in
    let posv := find_sub (T "vol") s in
    let post := find_sub (T "tmp") s in
    match posu, posf, posi, posv, post with
    | None, None, None, None, None => Some (k, s)
    | _, _, _, _, _ =>
        match first_position [posu; posf; posi; posv; post] with
        | None => None
        | Some m =>
            let e := spacify (skipn m s) in
            match (match posu with None => Some None | Some _ => option_map Some (get_keyword_value (T "u") e) end) with
            | None => None
            | Some univ =>
                let filled :=
                  match posf with
                  | None => Some (mkK univ None (k_imp k) (k_trid k) (k_offset k) (k_rot k))
                  | Some f =>
                      match get_keyword_value (T "fill") e with
                      | None => None
                      | Some v =>
                          let t := skipn f s in
                          set_universe_transform (mkK univ (Some (strip v)) (k_imp k) (k_trid k) (k_offset k) (k_rot k))
                            (if contains (T "(") t then extract_between t "(" ")" else T "0") star
                      end
                  end in
                match filled with
                | None => None
                | Some k2 =>
                    let imp := match posi with
                               | None => Some 1%Q
                               | Some _ => match get_keyword_value (T "imp:n") e with
                                           | Some v => py_float v
                                           | None => None end
                               end in
                    match imp with
                    | None => None
                    | Some q => Some (mkK (k_univ k2) (k_fill k2) q (k_trid k2) (k_offset k2) (k_rot k2), firstn m s)
                    end
                end
            end
        end
    end.

Example keyword_ex :
  detect_keywords no_keywords (T "12 3 -1.5 -1 2 u=5 imp:n=2.5 *fill=7 (1 0 0 0 90 90 90 0 90 90 90 0) vol=3 ") =
    Some (mkK (Some (T "5")) (Some (T "7")) (25 # 10) (T "0") (Some (T "1", T "0", T "0"))
            (Some (map RCos [0; 90; 90; 90; 0; 90; 90; 90; 0]%Q)), T "12 3 -1.5 -1 2 ") /\
  detect_keywords no_keywords (T "12 3 -1.5 -1 2") = Some (no_keywords, T "12 3 -1.5 -1 2").
Proof. vm_compute. split; reflexivity. Qed.
