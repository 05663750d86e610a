(** Functions that no other function calls: csg2csg/MCNPInput.py 511-701, where [__simplify_cones] is commented out (1346), and
    csg2csg/MCNPCellCard.py 17-40, which is imported (MCNPInput.py 9) and not used.  They are what somebody who switches them
    on again would run. *)
From Coq Require Import Reals.
From Verif Require Import PyStr PyInt SurfModel MacroModel CellModel FlattenModel.
From Verif Require NotsModel.
Open Scope R_scope.

(** MCNPInput.py 511-569, [__macro_rcc_cylinder]: base (c0 c1 c2), axis (v0 v1 v2), radius c6; [None] is the
    UnboundLocalError for an axis that is not along x, y or z.  As in [MacroModel] the new surfaces are made of the numbers. *)
Definition rcc_along_axis (n : Z) (c0 c1 c2 v0 v1 v2 c6 : R) : option exploded :=
  let s i := sid (n + i) in
  let made cyl pl u v top bottom :=
    Some (mkX (T "(" ++ T " -" ++ s 1%Z ++ T " -" ++ s 2%Z ++ T " -" ++ s 3%Z ++ T ")")
              (T "(" ++ T "  " ++ s 1%Z ++ T ":" ++ s 2%Z ++ T ":" ++ s 3%Z ++ T ")")
              [mkS (n + 1) None cyl [u; v; c6] TRANSMISSION; pl (n + 2)%Z bottom; pl (n + 3)%Z top]) in
  if Req_EM_T v0 0 then
    if Req_EM_T v1 0 then made CYLINDER_Z new_pz c0 c1 (v2 + c2) c2
    else if Req_EM_T v2 0 then made CYLINDER_Y new_py c0 c2 (v1 + c1) c1
    else None
  else if Req_EM_T v1 0 then
    if Req_EM_T v2 0 then made CYLINDER_X new_px c1 c2 (v0 + c0) c0 else None
  else None.

(** MCNPInput.py 571-629, [__simplify_cone]: the two texts and the new plane, and the cone afterwards (626); [None] is an
    UnboundLocalError: the surface is no cone (581-601), or the fifth number is neither -1 nor 1 (606-628).  Another number of
    coefficients gives two empty texts (573-574), which the caller takes for the description and the new surfaces. *)
Definition simplify_cone (n : Z) (s : surface) : option (exploded * surface) :=
  match s_coef s with
  | [x; y; z; t2; sheet] =>
      let a := sid (s_id s) in let b := sid (n + 1) in
      match (match s_type s with
             | CONE_X => Some (new_px (n + 1) x) | CONE_Y => Some (new_py (n + 1) y) | CONE_Z => Some (new_pz (n + 1) z)
             | _ => None
             end) with
      | None => None
      | Some pl =>
          let cut := mkS (s_id s) (s_tr s) (s_type s) [x; y; z; t2] (s_bc s) in
          if Req_EM_T sheet (-1) then
            Some (mkX (T "( -" ++ a ++ T " -" ++ b ++ T " )") (T "(  " ++ a ++ T " -" ++ b ++ T " : " ++ b ++ T ")") [pl], cut)
          else if Req_EM_T sheet 1 then
            Some (mkX (T "( -" ++ a ++ T "  " ++ b ++ T " )") (T "(  " ++ a ++ T "  " ++ b ++ T " : -" ++ b ++ T ")") [pl], cut)
          else None
      end
  | _ => Some (mkX [] [] [], s)
  end.

(** MCNPInput.py 684-696: what becomes of one word. *)
Definition cone_word (id : text) (x : exploded) (w : text) : text :=
  if text_eqb id w then x_out x else if text_eqb (T "-" ++ id) w then x_in x else w.

(** MCNPInput.py 665-698: the loop over one cell, as long as a word matches. *)
Fixpoint cone_words (fuel : nat) (id : text) (x : exploded) (desc : list text) : NotsModel.outcome (list text) :=
  match fuel with
  | O => NotsModel.Running
  | S f => if existsb (macro_match id) desc then cone_words f id x (map (cone_word id x) desc) else NotsModel.Done desc
  end.

(** MCNPInput.py 664-701 for one cone and one cell. *)
Definition cone_cell (fuel : nat) (id : text) (x : exploded) (c : cell) : NotsModel.outcome cell :=
  match cone_words fuel id x (c_text c) with
  | NotsModel.Done desc => match update c (join_sp desc) with Some c' => NotsModel.Done c' | None => NotsModel.Raised end
  | NotsModel.Raised => NotsModel.Raised
  | NotsModel.Running => NotsModel.Running
  end.

(** MCNPCellCard.py 17-40, [is_cell_card]; [None] is an IndexError or a ValueError (32), which can only occur when the first
    word is a zero. *)
Definition is_cell_card (line : text) : option bool :=
  match words line with
  | [] => Some false
  | w :: r =>
      if match w with c :: _ => Ascii.eqb c "(" || Ascii.eqb c ":" || Ascii.eqb c ")" || Ascii.eqb c "#" | [] => false end then Some false
      else match py_int w with
           | None => Some false
           | Some id =>
               if negb (id =? 0)%Z then Some true
               else match r with
                    | [] => None
                    | m :: r' =>
                        match py_int m with
                        | None => None
                        | Some mat =>
                            if negb (id =? 0)%Z && (mat =? 0)%Z then Some true
                            else if (0 <? id)%Z && (0 <? mat)%Z then
                              match r' with [] => None | _ => Some true end
                            else Some false
                        end
                    end
           end
  end.
