(** Model of csg2csg/MCNPFormatter.py: comment stripping and line wrapping. *)
From Verif Require Import PyStr.

(** MCNPFormatter.py 5-10, [strip_dollar_comments]: the text up to the first
    dollar sign. *)
Definition strip_dollar_comments (s : text) : text :=
  let pos := find "$"%char s in
  if (pos =? -1)%Z then s else slice_to s pos.

(** MCNPFormatter.py 44-66, the [while True] loop of [mcnp_line_formatter].
    [tmp] is [tmp_string], [new] is [new_string].  One unit of fuel per
    iteration; [None] means the loop is still running when fuel runs out. *)
Fixpoint fmt_loop (fuel : nat) (tmp new : text) : option text :=
  match fuel with
  | O => None
  | S f =>
      if (length tmp <=? 72)%nat then
        Some (if isspace tmp then new else new ++ tmp)
      else
        let pos := rfind blank (slice_to tmp 72) in
        let new1 := new ++ slice_to tmp pos ++ [newline] in
        let tmp1 := slice_from tmp pos in
        if isspace tmp1 then Some new1
        else fmt_loop f tmp1 (new1 ++ T "     ")
  end.

(** MCNPFormatter.py 36-66, [mcnp_line_formatter]. *)
Definition mcnp_line_formatter (fuel : nat) (s : text) : option text :=
  if (length s <? 72)%nat then Some s else fmt_loop fuel s [].

(** The call returns [r]. *)
Definition formatter_returns (s r : text) : Prop :=
  exists fuel, mcnp_line_formatter fuel s = Some r.

(** The call never returns. *)
Definition formatter_diverges (s : text) : Prop :=
  forall fuel, mcnp_line_formatter fuel s = None.
