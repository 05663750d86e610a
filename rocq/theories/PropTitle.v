(** The title and the message block of an MCNP file (csg2csg/MCNPInput.py 44-52, 1303-1306): C75. *)
From Coq Require Import QArith.
From Verif Require Import PyStr PyStrFacts FortranNumber FortranNumberProofs CellModel SurfModel KeywordModel DeckScan PropDeck PropMaterialOut WrapProofs.
Open Scope nat_scope.
Open Scope list_scope.

(** The first line of a file, if any, holds the word message (in either case). *)
Definition speaks (title : text) : Prop := sub_in (T "message") (lower (title ++ [newline])) = true.

(** C75, a file without message: the title is the first line, and nothing else depends on it. *)
Theorem C75_title_partial title s p : ~ In newline title -> ~ speaks title -> split_file (title ++ newline :: s) = Some p ->
  p_title p = lower title ++ [newline] /\
  forall other, ~ In newline other -> ~ speaks other ->
    exists q, split_file (other ++ newline :: s) = Some q /\ p_title q = lower other ++ [newline] /\
      p_cells q = p_cells p /\ p_surfs q = p_surfs p /\ p_imps q = p_imps p /\ p_trans q = p_trans p /\ p_mats q = p_mats p.
Proof.
  unfold speaks. intros NT MT. destruct (sub_in (T "message") (lower (title ++ [newline]))) eqn:E1; [now elim MT|].
  unfold split_file, read_lines. rewrite (readlines_line title) by exact NT. cbn [map set_title]. rewrite E1. intro H.
  destruct (get_cell_cards _) as [[cs r1]|] eqn:C; [|discriminate]. destruct (get_surface_cards r1) as [[ss r2]|] eqn:S; [|discriminate].
  destruct (get_importances r2) as [im|] eqn:I; [|discriminate]. destruct (get_transform_cards r2) as [tr|] eqn:TT; [|discriminate].
  injection H as <-. cbn [p_title p_cells p_surfs p_imps p_trans p_mats]. split; [apply lower_app|]. intros other NO MO.
  destruct (sub_in (T "message") (lower (other ++ [newline]))) eqn:E2; [now elim MO|]. rewrite (readlines_line other) by exact NO. cbn [map set_title]. rewrite E2, C, S, I, TT.
  eexists. split; [reflexivity|]. cbn [p_title p_cells p_surfs p_imps p_trans p_mats]. split; [apply lower_app|]. now repeat split.
Qed.
Print Assumptions C75_title_partial.

Example C75_example : exists p, split_file (file_ex []) = Some p /\ ~ speaks (T "Title") /\ ~ In newline (T "Title") /\ p_title p = T "title" ++ [newline].
Proof. eexists. split; [vm_compute; reflexivity|]. split; [vm_compute; discriminate|]. split; [vm_compute; intuition discriminate|reflexivity]. Qed.

(** C75, a message of one line that is directly followed by the title: the file is read as without the message. *)
Theorem C75_message_line_partial m title s : ~ In newline m -> speaks m -> ~ In newline title -> ~ speaks title ->
  split_file (m ++ newline :: title ++ newline :: s) = split_file (title ++ newline :: s).
Proof.
  unfold speaks. intros NM MM NT MT. destruct (sub_in (T "message") (lower (title ++ [newline]))) eqn:E1; [now elim MT|].
  unfold split_file, read_lines. rewrite (readlines_line m) by exact NM. rewrite !(readlines_line title) by exact NT. cbn [map set_title].
  now rewrite E1, MM.
Qed.
Print Assumptions C75_message_line_partial.

Example C75_message_example : speaks (T "MESSAGE: outp=a.out") /\
  split_file (T "MESSAGE: outp=a.out" ++ newline :: file_ex []) = split_file (file_ex []) /\ split_file (file_ex []) <> None.
Proof. split; [reflexivity|]. split; [vm_compute; reflexivity|vm_compute; discriminate]. Qed.

(** In MCNP a message block ends with a blank line, and the title comes after that line.  The blank line is taken for the title,
    and the title for a cell, which cannot be read. *)
Theorem C75_message_block_refuted : exists m file p q,
  speaks m /\ split_file file = Some p /\ split_file (m ++ newline :: newline :: file) = Some q /\ p_title q = [newline] /\
  length (p_cells p) = 2 /\ length (p_cells q) = 3 /\ exists t, p_cells q = t :: p_cells p /\ words t = [T "title"] /\ forall fuel, interpret fuel t = None.
Proof.
  exists (T "MESSAGE: outp=a.out"), (file_ex []). do 2 eexists. split; [reflexivity|]. split; [vm_compute; reflexivity|]. split; [vm_compute; reflexivity|].
  cbn [p_title p_cells length]. split; [reflexivity|]. split; [reflexivity|]. split; [reflexivity|]. eexists. split; [reflexivity|]. split; [reflexivity|].
  intros [|f]; reflexivity.
Qed.
Print Assumptions C75_message_block_refuted.

(** A title that holds the word: the first cell is lost. *)
Theorem C75_title_word_refuted : exists title s p q,
  ~ In newline title /\ words title = [T "No"; T "message"; T "here"] /\ split_file (T "Title" ++ newline :: s) = Some p /\ split_file (title ++ newline :: s) = Some q /\
  length (p_cells p) = 2 /\ p_cells q = tl (p_cells p).
Proof.
  exists (T "No message here"), (skipn 6 (file_ex [])). do 2 eexists. split; [vm_compute; intuition discriminate|]. split; [reflexivity|].
  split; [vm_compute; reflexivity|]. split; [vm_compute; reflexivity|]. split; reflexivity.
Qed.
Print Assumptions C75_title_word_refuted.
