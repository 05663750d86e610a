(** Property theorem C100: the case of the letters of a file (csg2csg/Input.py 46-58, csg2csg/__main__.py 25-136). *)
From Coq Require Import QArith Reals List Lia.
From Verif Require Import PyStr PyDict MaterialModel MaterialWriters DeckScan FileModel NotsModel ConvertModel MainModel OptionsModel PropSerpentIn.
Import ListNotations.
Open Scope nat_scope.
Open Scope list_scope.

(** The same character, or the same letter of the alphabet in the other case. *)
Definition same_letter (a b : ascii) : Prop :=
  a = b \/ exists i, (i < 26)%N /\ ((a = ascii_of_N (65 + i) /\ b = ascii_of_N (97 + i)) \/ (b = ascii_of_N (65 + i) /\ a = ascii_of_N (97 + i))).
(** Files that differ in the case of letters only. *)
Definition same_but_case (s t : text) : Prop := Forall2 same_letter s t.

Lemma lower_letters i : (i < 26)%N -> lower_char (ascii_of_N (65 + i)) = ascii_of_N (97 + i) /\ lower_char (ascii_of_N (97 + i)) = ascii_of_N (97 + i).
Proof.
  intro H. assert (F : forallb (fun n => let i := N.of_nat n in Ascii.eqb (lower_char (ascii_of_N (65 + i))) (ascii_of_N (97 + i)) && Ascii.eqb (lower_char (ascii_of_N (97 + i))) (ascii_of_N (97 + i)))%bool (List.seq 0 26) = true) by reflexivity.
  rewrite forallb_forall in F. specialize (F (N.to_nat i)). cbv zeta in F. rewrite N2Nat.id in F. assert (I : In (N.to_nat i) (List.seq 0 26)) by (apply in_seq; lia).
  apply F in I. apply andb_true_iff in I as [A B]. apply Ascii.eqb_eq in A, B. now split.
Qed.
Lemma same_lower s t : same_but_case s t -> lower s = lower t.
Proof.
  induction 1 as [|a b s t E F IH]; [reflexivity|]. cbn [lower map]. f_equal; [|exact IH].
  destruct E as [->|(i & L & [[-> ->]|[-> ->]])]; [reflexivity| |]; destruct (lower_letters i L) as [A B]; congruence.
Qed.

Lemma lower_is_newline c : Ascii.eqb (lower_char c) newline = Ascii.eqb c newline.
Proof.
  destruct (Ascii.eqb_spec c newline) as [->|N]; [reflexivity|]. destruct (Ascii.eqb_spec (lower_char c) newline) as [E|_]; [|reflexivity]. elim N. now apply lower_newline.
Qed.
Lemma read_lines_lower s : read_lines s = readlines (lower s).
Proof.
  unfold read_lines. induction s as [|c s IH]; [reflexivity|]. cbn [readlines lower map]. rewrite lower_is_newline. fold (lower s). rewrite <- IH. destruct (Ascii.eqb c newline); [reflexivity|].
  destruct (readlines s); reflexivity.
Qed.
Lemma same_lines s t : same_but_case s t -> read_lines s = read_lines t.
Proof. intro H. rewrite !read_lines_lower. now rewrite (same_lower s t H). Qed.

(** C100: files that differ in the case of letters only are converted to the same, in every format, with all options, and in
    both formats that are read. *)
Theorem C100_case str show fuel nuclides universes o s t : same_but_case s t ->
  main str show fuel nuclides universes o s = main str show fuel nuclides universes o t.
Proof.
  intro H. assert (L := same_lines s t H). unfold main. destruct (o_format o); try reflexivity.
  - unfold program, load, read_file, split_file. now rewrite L.
  - unfold serpent_deck. now rewrite L.
Qed.
Print Assumptions C100_case.

(** A file in the other case. *)
Example C100_example : same_but_case (T "1 0 -5 IMP:N=1") (T "1 0 -5 imp:n=1") /\ ~ same_but_case (T "1 SO 5") (T "1 SX 5").
Proof.
  split.
  - unfold same_but_case. cbn [T String.list_ascii_of_string].
    repeat (apply Forall2_cons; [first [left; reflexivity | right; exists 8%N; split; [reflexivity|left; split; reflexivity] | right; exists 12%N; split; [reflexivity|left; split; reflexivity] | right; exists 15%N; split; [reflexivity|left; split; reflexivity] | right; exists 13%N; split; [reflexivity|left; split; reflexivity]]|]). apply Forall2_nil.
  - intro H. apply same_lower in H. discriminate.
Qed.

(** For Serpent, in which names are told apart by the case of letters, this is not what the file means: the materials Fuel and
    fuel are both called fuel. *)
Theorem C100_serpent_refuted : exists s d a b, s = T "mat Fuel -10" ++ newline :: T "92235.09c 1" ++ newline :: T "mat fuel -5" ++ newline :: T "92238.09c 1" ++ [newline] /\
  serpent_deck s = Some d /\ map snd (d_mats d) = [a; b] /\ m_name a = T "fuel" /\ m_name b = T "fuel" /\ m_comp a <> m_comp b.
Proof. do 4 eexists. split; [reflexivity|]. split; [vm_compute; reflexivity|]. split; [reflexivity|]. split; [reflexivity|]. split; [reflexivity|]. vm_compute. discriminate. Qed.
Print Assumptions C100_serpent_refuted.
