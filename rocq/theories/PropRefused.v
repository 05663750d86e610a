(** Property theorems C53, C98 and C101, continued: one card that is refused is the end of the program (csg2csg/MCNPInput.py 1303-1345,
    csg2csg/__main__.py 74-134). *)
From Coq Require Import QArith Reals List Lia.
From Verif Require Import PyStr PyStrFacts PyInt FortranNumber FortranNumberProofs SurfModel CellModel FlattenModel KeywordModel DeckScan FileModel ConvertModel MainModel PropKeyword PropDeck PropRead PropMain PropParameters PropEntries.
From Verif Require NotsModel PropSurf.
Import ListNotations.
Open Scope nat_scope.
Open Scope list_scope.

(** ** Specification *)

(** A file of a title, cell cards, a blank line, surface cards, a blank line and anything; comment lines may stand between the lines after the title. *)
Definition file_cards (s : text) (cells surfs : list card) : Prop :=
  exists title noisy b1 b2 rest, file_of s (title :: noisy) /\ sub_in (T "message") title = false /\
    with_comments (flat_map card_lines cells ++ b1 :: flat_map card_lines surfs ++ b2 :: rest) noisy /\
    b1 <> [] /\ spaces b1 /\ b2 <> [] /\ spaces b2 /\ Forall good_card cells /\ Forall good_card surfs.
(** The program ends with an exception before anything is written, whatever the options are. *)
Definition nothing_written (s : text) : Prop :=
  forall str show fuel nuclides universes quick cs, program str show fuel nuclides universes quick cs s = NotsModel.Raised.

(** ** Proof *)

Lemma mapM_none {A B} (f : A -> option B) l x : In x l -> f x = None -> mapM f l = None.
Proof.
  induction l as [|y l IH]; intros I N; [destruct I|]. destruct I as [->|I]; cbn [mapM].
  - now rewrite N.
  - rewrite (IH I N). now destruct (f y).
Qed.

Lemma refused s cells surfs fuel : file_cards s cells surfs ->
  (exists c, In c cells /\ read_cell_card fuel (PropDeck.card_text c) = None) \/ (exists c, In c surfs /\ read_surface (PropDeck.card_text c) = None) -> read_file fuel s = None.
Proof.
  intros (title & noisy & b1 & b2 & rest & (raw & -> & FR & EL) & NM & WC & N1 & S1 & N2 & S2 & GC & GS) H.
  unfold read_file, split_file, read_lines. rewrite readlines_ended, EL by exact FR. cbn [set_title]. rewrite NM, (comments_dropped _ _ WC).
  unfold get_cell_cards. rewrite scan_closed; [|exact remove_is_strip|exact GC|exact N1|exact S1].
  unfold get_surface_cards. rewrite scan_closed; [|reflexivity|exact GS|exact N2|exact S2].
  destruct (get_importances rest) as [ic|]; [|reflexivity]. destruct (get_transform_cards rest) as [tc|]; [|reflexivity]. cbn [p_cells p_surfs p_trans p_mats p_imps p_title].
  destruct H as [(c & I & E)|(c & I & E)].
  - rewrite (mapM_none (read_cell_card fuel) _ (PropDeck.card_text c)); [reflexivity|now apply in_map|exact E].
  - rewrite (mapM_none read_surface _ (PropDeck.card_text c)); [|now apply in_map|exact E]. now destruct (mapM (read_cell_card fuel) _).
Qed.
Lemma refused_program s cells surfs : file_cards s cells surfs ->
  (exists c, In c cells /\ forall fuel, read_cell_card fuel (PropDeck.card_text c) = None) \/ (exists c, In c surfs /\ read_surface (PropDeck.card_text c) = None) -> nothing_written s.
Proof.
  intros F H str show fuel nuclides universes quick cs. unfold program, load. rewrite (refused s cells surfs fuel F); [reflexivity|].
  destruct H as [(c & I & E)|H]; [left; now exists c|now right].
Qed.

(** C98: a file with a LIKE BUT card is refused as a whole. *)
Theorem C98_like_file s cells surfs c w g rest : file_cards s cells surfs -> In c cells -> PropDeck.card_text c = w ++ g ++ T "like" ++ rest ->
  w <> [] -> all_digits w -> g <> [] -> forallb is_space g = true -> nothing_written s.
Proof. intros F I E W D G S. apply (refused_program s cells surfs F). left. exists c. split; [exact I|]. intro fuel. rewrite E. now apply C98_like. Qed.
Print Assumptions C98_like_file.

(** C53: so is one with a cell card that gives importances, but not one for the neutrons alone. *)
Theorem C53_no_neutrons_file s cells surfs c : file_cards s cells surfs -> In c cells -> ~ In "$"%char (PropDeck.card_text c) ->
  (exists a b, PropDeck.card_text c = a ++ T "imp" ++ b) -> (forall a d b, PropDeck.card_text c = a ++ T "imp:n" ++ d :: b -> d <> blank /\ d <> "="%char) -> nothing_written s.
Proof.
  intros F I D H N. apply (refused_program s cells surfs F). left. exists c. split; [exact I|]. intro fuel. unfold read_cell_card.
  now rewrite (C53_no_neutrons no_keywords _ D H N).
Qed.
Print Assumptions C53_no_neutrons_file.

(** C101: so is one with a surface card that has too few entries. *)
Theorem C101_few_file s cells surfs c id tr m n toks : file_cards s cells surfs -> In c surfs -> In (m, n) (fixed ++ cones) ->
  PropSurf.card_text (PropDeck.card_text c) id tr m toks -> length toks < n -> nothing_written s.
Proof. intros F I M C L. apply (refused_program s cells surfs F). right. exists c. split; [exact I|]. now apply (C101_few _ id tr m n toks). Qed.
Print Assumptions C101_few_file.

(** A file with one of each. *)
Definition file_refused : text :=
  T "Refused" ++ newline :: T "1 0 -1 imp:p=1" ++ newline :: T "c a copy" ++ newline :: T "2 LIKE 1 BUT u=2" ++ newline :: newline ::
  T "1 SO" ++ newline :: newline :: T "nps 10" ++ [newline].
Definition cells_refused : list card := [(mkL (T "1 0 -1 imp:p=1") None, []); (mkL (T "2 like 1 but u=2") None, [])].
Definition surfs_refused : list card := [(mkL (T "1 so") None, [])].
Example file_refused_cards : file_cards file_refused cells_refused surfs_refused.
Proof.
  exists (T "refused" ++ [newline]), [T "1 0 -1 imp:p=1" ++ [newline]; T "c a copy" ++ [newline]; T "2 like 1 but u=2" ++ [newline]; [newline]; T "1 so" ++ [newline]; [newline]; T "nps 10" ++ [newline]],
    [newline], [newline], [T "nps 10" ++ [newline]].
  split. { exists (readlines file_refused). split; [vm_compute; reflexivity|]. split; [|vm_compute; reflexivity].
    assert (E : forallb ended (readlines file_refused) = true) by (vm_compute; reflexivity).
    apply Forall_forall. intros x I. rewrite forallb_forall in E. now apply ended_ok, E. }
  split; [vm_compute; reflexivity|]. split.
  { repeat first [apply wc_nil|apply wc_line; [intros r E; discriminate E|]|apply (wc_comment (T "a copy" ++ [newline]))]. }
  split; [discriminate|]. split; [reflexivity|]. split; [discriminate|]. split; [reflexivity|].
  split; repeat (apply Forall_cons; [apply one_line; [vm_compute; intuition discriminate|eexists; split; [left; reflexivity|reflexivity]|intros (r & E); discriminate]|]); apply Forall_nil.
Qed.
Example C98_like_file_example : nothing_written file_refused.
Proof. apply (C98_like_file _ _ _ _ (T "2") (T " ") (T " 1 but u=2" ++ [newline]) file_refused_cards (or_intror (or_introl eq_refl))); try reflexivity; discriminate. Qed.
Example C53_no_neutrons_file_example : nothing_written file_refused.
Proof.
  apply (C53_no_neutrons_file _ _ _ _ file_refused_cards (or_introl eq_refl)).
  - vm_compute. intuition discriminate.
  - exists (T "1 0 -1 "), (T ":p=1" ++ [newline]). reflexivity.
  - intros a c b E. exfalso. assert (F : find_sub (T "imp:n") (T "1 0 -1 imp:p=1" ++ [newline]) = None) by (vm_compute; reflexivity).
    change (T "1 0 -1 imp:p=1" ++ [newline] = a ++ T "imp:n" ++ c :: b) in E. rewrite E in F. now apply PropKeyword.find_sub_mid in F.
Qed.
Example C101_few_file_example : nothing_written file_refused.
Proof.
  apply (C101_few_file _ _ _ _ 1 None "so" 1 [] file_refused_cards (or_introl eq_refl)); [vm_compute; tauto| |cbn; lia].
  split; [vm_compute; intuition discriminate|]. exists (T "1"). split; [reflexivity|]. split; [vm_compute; intuition discriminate|reflexivity].
Qed.
