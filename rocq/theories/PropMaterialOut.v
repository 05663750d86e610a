(** C68 and C69: what is written for materials. *)
From Coq Require Import QArith Qabs Permutation.
From Verif Require Import PyStr PyStrFacts FortranNumber FortranNumberProofs PyInt PyIntFacts PyDict Formatter CellModel FlattenModel
  NamesModel NuclideData MaterialModel PyFmtE PyFmtEFacts DeckScan MaterialWriters PropDeck.
Open Scope nat_scope.
Open Scope list_scope.

(** Text that is one word for the readers: no white space, no sign that the readers treat specially. *)
Definition wordy (s : text) : Prop :=
  s <> [] /\ forallb (fun c => negb (is_space c) && negb (Ascii.eqb c "$") && negb (Ascii.eqb c "=") && negb (Ascii.eqb c "%")) s = true /\
  lower s = s.

(** The printing of a number is a word that is read with its value. *)
Definition printed_well (show : Q -> text) (q : Q) : Prop :=
  wordy (show q) /\ exists v, get_fortran_formatted_number (show q) = Some v /\ (v == q)%Q.

(** A nuclide number. *)
Definition zaid (s : text) : Prop := s <> [] /\ forallb is_digit s = true.

(** The same nuclides in the same order with the same fractions. *)
Definition same_fractions (a b : dict Q) : Prop := Forall2 (fun x y => fst x = fst y /\ (snd x == snd y)%Q) a b.

Lemma words_join_sp ws : Forall (fun w => w <> [] /\ forallb (fun x => negb (is_space x)) w = true) ws ->
  ~ In newline (join_sp ws) /\ words (join_sp ws) = ws.
Proof.
  intro FW. destruct ws as [|w l] using rev_ind; [split; [intros []|reflexivity]|].
  rewrite join_sp_app. cbn [join_sp]. rewrite Forall_app in FW. destruct FW as [FW1 FW2].
  inversion FW2 as [|? ? [X1 X2] _]; subst. split.
  - assert (Z : forall u, forallb (fun x => negb (is_space x)) u = true -> ~ In newline u).
    { intros u S J. rewrite forallb_forall in S. apply S in J. discriminate. }
    rewrite in_app_iff. intros [I|I]; [|now apply (Z w)].
    revert I. apply not_in_joined; [discriminate|]. intros u IU. apply Z.
    rewrite Forall_forall in FW1. now apply FW1.
  - rewrite words_joined by exact FW1. now rewrite words_single.
Qed.

Lemma wordy_nospace s : wordy s -> s <> [] /\ forallb (fun c => negb (is_space c)) s = true.
Proof.
  intros (N & F & _). split; [exact N|]. rewrite forallb_forall in *. intros c I. apply F in I.
  rewrite !andb_true_iff in I. tauto.
Qed.

Lemma wordy_no s c : wordy s -> (c = "$"%char \/ c = "="%char \/ c = "%"%char \/ c = newline) -> ~ In c s.
Proof.
  intros (_ & F & _) C I. rewrite forallb_forall in F. apply F in I.
  destruct C as [-> | [-> | [-> | ->]]]; discriminate.
Qed.

Lemma digit_plain c : is_digit c = true -> is_space c = false /\ lower_char c = c /\ c <> "$"%char /\ c <> "="%char /\ c <> "."%char
  /\ c <> "m"%char /\ c <> "%"%char /\ c <> newline /\ c <> blank /\ c <> "c"%char.
Proof.
  intro D. split.
  - unfold is_digit in D. apply andb_true_iff in D as [I1 I2].
    apply N.leb_le in I1, I2. unfold is_space.
    destruct (N.leb_spec 9 (N_of_ascii c)), (N.leb_spec (N_of_ascii c) 13), (N.leb_spec 28 (N_of_ascii c)),
      (N.leb_spec (N_of_ascii c) 32), (N.eqb_spec (N_of_ascii c) 133), (N.eqb_spec (N_of_ascii c) 160); try lia; reflexivity.
  - split.
    + unfold is_digit in D. apply andb_true_iff in D as [I1 I2]. apply N.leb_le in I1, I2. unfold lower_char.
      destruct (N.leb_spec 65 (N_of_ascii c)); [lia|reflexivity].
    + repeat split; intros ->; discriminate.
Qed.

Lemma zaid_wordy s : zaid s -> wordy s.
Proof.
  intros [N D]. split; [exact N|]. split.
  - rewrite forallb_forall in *. intros c I. apply D in I. destruct (digit_plain c I) as (A & _ & B & C & _ & _ & P & _).
    rewrite A. destruct (Ascii.eqb_spec c "$"); [tauto|]. destruct (Ascii.eqb_spec c "="); [tauto|].
    destruct (Ascii.eqb_spec c "%"); [tauto|]. reflexivity.
  - clear N. unfold lower. induction s as [|c s IH]; [reflexivity|]. cbn [forallb map] in *. apply andb_true_iff in D as [D1 D2].
    destruct (digit_plain c D1) as (_ & -> & _). now rewrite IH.
Qed.

Lemma lower_app a b : lower (a ++ b) = lower a ++ lower b.
Proof. apply map_app. Qed.

(** Lines written one after the other are read back as lines. *)
Lemma readlines_lines L : Forall (fun x => ~ In newline x) L ->
  readlines (concat (map (fun x => x ++ [newline]) L)) = map (fun x => x ++ [newline]) L.
Proof.
  intro F. induction F as [|x L N F IH]; [reflexivity|]. cbn [map concat]. rewrite <- app_assoc. cbn [app].
  rewrite readlines_line by exact N. now rewrite IH.
Qed.

(* ------------------------------------------------------------------ *)
(** * MCNP and PHITS *)

Section Mcnp.
Context (show : Q -> text).

(** What stands for a nuclide: its number, and the library after a point if libraries are kept. *)
Definition token (preserve : bool) (m : material) (e : text * Q) : text :=
  fst e ++ if preserve then T "." ++ match dget (fst e) (m_xs m) with Some x => x | None => [] end else [].

Definition good_material (preserve : bool) (m : material) : Prop :=
  zaid (m_num m) /\ ~ In newline (m_name m) /\ m_comp m <> [] /\ NoDup (keys (m_comp m)) /\
  Forall (fun e => zaid (fst e) /\ printed_well show (snd e) /\
                   (preserve = true -> exists x, dget (fst e) (m_xs m) = Some x /\ (x = [] \/ wordy x))) (m_comp m).

Definition nuc_code (preserve : bool) (m : material) (e : text * Q) : text := T "     " ++ token preserve m e ++ T " " ++ show (snd e).

(** The lines of a material. *)
Definition mat_lines (preserve comment : bool) (m : material) : list text :=
  (if comment then [T "C Material " ++ m_name m] else []) ++
  match m_comp m with
  | [] => []
  | e :: es => (T "M" ++ m_num m ++ nuc_code preserve m e) :: map (nuc_code preserve m) es
  end.
Definition mat_card (preserve : bool) (m : material) : card :=
  match m_comp m with
  | [] => (mkL [] None, [])
  | e :: es => (mkL (T "m" ++ m_num m ++ nuc_code preserve m e) None, map (fun e => mkL (nuc_code preserve m e) None) es)
  end.

Lemma lines_written preserve comment m : m_comp m <> [] ->
  Forall (fun e => preserve = true -> exists x, dget (fst e) (m_xs m) = Some x) (m_comp m) ->
  write_mcnp_material show preserve comment m = Some (concat (map (fun x => x ++ [newline]) (mat_lines preserve comment m))).
Proof.
  intros NE F. unfold write_mcnp_material, mat_lines.
  assert (M : mapM (mcnp_nuclide show preserve m) (m_comp m) =
              Some (map (fun e => nuc_code preserve m e ++ [newline]) (m_comp m))).
  { clear NE. induction F as [|e es X F IH]; [reflexivity|]. cbn [mapM map]. rewrite IH.
    unfold mcnp_nuclide, nuc_code, token. destruct preserve.
    - destruct (X eq_refl) as (x & ->). cbn [option_map]. rewrite <- !app_assoc. reflexivity.
    - cbn [app]. rewrite app_nil_r, <- !app_assoc. reflexivity. }
  rewrite M. destruct (m_comp m) as [|e es]; [tauto|].
  rewrite map_app, concat_app. f_equal.
  assert (C : (if comment then T "C Material " ++ m_name m ++ [newline] else []) =
              concat (map (fun x => x ++ [newline]) (if comment then [T "C Material " ++ m_name m] else []))).
  { destruct comment; [|reflexivity]. cbn [map concat]. now rewrite app_nil_r, <- app_assoc. }
  rewrite C. f_equal. cbn [map concat]. rewrite map_map. rewrite <- !app_assoc. reflexivity.
Qed.
Lemma written_lines preserve comment m : good_material preserve m ->
  write_mcnp_material show preserve comment m = Some (concat (map (fun x => x ++ [newline]) (mat_lines preserve comment m))).
Proof.
  intros (_ & _ & NE & _ & F). apply lines_written; [exact NE|]. apply (Forall_impl _) with (2 := F). intros e (_ & _ & X) P. destruct (X P) as (x & E & _). now exists x.
Qed.

Lemma token_facts preserve m e : zaid (fst e) -> (preserve = true -> exists x, dget (fst e) (m_xs m) = Some x /\ (x = [] \/ wordy x)) ->
  wordy (token preserve m e) /\ nuclide_of (token preserve m e) = fst e /\
  exists d r, token preserve m e = d :: r /\ is_digit d = true.
Proof.
  intros Z X. assert (W := zaid_wordy _ Z). destruct Z as [ZN ZD].
  assert (ND : ~ In "."%char (fst e)).
  { intro I. rewrite forallb_forall in ZD. apply ZD in I. discriminate. }
  assert (H : exists d r, fst e = d :: r /\ is_digit d = true).
  { destruct (fst e) as [|d r]; [tauto|]. exists d, r. split; [reflexivity|]. cbn [forallb] in ZD. now apply andb_true_iff in ZD. }
  destruct H as (d & r & HE & HD).
  split; [|split].
  - unfold token. destruct preserve.
    + destruct (X eq_refl) as (x & -> & XW). destruct W as (W1 & W2 & W3). split; [|split].
      * rewrite HE. discriminate.
      * rewrite !forallb_app, W2. cbn [T list_ascii_of_string forallb andb negb].
        destruct XW as [-> | (_ & -> & _)]; reflexivity.
      * rewrite !lower_app, W3. f_equal. cbn [T list_ascii_of_string lower map app]. f_equal.
        destruct XW as [-> | (_ & _ & XW)]; [reflexivity|exact XW].
    + now rewrite app_nil_r.
  - unfold token, nuclide_of. destruct preserve.
    + change (T "." ++ ?x) with ("."%char :: x). cbn [T list_ascii_of_string app]. now rewrite split_on_app.
    + now rewrite app_nil_r, split_on_none.
  - unfold token. rewrite HE. now exists d, (r ++ if preserve then T "." ++ match dget (d :: r) (m_xs m) with Some x => x | None => [] end else []).
Qed.

Lemma nuc_code_facts preserve m e : zaid (fst e) -> printed_well show (snd e) ->
  (preserve = true -> exists x, dget (fst e) (m_xs m) = Some x /\ (x = [] \/ wordy x)) ->
  lower (nuc_code preserve m e) = nuc_code preserve m e /\ ~ In "$"%char (nuc_code preserve m e) /\
  ~ In newline (nuc_code preserve m e) /\ words (nuc_code preserve m e) = [token preserve m e; show (snd e)] /\
  is_material_line (printed (mkL (nuc_code preserve m e) None)) = false.
Proof.
  intros Z [PW PV] X. destruct (token_facts preserve m e Z X) as (TW & _ & d & r & TE & TD).
  unfold nuc_code. split; [|split; [|split; [|split]]].
  - rewrite !lower_app. destruct TW as (_ & _ & ->). destruct PW as (_ & _ & ->). reflexivity.
  - rewrite !in_app_iff. intros [I|[I|[I|I]]].
    + revert I. cbn. intuition discriminate.
    + revert I. now apply wordy_no; [|left].
    + revert I. cbn. intuition discriminate.
    + revert I. now apply wordy_no; [|left].
  - rewrite !in_app_iff. intros [I|[I|[I|I]]].
    + revert I. cbn. intuition discriminate.
    + revert I. apply wordy_no; [assumption|tauto].
    + revert I. cbn. intuition discriminate.
    + revert I. apply wordy_no; [assumption|tauto].
  - rewrite words_app_space_l by reflexivity. change (T " " ++ show (snd e)) with (blank :: show (snd e)).
    rewrite words_app_space by exact blank_is_space.
    rewrite !words_single by (try apply wordy_nospace; assumption) || reflexivity.
    all: try (apply wordy_nospace; assumption). reflexivity.
  - unfold printed. cbn [code remark app]. rewrite TE. cbn [T list_ascii_of_string app is_material_line].
    rewrite !Ascii.eqb_refl. destruct (digit_plain d TD) as (_ & _ & _ & _ & _ & M & _ & _ & B & _).
    destruct (Ascii.eqb_spec d blank); [tauto|]. destruct (Ascii.eqb_spec d "m"); [tauto|]. reflexivity.
Qed.

Lemma mat_card_ok preserve m : good_material preserve m ->
  exists rest, material_deck_card (m_num m) rest (mat_card preserve m) /\
    words rest ++ flat_map (fun l => words (code l)) (snd (mat_card preserve m)) =
    flat_map (fun e => [token preserve m e; show (snd e)]) (m_comp m).
Proof.
  intros (NU & NM & NE & ND & F). unfold mat_card. destruct (m_comp m) as [|e es] eqn:CE; [tauto|].
  inversion F as [|? ? (Z & P & X) F']; subst.
  destruct (nuc_code_facts preserve m e Z P X) as (L & D & NL & W & M).
  exists (T "    " ++ token preserve m e ++ T " " ++ show (snd e)). cbn [fst snd code].
  assert (NZ := zaid_wordy _ NU). split; [split; [|split; [|split; [|split]]]|].
  - exists []. split; [reflexivity|]. split; [cbn; lia|]. reflexivity.
  - apply NU.
  - apply NU.
  - split; cbn [fst code]; rewrite in_app_iff; intros [I|I]; try (revert I; cbn; intuition discriminate);
      rewrite in_app_iff in I; destruct I as [I|I]; try tauto; revert I; apply wordy_no; tauto.
  - apply Forall_map. apply (Forall_impl _) with (2 := F'). intros e' (Z' & P' & X').
    destruct (nuc_code_facts preserve m e' Z' P' X') as (_ & D' & NL' & W' & M').
    split; [split; assumption|]. split; [|exact M']. cbn [code]. unfold nuc_code. eexists. reflexivity.
  - cbn [flat_map]. f_equal.
    + rewrite <- W. unfold nuc_code. rewrite !(words_app_space_l (T "    ")) by reflexivity.
      rewrite !(words_app_space_l (T "     ")) by reflexivity. reflexivity.
    + clear - F'. induction F' as [|e' es (Z' & P' & X') F' IH]; [reflexivity|]. cbn [map flat_map code].
      destruct (nuc_code_facts preserve m e' Z' P' X') as (_ & _ & _ & -> & _). now rewrite IH.
Qed.

Lemma dset_new {V} k (v : V) d : ~ In k (keys d) -> dset k v d = d ++ [(k, v)].
Proof.
  induction d as [|[k' v'] d IH]; intro N; [reflexivity|]. cbn [dset app]. cbn [keys map fst In] in N.
  destruct (text_eqb_spec k' k) as [E|E]; [tauto|]. now rewrite IH by tauto.
Qed.

(** The libraries of a material read back: those of the material if they are kept (a library is the part of a word
    after its first point up to the next, so it has none itself), and none otherwise. *)
Definition same_libraries (preserve : bool) (m : material) (x : dict text) : Prop :=
  forall k, In k (keys (m_comp m)) ->
    if preserve then forall l, dget k (m_xs m) = Some l -> ~ In "."%char l -> dget k x = Some l else dget k x = Some [].

Lemma xsid_token (preserve : bool) (m : material) (k : text) (q : Q) : zaid k ->
  if preserve then forall l, dget k (m_xs m) = Some l -> ~ In "."%char l -> xsid_of (token preserve m (k, q)) = l
  else xsid_of (token preserve m (k, q)) = [].
Proof.
  intros [_ ZD]. assert (ND : ~ In "."%char k).
  { intro I. rewrite forallb_forall in ZD. apply ZD in I. discriminate. }
  unfold token, xsid_of. cbn [fst]. destruct preserve.
  - intros l -> NL. change (T "." ++ l) with ("."%char :: l). rewrite split_on_app, split_on_none by assumption. reflexivity.
  - now rewrite app_nil_r, split_on_none.
Qed.

(** Pairs of tokens that stand for the nuclides and fractions of a composition, all different. *)
Lemma mcnp_pairs_read (tok : text * Q -> text) (c : dict Q) : Forall (fun e => nuclide_of (tok e) = fst e /\ printed_well show (snd e)) c ->
  forall acc x, NoDup (keys acc ++ keys c) ->
  exists c' x', mcnp_pairs (flat_map (fun e => [tok e; show (snd e)]) c) acc x = Some (acc ++ c', x') /\ same_fractions c' c /\
    (forall k, ~ In k (keys c) -> dget k x' = dget k x) /\ (forall e, In e c -> dget (fst e) x' = Some (xsid_of (tok e))).
Proof.
  intro F. induction F as [|e c (NE & _ & v & V & VQ) F IH]; intros acc x ND.
  - exists [], x. split; [cbn; now rewrite app_nil_r|]. split; [constructor|]. split; [reflexivity|]. intros e [].
  - cbn [flat_map app mcnp_pairs]. rewrite V, NE.
    assert (NK : ~ In (fst e) (keys acc)).
    { intro I. cbn [keys map] in ND. apply NoDup_remove_2 in ND. rewrite in_app_iff in ND. tauto. }
    rewrite (proj2 (dget_none (fst e) acc) NK), (dset_new _ _ _ NK).
    destruct (IH (acc ++ [(fst e, v)]) (dset (fst e) (xsid_of (tok e)) x)) as (c' & x' & E & S & O & L).
    { unfold keys in *. rewrite map_app. cbn [map fst]. now rewrite <- app_assoc. }
    exists ((fst e, v) :: c'), x'. rewrite E, <- app_assoc. split; [reflexivity|]. split; [constructor; [now split|exact S]|].
    assert (NC : ~ In (fst e) (keys c)).
    { intro I. cbn [keys map] in ND. apply NoDup_remove_2 in ND. rewrite in_app_iff in ND. tauto. }
    split.
    + intros k NI. cbn [keys map In] in NI. rewrite O by tauto. rewrite dget_dset. destruct (text_eqb_spec (fst e) k) as [Q|Q]; [tauto|reflexivity].
    + intros e' [<- | I]; [|now apply L]. rewrite (O _ NC), dget_dset. now rewrite text_eqb_refl.
Qed.

Lemma mat_composition preserve m t : good_material preserve m ->
  words t = flat_map (fun e => [token preserve m e; show (snd e)]) (m_comp m) -> mcnp_composition t = mcnp_composition (join_sp (words t)) ->
  exists c x, mcnp_composition t = Some (c, x) /\ same_fractions c (m_comp m) /\ same_libraries preserve m x.
Proof.
  intros (NU & NM & NE & ND & F) W E. rewrite E, W. unfold mcnp_composition.
  assert (FW : Forall wordy (flat_map (fun e => [token preserve m e; show (snd e)]) (m_comp m))).
  { apply Forall_flat_map. apply (Forall_impl _) with (2 := F). intros e (Z & [P _] & X).
    destruct (token_facts preserve m e Z X) as (TW & _). constructor; [exact TW|constructor; [exact P|constructor]]. }
  destruct (words_join_sp (flat_map (fun e => [token preserve m e; show (snd e)]) (m_comp m))) as [NJ WJ].
  { apply (Forall_impl _) with (2 := FW). apply wordy_nospace. }
  rewrite replace_newline_none by exact NJ. rewrite WJ.
  assert (FI : filter (fun t => negb (existsb (Ascii.eqb "=") t)) (flat_map (fun e => [token preserve m e; show (snd e)]) (m_comp m)) =
               flat_map (fun e => [token preserve m e; show (snd e)]) (m_comp m)).
  { revert FW. generalize (flat_map (fun e => [token preserve m e; show (snd e)]) (m_comp m)) as ws. clear.
    intros ws FW. induction FW as [|w ws WW FW IH]; [reflexivity|]. cbn [filter]. rewrite IH.
    destruct (existsb (Ascii.eqb "=") w) eqn:Q; [|reflexivity]. exfalso.
    apply existsb_exists in Q as (c & I & C). apply Ascii.eqb_eq in C. subst c. revert I. apply wordy_no; [exact WW|tauto]. }
  rewrite FI. destruct (mcnp_pairs_read (token preserve m) (m_comp m)) with (acc := @nil (text * Q)) (x := @nil (text * text)) as (c & x & G & S & _ & L).
  - apply (Forall_impl _) with (2 := F). intros e (Z & P & X). split; [|exact P]. now apply token_facts.
  - exact ND.
  - exists c, x. split; [exact G|]. split; [exact S|]. intros k I. apply in_map_iff in I as ([k' q] & EK & I). cbn [fst] in EK. subst k'.
    rewrite Forall_forall in F. destruct (F _ I) as (Z & _). assert (XT := xsid_token preserve m k q Z). specialize (L _ I). cbn [fst] in L.
    destruct preserve.
    + intros l D NL. rewrite L. f_equal. now apply XT.
    + rewrite L. now f_equal.
Qed.

(** The lines of all the materials, as they are read. *)
Lemma read_mat_lines preserve comment m : good_material preserve m ->
  drop_comment_lines (read_lines (concat (map (fun x => x ++ [newline]) (mat_lines preserve comment m)))) = card_lines (mat_card preserve m) /\
  Forall (fun x => ~ In newline x) (mat_lines preserve comment m).
Proof.
  intros (NU & NM & NE & ND & F). unfold mat_lines, mat_card. destruct (m_comp m) as [|e es] eqn:CE; [tauto|].
  inversion F as [|? ? (Z & P & X) F']; subst.
  destruct (nuc_code_facts preserve m e Z P X) as (L & D & NL & W & M).
  assert (NZ := zaid_wordy _ NU).
  assert (NLS : Forall (fun x => ~ In newline x) ((if comment then [T "C Material " ++ m_name m] else []) ++
             (T "M" ++ m_num m ++ nuc_code preserve m e) :: map (nuc_code preserve m) es)).
  { apply Forall_app. split.
    - destruct comment; [|constructor]. constructor; [|constructor]. rewrite in_app_iff. intros [I|I]; [|tauto].
      revert I. vm_compute. intuition discriminate.
    - constructor.
      + rewrite !in_app_iff. intros [I|[I|I]]; [revert I; vm_compute; intuition discriminate| |tauto].
        revert I. apply wordy_no; [exact NZ|tauto].
      + apply Forall_map. apply (Forall_impl _) with (2 := F'). intros e' (Z' & P' & X').
        now destruct (nuc_code_facts preserve m e' Z' P' X') as (_ & _ & NL' & _). }
  split; [|exact NLS].
  unfold read_lines. rewrite readlines_lines by exact NLS. rewrite !map_app. unfold drop_comment_lines. rewrite filter_app.
  assert (C0 : filter (fun x => negb (is_comment_line x)) (map lower (map (fun x => x ++ [newline]) (if comment then [T "C Material " ++ m_name m] else []))) = []).
  { destruct comment; reflexivity. }
  match goal with |- ?a ++ _ = _ => replace a with (@nil text) by (symmetry; exact C0) end.
  cbn [app map filter]. unfold card_lines. cbn [fst snd].
  assert (H1 : lower ((T "M" ++ m_num m ++ nuc_code preserve m e) ++ [newline]) = printed (mkL (T "m" ++ m_num m ++ nuc_code preserve m e) None)).
  { unfold printed. cbn [code remark app]. rewrite !lower_app, L. destruct NZ as (_ & _ & ->). reflexivity. }
  cbn [app] in H1. cbn [T list_ascii_of_string app] in H1 |- *. rewrite H1.
  match goal with |- (if negb (is_comment_line ?x) then _ else _) = _ => change (is_comment_line x) with false end. cbn [negb]. f_equal.
  clear - F'. induction F' as [|e' es (Z' & P' & X') F' IH]; [reflexivity|].
  destruct (nuc_code_facts preserve m e' Z' P' X') as (L' & _). cbn [map filter]. rewrite lower_app, L', IH. reflexivity.
Qed.

Definition mat_out (preserve comment : bool) (l : list material) : text :=
  concat (map (fun m => concat (map (fun x => x ++ [newline]) (mat_lines preserve comment m))) l).

Lemma write_all_ok preserve comment l : Forall (good_material preserve) l ->
  write_all (write_mcnp_material show preserve comment) l = Some (mat_out preserve comment l).
Proof.
  intro F. unfold write_all, mat_out. assert (M : mapM (write_mcnp_material show preserve comment) l =
    Some (map (fun m => concat (map (fun x => x ++ [newline]) (mat_lines preserve comment m))) l)).
  { induction F as [|m l G F IH]; [reflexivity|]. cbn [mapM map]. now rewrite (written_lines preserve comment m G), IH. }
  now rewrite M.
Qed.

Lemma concat_lines_app a b : concat (map (fun x : text => x ++ [newline]) (a ++ b)) =
  concat (map (fun x => x ++ [newline]) a) ++ concat (map (fun x => x ++ [newline]) b).
Proof. now rewrite map_app, concat_app. Qed.

Lemma read_lines_two a b : Forall (fun x => ~ In newline x) a -> Forall (fun x => ~ In newline x) b ->
  read_lines (concat (map (fun x => x ++ [newline]) (a ++ b))) =
  read_lines (concat (map (fun x => x ++ [newline]) a)) ++ read_lines (concat (map (fun x => x ++ [newline]) b)).
Proof.
  intros A B. unfold read_lines. rewrite !readlines_lines by (try assumption; apply Forall_app; now split).
  now rewrite !map_app.
Qed.

Lemma read_mat_out preserve comment l : Forall (good_material preserve) l ->
  drop_comment_lines (read_lines (mat_out preserve comment l)) = flat_map (fun m => card_lines (mat_card preserve m)) l.
Proof.
  assert (K : mat_out preserve comment l = concat (map (fun x => x ++ [newline]) (flat_map (mat_lines preserve comment) l))).
  { unfold mat_out. induction l as [|m l IH]; [reflexivity|]. cbn [map concat flat_map]. now rewrite concat_lines_app, IH. }
  rewrite K. clear K. intro F. induction F as [|m l G F IH]; [reflexivity|]. cbn [flat_map].
  destruct (read_mat_lines preserve comment m G) as [R N].
  rewrite read_lines_two.
  - unfold drop_comment_lines in *. rewrite filter_app, R, IH. reflexivity.
  - exact N.
  - apply Forall_flat_map. apply (Forall_impl _) with (2 := F). intros m' G'. now destruct (read_mat_lines preserve comment m' G').
Qed.

(** The cards of a list of materials are read, one for each. *)
Lemma cards_read preserve l : Forall (good_material preserve) l ->
  exists ts, get_material_cards (flat_map (fun m => card_lines (mat_card preserve m)) l) = ts /\
    Forall2 (fun m nt => fst nt = m_num m /\ exists c x, mcnp_composition (snd nt) = Some (c, x) /\ same_fractions c (m_comp m) /\ same_libraries preserve m x) l ts.
Proof.
  intro F. induction F as [|m l G F (ts & R & H)]; [now exists []|]. cbn [flat_map].
  destruct (mat_card_ok preserve m G) as (rest & K & W).
  destruct (C55_materials [] (m_num m) rest (mat_card preserve m) (flat_map (fun m => card_lines (mat_card preserve m)) l) K) as (t & E & WT & CT).
  { intros x r Q. destruct F as [|m' l G' F]; [discriminate|]. cbn [flat_map] in Q. unfold card_lines at 1 in Q. cbn [app] in Q.
    injection Q as <- _. destruct (mat_card_ok preserve m' G') as (rest' & ((a & A & LA & E) & _) & _).
    unfold printed. rewrite E. clear - A LA. intros (r & Q).
    assert (V : nth_error (T "     " ++ r) (length a) = Some "m"%char).
    { rewrite <- Q, <- app_assoc. rewrite nth_error_app2 by lia. now rewrite Nat.sub_diag. }
    cbn [T list_ascii_of_string app] in V.
    do 5 (destruct a as [|? a]; [cbn in V; discriminate|cbn [length nth_error] in V]). cbn in LA. lia. }
  cbn [app] in E. rewrite R in E. exists ((m_num m, t) :: ts). split; [exact E|]. constructor; [|exact H].
  split; [reflexivity|]. rewrite W in WT. now apply (mat_composition preserve).
Qed.

Lemma add_read preserve l ts : NoDup (map m_num l) ->
  Forall2 (fun m nt => fst nt = m_num m /\ exists c x, mcnp_composition (snd nt) = Some (c, x) /\ same_fractions c (m_comp m) /\
    same_libraries preserve m x) l ts ->
  forall d, (forall m, In m l -> ~ In (m_num m) (keys d)) ->
  exists new, add_materials d ts = Some (d ++ new) /\
    Forall2 (fun m kv => fst kv = m_num m /\ m_num (snd kv) = m_num m /\ same_fractions (m_comp (snd kv)) (m_comp m) /\
      same_libraries preserve m (m_xs (snd kv))) l new.
Proof.
  intros ND H. induction H as [|m [n t] l ts (EN & c & x & C & S & LB) H IH]; intros d FR.
  - exists []. split; [cbn; now rewrite app_nil_r|constructor].
  - cbn [fst snd] in EN, C. subst n. inversion ND as [|? ? NI ND']; subst.
    cbn [add_materials]. unfold add_material, read_mcnp_material. rewrite C. cbn [m_dens m_num m_name m_comp m_xs].
    change (negb (Qle_bool 0 0)) with false. cbv iota. cbn [m_num].
    rewrite dset_new by (apply FR; now left).
    match goal with |- context [d ++ [(_, ?mm)]] => set (m1 := mm) end.
    destruct (IH ND' (d ++ [(m_num m, m1)])) as (new & E & N).
    { intros m' I. unfold keys. rewrite map_app, in_app_iff. cbn [map fst In]. intros [J|[J|[]]].
      - revert J. apply FR. now right.
      - apply NI. rewrite J. now apply in_map. }
    exists ((m_num m, m1) :: new). rewrite E, <- app_assoc. split; [reflexivity|]. constructor; [|exact N].
    cbn [fst snd]. split; [reflexivity|]. split; [reflexivity|]. split; [exact S|exact LB].
Qed.
End Mcnp.

Lemma insert_perm w l : Permutation (insert_text w l) (w :: l).
Proof.
  induction l as [|x l IH]; [reflexivity|]. cbn [insert_text]. destruct (text_leb w x); [reflexivity|].
  rewrite IH. apply perm_swap.
Qed.

Lemma sort_perm l : Permutation (sort_texts l) l.
Proof.
  induction l as [|x l IH]; [reflexivity|]. cbn [sort_texts fold_right]. fold (sort_texts l).
  rewrite insert_perm. now constructor.
Qed.

Lemma dget_in_nodup {V} k (v : V) d : NoDup (keys d) -> In (k, v) d -> dget k d = Some v.
Proof.
  induction d as [|[k' v'] d IH]; intros ND I; [destruct I|]. cbn [dget]. cbn [keys map fst] in ND.
  inversion ND as [|? ? NI ND']; subst. destruct I as [E|I].
  - injection E as -> ->. now rewrite text_eqb_refl.
  - destruct (text_eqb_spec k' k) as [E|E]; [|now apply IH]. exfalso. subst k'. apply NI.
    apply in_map_iff. now exists (k, v).
Qed.

Lemma sorted_ok (ms : dict material) : (forall k m, In (k, m) ms -> k = m_num m) -> NoDup (keys ms) ->
  exists l, sorted_materials ms = Some l /\ map m_num l = sort_texts (keys ms) /\ (forall k m, In (k, m) ms <-> In m l /\ k = m_num m).
Proof.
  intros K ND. unfold sorted_materials.
  assert (P := sort_perm (keys ms)).
  assert (IN : forall k, In k (sort_texts (keys ms)) -> In k (keys ms)).
  { intros k I. now apply (Permutation_in _ P). }
  assert (ALL : forall k, In k (keys ms) -> In k (sort_texts (keys ms))).
  { intros k I. now apply (Permutation_in _ (Permutation_sym P)). }
  revert IN ALL. generalize (sort_texts (keys ms)) as ks. intros ks IN ALL.
  assert (H : exists l, mapM (fun k => dget k ms) ks = Some l /\ map m_num l = ks /\ Forall2 (fun k m => In (k, m) ms) ks l).
  { clear ALL P. induction ks as [|k ks IH]; [now exists []|].
    destruct IH as (l & E & M & F); [intros k' I; apply IN; now right|].
    destruct (dget k ms) as [m|] eqn:Q.
    - exists (m :: l). cbn [mapM map]. rewrite Q, E, M. apply dget_some_in in Q. rewrite <- (K k m Q). repeat split. now constructor.
    - exfalso. apply dget_none in Q. apply Q. apply IN. now left. }
  destruct H as (l & E & M & F). exists l. split; [exact E|]. split; [exact M|].
  intros k m. split.
  - intro I. split; [|now apply K].
    assert (IK : In k ks) by (apply ALL; apply in_map_iff; now exists (k, m)).
    clear - F IK I ND K. induction F as [|k' m' ks l I' F IH]; [destruct IK|]. destruct IK as [->|IK]; [|right; now apply IH].
    left. apply (dget_in_nodup k m) in I; [|exact ND]. apply (dget_in_nodup k m') in I'; [|exact ND]. congruence.
  - intros [I ->]. clear - F I K. induction F as [|k' m' ks l I' F IH]; [destruct I|]. destruct I as [->|I]; [|now apply IH].
    now rewrite <- (K k' m I').
Qed.

Lemma in_forall2_dget preserve l new : NoDup (map m_num l) ->
  Forall2 (fun m kv => fst kv = m_num m /\ m_num (snd kv) = m_num m /\ same_fractions (m_comp (snd kv)) (m_comp m) /\
    same_libraries preserve m (m_xs (snd kv))) l new ->
  keys new = map m_num l /\
  forall m, In m l -> exists m', dget (m_num m) new = Some m' /\ same_fractions (m_comp m') (m_comp m) /\ same_libraries preserve m (m_xs m').
Proof.
  intros ND F. assert (KE : keys new = map m_num l).
  { clear ND. induction F as [|m kv l new (E & _) F IH]; [reflexivity|]. cbn [keys map]. unfold keys in IH. now rewrite E, IH. }
  split; [exact KE|]. intros m I.
  assert (H : exists m', In (m_num m, m') new /\ same_fractions (m_comp m') (m_comp m) /\ same_libraries preserve m (m_xs m')).
  { clear ND KE. induction F as [|m0 [k m'] l new (E & _ & S) F IH]; [destruct I|]. cbn [fst snd] in *. destruct I as [->|I].
    - exists m'. split; [left; congruence|exact S].
    - destruct (IH I) as (m2 & J & S2). exists m2. split; [now right|exact S2]. }
  destruct H as (m' & J & S). exists m'. split; [|exact S]. apply dget_in_nodup; [now rewrite KE|exact J].
Qed.

(** C68 for MCNP, for materials that are not empty: what is written for the materials is read back as materials with
    the same numbers, nuclides and fractions, for every printing of numbers that reads back.  (Missing: materials
    without nuclides, for which it is false, below.) *)
Theorem C68_mcnp_partial (show : Q -> text) (ms : dict material) :
  (forall k m, In (k, m) ms -> k = m_num m /\ good_material show false m) -> NoDup (keys ms) ->
  exists out d, write_mcnp_materials show ms = Some out /\
    add_materials [] (get_material_cards (drop_comment_lines (read_lines out))) = Some d /\
    Permutation (keys d) (keys ms) /\
    forall k m, dget k ms = Some m -> exists m', dget k d = Some m' /\ same_fractions (m_comp m') (m_comp m) /\ same_libraries false m (m_xs m').
Proof.
  intros G ND. destruct (sorted_ok ms) as (l & SE & SM & SI); [intros k m I; now apply G|exact ND|].
  assert (F : Forall (good_material show false) l).
  { apply Forall_forall. intros m I. apply (G (m_num m) m). apply SI. now split. }
  assert (NDL : NoDup (map m_num l)).
  { rewrite SM. apply (Permutation_NoDup (Permutation_sym (sort_perm (keys ms)))). exact ND. }
  destruct (cards_read show false l F) as (ts & R & H).
  destruct (add_read false l ts NDL H []) as (new & A & N); [intros m _ []|].
  destruct (in_forall2_dget false l new NDL N) as [KN GN].
  exists (T "C material definitions" ++ newline :: mat_out show false true l), new. repeat split.
  - unfold write_mcnp_materials. rewrite SE, write_all_ok by exact F. reflexivity.
  - unfold read_lines. rewrite readlines_line by (vm_compute; intuition discriminate). cbn [map].
    unfold drop_comment_lines. cbn [filter].
    match goal with |- context [negb (is_comment_line ?x)] => change (is_comment_line x) with true end. cbn [negb].
    fold (read_lines (mat_out show false true l)). fold (drop_comment_lines (read_lines (mat_out show false true l))).
    rewrite read_mat_out, R by exact F. exact A.
  - rewrite KN, SM. apply sort_perm.
  - intros k m D. apply dget_some_in in D. apply SI in D as [I ->]. now apply GN.
Qed.
Print Assumptions C68_mcnp_partial.

(** C68 for PHITS, whose material section has the form of MCNP cards with libraries. *)
Theorem C68_phits_partial (show : Q -> text) (ms : dict material) :
  (forall k m, In (k, m) ms -> k = m_num m /\ good_material show true m) -> NoDup (keys ms) ->
  exists out d, write_phits_materials show ms = Some out /\
    add_materials [] (get_material_cards (drop_comment_lines (read_lines out))) = Some d /\ keys d = keys ms /\
    forall k m, dget k ms = Some m -> exists m', dget k d = Some m' /\ same_fractions (m_comp m') (m_comp m) /\ same_libraries true m (m_xs m').
Proof.
  intros G ND.
  assert (F : Forall (good_material show true) (map snd ms)).
  { apply Forall_forall. intros m I. apply in_map_iff in I as ([k m'] & E & I). cbn [snd] in E. subst m'. now apply (G k m). }
  assert (KM : map m_num (map snd ms) = keys ms).
  { rewrite map_map. apply map_ext_in. intros [k m] I. cbn [fst snd]. symmetry. now apply G. }
  assert (NDL : NoDup (map m_num (map snd ms))) by now rewrite KM.
  destruct (cards_read show true _ F) as (ts & R & H).
  destruct (add_read true _ ts NDL H []) as (new & A & N); [intros m _ []|].
  destruct (in_forall2_dget true _ new NDL N) as [KN GN].
  exists (mat_out show true false (map snd ms)), new. repeat split.
  - unfold write_phits_materials. now apply write_all_ok.
  - rewrite read_mat_out, R by exact F. exact A.
  - now rewrite KN.
  - intros k m D. apply dget_some_in in D. assert (E : k = m_num m) by now apply G. rewrite E. apply GN.
    apply in_map_iff. now exists (k, m).
Qed.
Print Assumptions C68_phits_partial.

Definition steel : material := mkM (T "12") (T "M12") (-78 # 10) [(T "26056", 3 # 4); (T "6012", 1 # 4)]%Q [(T "26056", T "70c"); (T "6012", [])] None.
Definition water_m : material := mkM (T "2") (T "M2") (-1) [(T "1001", 2 # 3); (T "8016", 1 # 3)]%Q [] None.
Definition gas : material := mkM (T "2") (T "M2") (1 # 1000) [(T "2004", 1)]%Q [(T "2004", T "50c")] (Some "0 0 255"%string).
Definition mats_ex : dict material := [(T "12", steel); (T "2", gas)].

Lemma good_ex preserve m : m = steel \/ m = gas -> good_material (fmt_e 6) preserve m.
Proof.
  assert (Z : forall s, s <> [] -> forallb is_digit s = true -> zaid s) by now split.
  assert (P : forall q, In q [3 # 4; 1 # 4; 1]%Q -> printed_well (fmt_e 6) q).
  { intros q [<-|[<-|[<-|[]]]]; split; try (split; [discriminate|split; reflexivity]);
      eexists; split; try (vm_compute; reflexivity); reflexivity. }
  intros [-> | ->]; unfold good_material; cbn [m_num m_name m_comp m_xs steel gas];
    (split; [apply Z; [discriminate|reflexivity]|]; split; [vm_compute; intuition discriminate|]; split; [discriminate|]; split).
  - constructor; [intros [E|[]]; discriminate|constructor; [intros []|constructor]].
  - constructor; [|constructor; [|constructor]]; cbn [fst snd];
      (split; [apply Z; [discriminate|reflexivity]|]; split; [apply P; cbn; tauto|]); intros _.
    + exists (T "70c"). split; [reflexivity|]. right. split; [discriminate|split; reflexivity].
    + exists []. split; [reflexivity|]. now left.
  - constructor; [intros []|constructor].
  - constructor; [|constructor]; cbn [fst snd].
    split; [apply Z; [discriminate|reflexivity]|]. split; [apply P; cbn; tauto|]. intros _.
    exists (T "50c"). split; [reflexivity|]. right. split; [discriminate|split; reflexivity].
Qed.

Example mcnp_ex :
  (forall preserve k m, In (k, m) mats_ex -> k = m_num m /\ good_material (fmt_e 6) preserve m) /\ NoDup (keys mats_ex) /\
  write_mcnp_materials (fmt_e 6) mats_ex = Some
    (T "C material definitions" ++ newline :: T "C Material M12" ++ newline :: T "M12     26056 7.500000e-01" ++ newline ::
     T "     6012 2.500000e-01" ++ newline :: T "C Material M2" ++ newline :: T "M2     2004 1.000000e+00" ++ [newline]).
Proof.
  split; [|split].
  - intros preserve k m [E|[E|[]]]; injection E as <- <-; (split; [reflexivity|]); apply good_ex; tauto.
  - constructor; [intros [E|[]]; discriminate|constructor; [intros []|constructor]].
  - vm_compute. reflexivity.
Qed.

(** C68 is false: a material without nuclides (what is left of an element that has no natural isotopes) has no line
    end, so that it swallows the line after it.  For MCNP the file cannot be read any more. *)
Theorem C68_empty_mcnp_refuted : exists ms out,
  (forall k m, In (k, m) ms -> k = m_num m) /\ keys ms = [T "1"; T "2"] /\ dget (T "2") ms = Some gas /\
  write_mcnp_materials (fmt_e 6) ms = Some out /\
  add_materials [] (get_material_cards (drop_comment_lines (read_lines out))) = None.
Proof.
  exists [(T "1", mkM (T "1") (T "M1") (-1) [] [] None); (T "2", gas)]. eexists.
  split; [intros k m [E|[E|[]]]; injection E as <- <-; reflexivity|]. split; [reflexivity|]. split; [reflexivity|].
  split; [vm_compute; reflexivity|]. vm_compute. reflexivity.
Qed.
Print Assumptions C68_empty_mcnp_refuted.

(** For PHITS materials 1 and 2 become one material 12. *)
Theorem C68_empty_phits_refuted : exists ms out d,
  (forall k m, In (k, m) ms -> k = m_num m) /\ keys ms = [T "1"; T "2"] /\ dget (T "2") ms = Some gas /\
  write_phits_materials (fmt_e 6) ms = Some out /\
  add_materials [] (get_material_cards (drop_comment_lines (read_lines out))) = Some d /\ keys d = [T "12"].
Proof.
  exists [(T "1", mkM (T "1") (T "M1") (-1) [] [] None); (T "2", gas)]. do 2 eexists.
  split; [intros k m [E|[E|[]]]; injection E as <- <-; reflexivity|]. split; [reflexivity|]. split; [reflexivity|].
  split; [vm_compute; reflexivity|]. split; vm_compute; reflexivity.
Qed.
Print Assumptions C68_empty_phits_refuted.

(* ------------------------------------------------------------------ *)
(** * Serpent *)

Lemma fmt_e_wordy d q : wordy (fmt_e d q) /\ get_fortran_formatted_number (fmt_e d q) = py_float (fmt_e d q).
Proof.
  assert (DG : forall t, all_digits t -> forallb (fun c => negb (is_space c) && negb (Ascii.eqb c "$") && negb (Ascii.eqb c "=") && negb (Ascii.eqb c "%")) t = true).
  { intros t A. unfold all_digits in A. rewrite forallb_forall in *. intros c I. apply A in I. destruct (digit_plain c I) as (S & _ & B & C & _ & _ & P & _).
    rewrite S. destruct (Ascii.eqb_spec c "$"); [tauto|]. destruct (Ascii.eqb_spec c "="); [tauto|].
    destruct (Ascii.eqb_spec c "%"); [tauto|]. reflexivity. }
  unfold fmt_e. destruct (sci d q) as [m e]. unfold sci_text.
  assert (A1 := fix_digits_digits 1 (m / 10 ^ N.of_nat d)). assert (A2 := fix_digits_digits d m).
  destruct (exp_digits_ok (Z.abs_N e)) as (_ & A3 & _).
  assert (NE : fix_digits 1 (m / 10 ^ N.of_nat d) <> []).
  { intro K. assert (L := fix_digits_length 1 (m / 10 ^ N.of_nat d)). rewrite K in L. discriminate. }
  revert A1 A2 A3 NE. generalize (fix_digits 1 (m / 10 ^ N.of_nat d)) as a, (fix_digits d m) as b, (exp_digits (Z.abs_N e)) as c.
  intros a b c A1 A2 A3 NE. split; [split; [|split]|].
  - destruct a; [tauto|]. destruct (Qle_bool 0 q); discriminate.
  - rewrite !forallb_app, (DG a A1), (DG b A2), (DG c A3). destruct (Qle_bool 0 q), (e <? 0)%Z; reflexivity.
  - rewrite !lower_app, (lower_digits a A1), (lower_digits b A2), (lower_digits c A3). destruct (Qle_bool 0 q), (e <? 0)%Z; reflexivity.
  - unfold get_fortran_formatted_number. rewrite app_assoc. change (T "." ++ ?x) with ("."%char :: x).
    rewrite split_on_app.
    + destruct (split_on _ (b ++ _)) as [|w1 r] eqn:SP; [now apply split_on_nonnil in SP|].
      rewrite split_on_none in SP.
      * injection SP as <- <-. rewrite !has_e_app. change (has_e (T "e")) with true. now rewrite orb_true_r.
      * rewrite !in_app_iff. intros [I|[I|[I|I]]].
        -- revert I. now apply not_in_digits.
        -- revert I. cbn. intuition discriminate.
        -- destruct (e <? 0)%Z; revert I; cbn; intuition discriminate.
        -- revert I. now apply not_in_digits.
    + rewrite in_app_iff. intros [I|I].
      * destruct (Qle_bool 0 q); revert I; cbn; intuition discriminate.
      * revert I. now apply not_in_digits.
Qed.

(** A fraction printed with seven digits. *)
Definition seven_digits (a b : Q) : Prop := (Qabs (a - b) <= Qabs b * (1 # 2000000))%Q.

Lemma fmt_e6_reads q : exists v, get_fortran_formatted_number (fmt_e 6 q) = Some v /\ seven_digits v q.
Proof.
  destruct (fmt_e_wordy 6 q) as [_ E]. destruct (py_float_fmt_e 6 q) as (v & V & W). exists v. rewrite E. split; [exact V|].
  unfold seven_digits. rewrite W. assert (H := sci_value_error 6 q). rewrite <- Qmult_assoc in H. exact H.
Qed.

Lemma strip_first c r : is_space c = false -> exists r', strip (c :: r) = c :: r'.
Proof.
  intro S. unfold strip. cbn [lstrip]. rewrite S. unfold rstrip. cbn [rev].
  assert (H : forall l, exists l', lstrip (l ++ [c]) = l' ++ [c]).
  { induction l as [|x l IH].
    - exists []. cbn [app lstrip]. now rewrite S.
    - cbn [app lstrip]. destruct (is_space x); [exact IH|]. now exists (x :: l). }
  destruct (H (rev r)) as (l' & E). rewrite E, rev_app_distr. cbn [rev app]. now eexists.
Qed.

Lemma keeps_line c r : is_space c = false -> c <> "%"%char -> serpent_skips (c :: r) = false.
Proof.
  intros S N. unfold serpent_skips. destruct (strip_first c r S) as (r' & ->). cbn [isspace forallb]. rewrite S. cbn [andb orb].
  now destruct (Ascii.eqb_spec c "%").
Qed.
Lemma skips_remark r : serpent_skips ("%"%char :: r) = true.
Proof. unfold serpent_skips. destruct (strip_first "%" r eq_refl) as (r' & ->). apply orb_true_r. Qed.

Section Serpent.
Context (show : Q -> text).

(** What the Serpent writer needs to know of a material; it may be empty. *)
Definition serpent_good (m : material) : Prop :=
  zaid (m_num m) /\ ~ In newline (m_name m) /\
  wordy (show (m_dens m)) /\ (exists v, py_float (show (m_dens m)) = Some v /\ (v == m_dens m)%Q) /\
  (forall c, m_colour m = Some c -> ~ In newline (T c)) /\
  NoDup (keys (m_comp m)) /\ Forall (fun e => zaid (fst e)) (m_comp m).

Definition head_line (m : material) : text :=
  T "mat " ++ m_num m ++ T " " ++ show (m_dens m) ++ match m_colour m with Some c => T " rgb " ++ T c | None => [] end.
Definition nuclide_line (e : text * Q) : text := fst e ++ T " " ++ fmt_e 6 (snd e) ++ T " ".
Definition serpent_mat_lines (m : material) : list text :=
  (T "% " ++ m_name m) :: head_line m :: map nuclide_line (m_comp m).

Lemma serpent_written m : write_serpent_material show m = concat (map (fun x => x ++ [newline]) (serpent_mat_lines m)).
Proof.
  unfold write_serpent_material, serpent_mat_lines. cbn [map concat]. rewrite map_map, <- !app_assoc. cbn [app].
  assert (C : map (fun e => nuclide_line e ++ [newline]) (m_comp m) = map serpent_nuclide (m_comp m)).
  { apply map_ext. intro e. unfold nuclide_line, serpent_nuclide. now rewrite <- !app_assoc. }
  rewrite C. unfold head_line. rewrite <- !app_assoc. destruct (m_colour m); rewrite <- ?app_assoc; reflexivity.
Qed.

Lemma serpent_lines_ok m : serpent_good m -> Forall (fun x => ~ In newline x) (serpent_mat_lines m).
Proof.
  intros (Z & NM & WD & _ & NC & _ & F). unfold serpent_mat_lines. constructor; [|constructor].
  - rewrite in_app_iff. intros [I|I]; [revert I; vm_compute; intuition discriminate|tauto].
  - unfold head_line. rewrite !in_app_iff. intros [I|[I|[I|[I|I]]]].
    + revert I; vm_compute; intuition discriminate.
    + revert I. apply wordy_no; [now apply zaid_wordy|tauto].
    + revert I; vm_compute; intuition discriminate.
    + revert I. apply wordy_no; [exact WD|tauto].
    + destruct (m_colour m) as [c|]; [|destruct I]. rewrite in_app_iff in I. destruct I as [I|I]; [revert I; vm_compute; intuition discriminate|].
      now apply (NC c).
  - apply Forall_map. apply (Forall_impl _) with (2 := F). intros e Z'. unfold nuclide_line. rewrite !in_app_iff. intros [I|[I|[I|I]]].
    + revert I. apply wordy_no; [now apply zaid_wordy|tauto].
    + revert I; vm_compute; intuition discriminate.
    + revert I. apply wordy_no; [apply fmt_e_wordy|tauto].
    + revert I; vm_compute; intuition discriminate.
Qed.

Definition head_read (m : material) : text := lower (head_line m ++ [newline]).
Definition nuclide_read (e : text * Q) : text := nuclide_line e ++ [newline].

Lemma serpent_lines_read m : serpent_good m ->
  serpent_lines (map lower (map (fun x => x ++ [newline]) (serpent_mat_lines m))) = head_read m :: map nuclide_read (m_comp m).
Proof.
  intros (Z & NM & WD & _ & NC & _ & F). unfold serpent_mat_lines, serpent_lines. cbn [map filter].
  change (lower ((T "% " ++ m_name m) ++ [newline])) with ("%"%char :: lower ((T " " ++ m_name m) ++ [newline])).
  rewrite skips_remark. cbn [negb].
  change (lower (head_line m ++ [newline])) with (head_read m).
  assert (H : serpent_skips (head_read m) = false).
  { unfold head_read, head_line. change (lower ((T "mat " ++ ?x) ++ [newline])) with ("m"%char :: lower ((T "at " ++ x) ++ [newline])).
    apply keeps_line; [reflexivity|discriminate]. }
  rewrite H. cbn [negb]. f_equal. clear - F. induction F as [|e l Z F IH]; [reflexivity|]. cbn [map filter].
  assert (E : lower (nuclide_line e ++ [newline]) = nuclide_read e).
  { unfold nuclide_read, nuclide_line. rewrite !lower_app. destruct (zaid_wordy _ Z) as (_ & _ & ->).
    destruct (fmt_e_wordy 6 (snd e)) as ((_ & _ & ->) & _). reflexivity. }
  rewrite E. destruct Z as [ZN ZD].
  assert (K : serpent_skips (nuclide_read e) = false).
  { unfold nuclide_read, nuclide_line. destruct (fst e) as [|c r]; [tauto|]. cbn [forallb] in ZD. apply andb_true_iff in ZD as [D _].
    destruct (digit_plain c D) as (S & _ & _ & _ & _ & _ & P & _). cbn [app]. now apply keeps_line. }
  rewrite K. cbn [negb]. now rewrite IH.
Qed.

Lemma nuclide_read_facts e : zaid (fst e) ->
  words (nuclide_read e) = [fst e; fmt_e 6 (snd e)] /\ is_mat_line (nuclide_read e) = false /\ cut_percent (nuclide_read e) = nuclide_read e.
Proof.
  intro Z. assert (W := zaid_wordy _ Z). destruct (fmt_e_wordy 6 (snd e)) as (WF & _). split; [|split].
  - unfold nuclide_read, nuclide_line. rewrite <- !app_assoc. change (T " " ++ ?x) with (blank :: x).
    rewrite words_app_space by exact blank_is_space. rewrite (words_single (fst e)) by now apply wordy_nospace.
    cbn [app]. f_equal. change (T " " ++ [newline]) with (blank :: [newline]).
    rewrite words_app_space by exact blank_is_space. rewrite words_single by now apply wordy_nospace. reflexivity.
  - unfold nuclide_read, nuclide_line. destruct Z as [ZN ZD]. destruct (fst e) as [|c r]; [tauto|]. cbn [forallb] in ZD.
    apply andb_true_iff in ZD as [D _]. destruct (digit_plain c D) as (_ & _ & _ & _ & _ & M & _ & _ & B & _).
    cbn [app is_mat_line firstn]. destruct (Ascii.eqb_spec c blank); [tauto|]. cbn [andb]. rewrite orb_false_r.
    cbn [T list_ascii_of_string text_eqb]. now destruct (Ascii.eqb_spec c "m").
  - unfold cut_percent. destruct (existsb (Ascii.eqb "%") (nuclide_read e)) eqn:X; [|reflexivity]. exfalso.
    apply existsb_exists in X as (c & I & C). apply Ascii.eqb_eq in C. subst c.
    unfold nuclide_read, nuclide_line in I. rewrite !in_app_iff in I. destruct I as [[I|[I|[I|I]]]|I].
    + revert I. apply wordy_no; tauto.
    + revert I. vm_compute. intuition discriminate.
    + revert I. apply wordy_no; tauto.
    + revert I. vm_compute. intuition discriminate.
    + revert I. vm_compute. intuition discriminate.
Qed.

Lemma head_read_facts m : serpent_good m -> is_mat_line (head_read m) = true /\
  exists r, words (head_read m) = T "mat" :: m_num m :: show (m_dens m) :: r.
Proof.
  intros (Z & NM & WD & _ & NC & _ & F). assert (WZ := zaid_wordy _ Z).
  assert (E : head_read m = T "mat" ++ blank :: m_num m ++ blank :: show (m_dens m) ++
                lower (match m_colour m with Some c => T " rgb " ++ T c | None => [] end ++ [newline])).
  { unfold head_read, head_line. rewrite <- !app_assoc. rewrite !lower_app. destruct WZ as (_ & _ & ->). destruct WD as (_ & _ & ->).
    rewrite <- ?app_assoc. reflexivity. }
  split; [rewrite E; reflexivity|]. rewrite E.
  rewrite words_app_space by exact blank_is_space. rewrite words_app_space by exact blank_is_space.
  rewrite (words_single (m_num m)) by now apply wordy_nospace.
  assert (K : exists s x, is_space s = true /\ lower (match m_colour m with Some c => T " rgb " ++ T c | None => [] end ++ [newline]) = s :: x).
  { destruct (m_colour m) as [c|]; [exists blank|exists newline]; eexists; split; reflexivity. }
  destruct K as (s & x & S & ->). rewrite words_app_space by exact S. rewrite (words_single (show (m_dens m))) by now apply wordy_nospace.
  cbn [app]. exists (words x). reflexivity.
Qed.

Lemma serpent_text_read c rest : Forall (fun e => zaid (fst e)) c ->
  (rest = [] \/ exists x r t, rest = x :: r /\ words x = T "mat" :: t) ->
  serpent_text (map nuclide_read c ++ rest) = Some (concat (map nuclide_read c)).
Proof.
  intros F R. induction F as [|e c Z F IH].
  - cbn [map app concat]. destruct R as [->|(x & r & t & -> & W)]; [reflexivity|]. cbn [serpent_text]. now rewrite W.
  - cbn [map app serpent_text]. destruct (nuclide_read_facts e Z) as (-> & _ & ->). rewrite IH.
    destruct (text_eqb_spec (fst e) (T "mat")) as [E|E]; [|reflexivity]. destruct Z as [_ ZD]. rewrite E in ZD. discriminate.
Qed.

Lemma replace_none c t s : ~ In c s -> replace_char c t s = s.
Proof.
  intro N. induction s as [|x s IH]; [reflexivity|]. cbn [In] in N. unfold replace_char in *. cbn [flat_map].
  destruct (Ascii.eqb_spec c x) as [E|E]; [symmetry in E; tauto|]. cbn [app]. now rewrite IH by tauto.
Qed.

Lemma serpent_words c : Forall (fun e => zaid (fst e)) c ->
  words (replace_char newline [blank] (concat (map nuclide_read c))) = flat_map (fun e => [fst e; fmt_e 6 (snd e)]) c.
Proof.
  intro F. induction F as [|e c Z F IH]; [reflexivity|]. cbn [map concat flat_map]. rewrite replace_char_app.
  assert (E : replace_char newline [blank] (nuclide_read e) = nuclide_line e ++ [blank]).
  { unfold nuclide_read. rewrite replace_char_app. rewrite replace_none; [reflexivity|].
    unfold nuclide_line. rewrite !in_app_iff. intros [I|[I|[I|I]]].
    + revert I. apply wordy_no; [now apply zaid_wordy|tauto].
    + revert I; vm_compute; intuition discriminate.
    + revert I. apply wordy_no; [apply fmt_e_wordy|tauto].
    + revert I; vm_compute; intuition discriminate. }
  rewrite E, <- app_assoc. cbn [app]. rewrite words_app_space by exact blank_is_space. rewrite IH.
  destruct (nuclide_read_facts e Z) as (W & _). unfold nuclide_read in W.
  rewrite words_app_space in W by reflexivity. rewrite app_nil_r in W. now rewrite W.
Qed.

Lemma serpent_pairs_read c : Forall (fun e => zaid (fst e)) c -> forall acc x, NoDup (keys acc ++ keys c) ->
  exists c' x', serpent_pairs (flat_map (fun e => [fst e; fmt_e 6 (snd e)]) c) acc x = Some (acc ++ c', x') /\
    Forall2 (fun a b => fst a = fst b /\ seven_digits (snd a) (snd b)) c' c.
Proof.
  intro F. induction F as [|e c [ZN ZD] F IH]; intros acc x ND.
  - exists [], x. split; [cbn; now rewrite app_nil_r|constructor].
  - cbn [flat_map app serpent_pairs]. destruct (fmt_e6_reads (snd e)) as (v & V & S). rewrite V. cbv zeta.
    assert (NE : nuclide_of (fst e) = fst e).
    { unfold nuclide_of. rewrite split_on_none; [reflexivity|]. now apply not_in_digits. }
    rewrite NE.
    assert (NK : ~ In (fst e) (keys acc)).
    { intro I. cbn [keys map] in ND. apply NoDup_remove_2 in ND. rewrite in_app_iff in ND. tauto. }
    rewrite (dset_new _ _ _ NK).
    destruct (IH (acc ++ [(fst e, v)]) (dset (fst e) (xsid_of (fst e)) x)) as (c' & x' & E & G).
    { unfold keys in *. rewrite map_app. cbn [map fst]. now rewrite <- app_assoc. }
    exists ((fst e, v) :: c'), x'. rewrite E, <- app_assoc. split; [reflexivity|]. constructor; [now split|exact G].
Qed.

(** What is read for a material. *)
Definition serpent_same (m : material) (r : text * Q * dict Q) : Prop :=
  fst (fst r) = m_num m /\ (snd (fst r) == m_dens m)%Q /\
  Forall2 (fun a b => fst a = fst b /\ seven_digits (snd a) (snd b)) (snd r) (m_comp m).

Lemma serpent_cards_skip c rest : Forall (fun e => zaid (fst e)) c ->
  serpent_cards (map nuclide_read c ++ rest) = serpent_cards rest.
Proof.
  intro F. induction F as [|e c Z F IH]; [reflexivity|]. cbn [map app serpent_cards].
  destruct (nuclide_read_facts e Z) as (_ & -> & _). exact IH.
Qed.

Lemma serpent_cards_read l : Forall serpent_good l ->
  exists rs, serpent_cards (flat_map (fun m => head_read m :: map nuclide_read (m_comp m)) l) = Some rs /\ Forall2 serpent_same l rs.
Proof.
  intro F. induction F as [|m l G F (rs & E & H)]; [now exists []|]. cbn [flat_map app serpent_cards].
  destruct (head_read_facts m G) as (-> & r & W). unfold serpent_card. rewrite W.
  destruct G as (Z & NM & WD & (v & V & VQ) & NC & ND & FZ).
  rewrite serpent_text_read; [|exact FZ|].
  2:{ destruct F as [|m2 l2 G2 F2]; [now left|right]. cbn [flat_map app].
      destruct (head_read_facts m2 G2) as (_ & r2 & W2). do 3 eexists. split; [reflexivity|exact W2]. }
  rewrite serpent_cards_skip, E by exact FZ.
  rewrite V. unfold serpent_composition. rewrite replace_char_app. change (replace_char newline [blank] (T " ")) with (T " ").
  rewrite words_app_space_l by reflexivity. rewrite serpent_words by exact FZ.
  destruct (serpent_pairs_read (m_comp m) FZ [] []) as (c' & x' & -> & S); [exact ND|]. cbn [app].
  eexists. split; [reflexivity|]. constructor; [|exact H]. repeat split; assumption.
Qed.
End Serpent.

(** C68 for Serpent: the material section of a Serpent file is read back as the materials, under their numbers, with
    their densities, nuclides and fractions (the fractions are written with seven digits). *)
Theorem C68_serpent (show : Q -> text) (ms : dict material) : Forall (fun e => serpent_good show (snd e)) ms ->
  exists rs, read_serpent (write_serpent_materials show ms) = Some rs /\ Forall2 (fun e r => serpent_same (snd e) r) ms rs.
Proof.
  intro F. assert (FL : Forall (serpent_good show) (map snd ms)) by now apply Forall_map.
  destruct (serpent_cards_read show _ FL) as (rs & E & H). exists rs. split.
  - unfold read_serpent, write_serpent_materials, read_lines.
    assert (W : concat (map (fun e => write_serpent_material show (snd e)) ms) =
                concat (map (fun x => x ++ [newline]) (flat_map (serpent_mat_lines show) (map snd ms)))).
    { clear. induction ms as [|e l IH]; [reflexivity|]. cbn [map concat flat_map]. rewrite map_app, concat_app, IH. f_equal. apply serpent_written. }
    rewrite W, readlines_line by (vm_compute; intuition discriminate). cbn [map].
    rewrite readlines_lines by (apply Forall_flat_map; apply (Forall_impl _) with (2 := FL); apply serpent_lines_ok).
    unfold serpent_lines. cbn [filter]. match goal with |- context [serpent_skips ?x] => change (serpent_skips x) with true end. cbn [negb].
    rewrite <- E. f_equal. clear - FL. induction FL as [|m l G F IH]; [reflexivity|]. cbn [flat_map]. rewrite !map_app, filter_app.
    apply f_equal2; [now apply serpent_lines_read|exact IH].
  - clear - H. remember (map snd ms) as l eqn:L. revert ms L. induction H as [|m r l rs S H IH]; intros [|e ms] L; try discriminate; [constructor|].
    injection L as -> ->. constructor; [exact S|now apply IH].
Qed.
Print Assumptions C68_serpent.

Definition void_m : material := mkM (T "7") (T "M7") (-1 # 2) [] [] None.
Definition mats_ser : dict material := [(T "12", steel); (T "7", void_m); (T "2", gas)].
Example serpent_ex : Forall (fun e => serpent_good (fmt_e 6) (snd e)) mats_ser /\
  read_serpent (write_serpent_materials (fmt_e 6) mats_ser) <> None.
Proof.
  split; [|vm_compute; discriminate].
  assert (Z : forall s, s <> [] -> forallb is_digit s = true -> zaid s) by now split.
  constructor; [|constructor; [|constructor; [|constructor]]]; cbn [snd]; unfold serpent_good; cbn [m_num m_name m_comp m_xs m_dens m_colour steel gas void_m].
  - split; [apply Z; [discriminate|reflexivity]|]. split; [vm_compute; intuition discriminate|]. split; [apply fmt_e_wordy|].
    split; [eexists; split; [vm_compute; reflexivity|reflexivity]|]. split; [discriminate|].
    split; [constructor; [intros [E|[]]; discriminate|constructor; [intros []|constructor]]|].
    constructor; [|constructor; [|constructor]]; (apply Z; [discriminate|reflexivity]).
  - split; [apply Z; [discriminate|reflexivity]|]. split; [vm_compute; intuition discriminate|]. split; [apply fmt_e_wordy|].
    split; [eexists; split; [vm_compute; reflexivity|reflexivity]|]. split; [discriminate|]. split; constructor.
  - split; [apply Z; [discriminate|reflexivity]|]. split; [vm_compute; intuition discriminate|]. split; [apply fmt_e_wordy|].
    split; [eexists; split; [vm_compute; reflexivity|reflexivity]|].
    split; [intros c E; injection E as <-; vm_compute; intuition discriminate|].
    split; [constructor; [intros []|constructor]|]. constructor; [|constructor]. apply Z; [discriminate|reflexivity].
Qed.
