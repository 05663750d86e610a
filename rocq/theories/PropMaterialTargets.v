(** C69: what is written for materials in the files of OpenMC and SCONE. *)
From Coq Require Import QArith Qabs Lqa.
From Verif Require Import PyStr PyStrFacts FortranNumber FortranNumberProofs PyInt PyIntFacts PyDict CellModel FlattenModel NamesModel
  NuclideData MaterialModel PyFmtE PyFmtEFacts DeckScan MaterialWriters PropNames PropDeck PropMaterialOut.
Open Scope nat_scope.
Open Scope list_scope.

(* ------------------------------------------------------------------ *)
(** * OpenMC *)

(** A key of a composition, for a nuclide that has a name. *)
Definition nuclide_key (k : text) (z a : Z) : Prop :=
  k = str_Z (1000 * z + a) /\ (1 <= z <= 118)%Z /\ (1 <= a <= 999)%Z /\ (10 <= z \/ a <= 99)%Z.

(** The OpenMC element of a nuclide: its symbol and mass number, the size of the fraction, and whether it is a
    fraction of the mass. *)
Definition openmc_same (show : Q -> text) (e : text * Q) (n : text * bool * text) : Prop :=
  (exists z a s, nuclide_key (fst e) z a /\ symbol z = Some s /\ fst (fst n) = s ++ str_Z a) /\
  snd n = show (Qabs (snd e)) /\ (snd (fst n) = true <-> (snd e < 0)%Q).

Lemma qle_bool_neg q : negb (Qle_bool 0 q) = true <-> (q < 0)%Q.
Proof.
  destruct (Qle_bool 0 q) eqn:E; cbn [negb].
  - apply Qle_bool_iff in E. split; [discriminate|lra].
  - split; [intros _|reflexivity]. destruct (Qlt_le_dec q 0) as [L|L]; [exact L|]. apply Qle_bool_iff in L. congruence.
Qed.

(** C69 for OpenMC: number, name, size of the density with the unit given by its sign, and one nuclide for each of the
    composition, all with different names.  If the fractions are all of mass or all of atoms, none of them zero, the
    nuclides are all of one kind. *)
Theorem C69_openmc_partial (show : Q -> text) (m : material) :
  NoDup (keys (m_comp m)) -> Forall (fun e => exists z a, nuclide_key (fst e) z a) (m_comp m) ->
  exists el, write_openmc_material show m = Some el /\ om_id el = m_num m /\ om_name el = m_name m /\
    om_value el = show (Qabs (m_dens m)) /\ ((m_dens m < 0)%Q -> om_units el = T "g/cc") /\
    (~ (m_dens m < 0)%Q -> om_units el = T "atom/b-cm") /\
    Forall2 (openmc_same show) (m_comp m) (om_nuclides el) /\ NoDup (map (fun n => fst (fst n)) (om_nuclides el)) /\
    (Forall (fun e => 0 < snd e)%Q (m_comp m) -> Forall (fun n => snd (fst n) = false) (om_nuclides el)) /\
    (Forall (fun e => snd e < 0)%Q (m_comp m) -> Forall (fun n => snd (fst n) = true) (om_nuclides el)).
Proof.
  intros ND F. unfold write_openmc_material.
  assert (H : exists l, mapM (openmc_nuclide show) (m_comp m) = Some l /\ Forall2 (openmc_same show) (m_comp m) l).
  { clear ND. induction F as [|e c (z & a & K) F (l & E & H)]; [now exists []|].
    assert (K' := K). destruct K' as (KE & KZ & KA & KC). destruct (proj1 C52_names_partial z a KZ KA KC) as (s & S & N).
    eexists. cbn [mapM]. unfold openmc_nuclide at 1. rewrite KE, N, E. split; [reflexivity|]. constructor; [|exact H].
    split; [|split]; cbn [fst snd].
    - exists z, a, s. now split.
    - reflexivity.
    - apply qle_bool_neg. }
  destruct H as (l & -> & H). eexists. split; [reflexivity|]. cbn [om_id om_name om_value om_units om_nuclides].
  split; [reflexivity|]. split; [reflexivity|]. split; [reflexivity|]. assert (Q0 := qle_bool_neg (m_dens m)).
  split; [|split; [|split; [exact H|split; [|split]]]].
  - intro L. apply Q0 in L. destruct (Qle_bool 0 (m_dens m)); [discriminate|reflexivity].
  - intro L. destruct (Qle_bool 0 (m_dens m)); [reflexivity|]. exfalso. apply L. now apply Q0.
  - clear Q0. induction H as [|e n c l ((z & a & s & K & S & N) & V & B) H IH]; [constructor|].
    cbn [keys map] in *. inversion ND as [|? ? NI ND']; subst. inversion F as [|? ? _ F']; subst. constructor; [|now apply IH].
    intro I. apply NI. apply in_map_iff in I as (n2 & E2 & I2).
    clear - H I2 E2 K S N. induction H as [|e' n' c l ((z' & a' & s' & K' & S' & N') & _) H IH]; [destruct I2|].
    cbn [keys map]. destruct I2 as [->|I2]; [left|right; now apply IH].
    destruct K as (KE & KZ & KA & KC), K' as (KE' & KZ' & KA' & KC'). rewrite KE, KE'.
    rewrite N, N' in E2. destruct (str_Z_pos_digits a ltac:(lia)) as [D1 D2]. destruct (str_Z_pos_digits a' ltac:(lia)) as [D1' D2'].
    destruct (split_name s' s (str_Z a') (str_Z a)) as [Es Ea]; auto; try (eapply symbols_digitless; eassumption).
    subst s'. apply str_Z_inj in Ea. subst a'. f_equal. f_equal. f_equal. now apply (symbol_inj z' z s).
  - clear - H. intro P. induction H as [|e n c l (_ & _ & B) H IH]; [constructor|]. inversion P as [|? ? P1 P2]; subst.
    constructor; [|now apply IH]. destruct (snd (fst n)); [|reflexivity]. exfalso. destruct B as [B _]. specialize (B eq_refl). lra.
  - clear - H. intro P. induction H as [|e n c l (_ & _ & B) H IH]; [constructor|]. inversion P as [|? ? P1 P2]; subst.
    constructor; [|now apply IH]. now apply B.
Qed.
Print Assumptions C69_openmc_partial.

Example openmc_ex : NoDup (keys (m_comp steel)) /\ Forall (fun e => exists z a, nuclide_key (fst e) z a) (m_comp steel) /\
  write_openmc_material (fmt_e 6) steel = Some (mkOM (T "12") (T "M12") (T "7.800000e+00") (T "g/cc")
    [(T "Fe56", false, T "7.500000e-01"); (T "C12", false, T "2.500000e-01")]).
Proof.
  split; [|split].
  - constructor; [intros [E|[]]; discriminate|constructor; [intros []|constructor]].
  - constructor; [exists 26%Z, 56%Z|constructor; [exists 6%Z, 12%Z|constructor]]; (split; [reflexivity|lia]).
  - vm_compute. reflexivity.
Qed.

(** C69 is false of a nuclide with fraction zero among fractions of mass: it is written as a fraction of atoms, so that
    the material mixes the two kinds. *)
Theorem C69_openmc_zero_refuted : exists m el, Forall (fun e => snd e <= 0)%Q (m_comp m) /\
  write_openmc_material (fmt_e 6) m = Some el /\ om_nuclides el =
    [(T "Fe56", true, T "1.000000e+00"); (T "C12", false, T "0.000000e+00")].
Proof.
  exists (mkM (T "1") (T "M1") (-1) [(T "26056", -1); (T "6012", 0)]%Q [] None). eexists. split; [|split; [vm_compute; reflexivity|reflexivity]].
  constructor; [|constructor; [|constructor]]; discriminate.
Qed.
Print Assumptions C69_openmc_zero_refuted.

(* ------------------------------------------------------------------ *)
(** * SCONE *)

(** A reader of the SCONE dictionary of a material: lines that begin with an exclamation mark are remarks; the words
    are the name, a brace, [composition], a brace, pairs of nuclide and density with a semicolon, and a closing brace. *)
Definition scone_words (s : text) : list text :=
  flat_map words (filter (fun x => negb (Ascii.eqb (hd blank x) "!")) (text_lines s)).
Fixpoint scone_pairs (ws : list text) : option (list (text * Q) * list text) :=
  match ws with
  | a :: r =>
      if text_eqb a (T "}") then Some ([], r)
      else match r with
           | b :: r' =>
               match rev b with
               | c :: w =>
                   if Ascii.eqb c ";" then
                     match py_float (rev w), scone_pairs r' with
                     | Some q, Some (l, t) => Some ((a, q) :: l, t)
                     | _, _ => None
                     end
                   else None
               | [] => None
               end
           | [] => None
           end
  | [] => None
  end.
Definition scone_read (s : text) : option (text * list (text * Q) * list text) :=
  match scone_words s with
  | n :: o1 :: co :: o2 :: r =>
      if text_eqb o1 (T "{") && text_eqb co (T "composition") && text_eqb o2 (T "{") then
        option_map (fun p => (n, fst p, snd p)) (scone_pairs r)
      else None
  | _ => None
  end.

Definition colour_words (m : material) : list text :=
  match m_colour m with Some c => words (T "rgb (" ++ T c ++ T "); ") | None => [] end.

Lemma text_lines_line x r : ~ In newline x -> text_lines (x ++ newline :: r) = x :: text_lines r.
Proof. apply split_on_app. Qed.

Lemma scone_words_line x r : ~ In newline x -> hd blank x <> "!"%char -> scone_words (x ++ newline :: r) = words x ++ scone_words r.
Proof.
  intros N H. unfold scone_words. rewrite text_lines_line by exact N. cbn [filter].
  destruct (Ascii.eqb_spec (hd blank x) "!"); [tauto|]. reflexivity.
Qed.

Lemma scone_pairs_read (c : list (text * Q)) rest : Forall (fun e => zaid (fst e)) c ->
  exists l, scone_pairs (flat_map (fun e : text * Q => [(fst e ++ T ".03" : text); fmt_e 6 (snd e) ++ T ";"]) c ++ T "}" :: rest) = Some (l, rest) /\
    Forall2 (fun a b => fst a = fst b ++ T ".03" /\ seven_digits (snd a) (snd b)) l c.
Proof.
  intro F. induction F as [|e c [ZN ZD] F (l & E & H)]; [now exists []|]. cbn [flat_map app scone_pairs].
  destruct (text_eqb_spec (fst e ++ T ".03") (T "}")) as [K|K].
  { exfalso. destruct (fst e) as [|x [|y r]]; [tauto| |]; discriminate. }
  rewrite rev_app_distr. change (rev (T ";")) with [";"%char]. cbn [app]. rewrite Ascii.eqb_refl, rev_involutive.
  destruct (py_float_fmt_e 6 (snd e)) as (v & V & W). rewrite V.
  replace (scone_pairs _) with (Some (l, rest)) by (symmetry; exact E).
  eexists. split; [reflexivity|]. constructor; [|exact H]. split; [reflexivity|]. cbn [snd]. unfold seven_digits. rewrite W.
  assert (B := sci_value_error 6 (snd e)). rewrite <- Qmult_assoc in B. exact B.
Qed.

(** C69 for SCONE: the text of a material defines, under the name m and its number, each nuclide with the library 03 and
    its atom density (C56 says which) to seven digits; after it only the colour and the closing brace follow. *)
Theorem C69_scone (m : material) c : scone_densities (m_dens m) (m_comp m) = Some c ->
  zaid (m_num m) -> ~ In newline (m_name m) -> Forall (fun e => zaid (fst e)) (m_comp m) ->
  (forall k, m_colour m = Some k -> ~ In newline (T k)) ->
  exists s l, write_scone_material m = Some s /\ scone_read s = Some (T "m" ++ m_num m, l, colour_words m ++ [T "}"]) /\
    Forall2 (fun a b => fst a = fst b ++ T ".03" /\ seven_digits (snd a) (snd b)) l c.
Proof.
  intros D ZN NN F NC. unfold write_scone_material. rewrite D.
  assert (FC : Forall (fun e => zaid (fst e)) c).
  { unfold scone_densities in D. assert (G : forall k, Forall (fun e => zaid (fst e)) (map (fun e : text * Q => (fst e, (snd e * k)%Q)) (m_comp m))).
    { intro k. apply Forall_map. apply (Forall_impl _) with (2 := F). tauto. }
    destruct (negb (Qle_bool (m_dens m) 0)); [injection D as <-; apply G|]. destruct (zaids (m_comp m)); [|discriminate].
    cbv zeta in D. destruct (Qeq_bool _ 0); [discriminate|]. injection D as <-. apply G. }
  destruct (scone_pairs_read c (colour_words m ++ [T "}"]) FC) as (l & E & H). eexists. exists l. split; [reflexivity|]. split; [|exact H].
  unfold scone_read.
  assert (W : scone_words (T "! " ++ m_name m ++ T " " ++ newline :: T "m" ++ m_num m ++ T " { " ++ newline :: T "composition { " ++
                    newline :: concat (map scone_nuclide c) ++ T "} " ++ newline ::
                    match m_colour m with Some c => T "rgb (" ++ T c ++ T "); " ++ [newline] | None => [] end ++
                    T "} " ++ [newline]) =
              (T "m" ++ m_num m) :: T "{" :: T "composition" :: T "{" ::
              flat_map (fun e : text * Q => [(fst e ++ T ".03" : text); fmt_e 6 (snd e) ++ T ";"]) c ++ T "}" :: colour_words m ++ [T "}"]).
  { assert (WN := zaid_wordy _ ZN).
    replace (T "! " ++ m_name m ++ T " " ++ newline :: _) with
      ((T "! " ++ m_name m ++ T " ") ++ newline :: (T "m" ++ m_num m ++ T " { ") ++ newline :: T "composition { " ++
                    newline :: concat (map scone_nuclide c) ++ T "} " ++ newline ::
                    match m_colour m with Some c => T "rgb (" ++ T c ++ T "); " ++ [newline] | None => [] end ++
                    T "} " ++ [newline]) by now rewrite <- !app_assoc.
    unfold scone_words at 1. rewrite text_lines_line.
    2:{ rewrite !in_app_iff. intros [I|[I|I]]; try tauto; revert I; vm_compute; intuition discriminate. }
    cbn [filter]. change (Ascii.eqb (hd blank (T "! " ++ m_name m ++ T " ")) "!") with true. cbn [negb].
    match goal with |- flat_map words (filter _ (text_lines ?x)) = _ => fold (scone_words x) end.
    rewrite scone_words_line.
    2:{ rewrite !in_app_iff. intros [I|[I|I]]; try (revert I; vm_compute; intuition discriminate). revert I. apply wordy_no; tauto. }
    2:{ vm_compute. discriminate. }
    replace (words (T "m" ++ m_num m ++ T " { ")) with [T "m" ++ m_num m; T "{"].
    2:{ rewrite app_assoc. change (T " { ") with (blank :: T "{ "). rewrite words_app_space by exact blank_is_space.
        rewrite words_single; [reflexivity|discriminate|]. destruct (wordy_nospace _ WN) as [_ NS].
        cbn [T list_ascii_of_string app forallb]. exact NS. }
    cbn [app]. do 2 f_equal. rewrite scone_words_line by (vm_compute; intuition discriminate).
    change (words (T "composition { ")) with [T "composition"; T "{"]. cbn [app]. do 2 f_equal.
    clear E H D F. induction FC as [|e c Z FC IH].
    - cbn [map concat app flat_map]. rewrite scone_words_line by (vm_compute; intuition discriminate).
      change (words (T "} ")) with [T "}"]. cbn [app]. f_equal. unfold colour_words. destruct (m_colour m) as [k|].
      + rewrite <- !app_assoc. cbn [app].
        replace (T "rgb (" ++ T k ++ T "); " ++ newline :: T "} " ++ [newline]) with
          ((T "rgb (" ++ T k ++ T "); ") ++ newline :: T "} " ++ [newline]) by now rewrite <- !app_assoc.
        rewrite scone_words_line; [reflexivity| |vm_compute; discriminate].
        rewrite !in_app_iff. intros [I|[I|I]]; [revert I; vm_compute; intuition discriminate|now apply (NC k)|revert I; vm_compute; intuition discriminate].
      + reflexivity.
    - cbn [map concat flat_map]. rewrite <- !app_assoc. unfold scone_nuclide at 1.
      assert (WZ := zaid_wordy _ Z). destruct (fmt_e_wordy 6 (snd e)) as [WF _].
      match goal with |- scone_words ((fst e ++ T ".03 " ++ fmt_e 6 (snd e) ++ T "; " ++ [newline]) ++ ?x) = _ =>
        replace ((fst e ++ T ".03 " ++ fmt_e 6 (snd e) ++ T "; " ++ [newline]) ++ x) with
        ((fst e ++ T ".03 " ++ fmt_e 6 (snd e) ++ T "; ") ++ newline :: x) by (rewrite <- !app_assoc; reflexivity) end.
      rewrite scone_words_line.
      + rewrite IH.
        replace (fst e ++ T ".03 " ++ fmt_e 6 (snd e) ++ T "; ") with ((fst e ++ T ".03") ++ blank :: (fmt_e 6 (snd e) ++ T ";") ++ [blank])
          by (rewrite <- !app_assoc; reflexivity).
        rewrite words_app_space by exact blank_is_space. rewrite words_app_space by exact blank_is_space.
        destruct (wordy_nospace _ WZ) as [N1 S1]. destruct (wordy_nospace _ WF) as [N2 S2].
        rewrite (words_single (fst e ++ _)), (words_single (fmt_e _ _ ++ _)); [reflexivity| | | |].
        * destruct (fmt_e 6 (snd e)); [tauto|discriminate].
        * now rewrite forallb_app, S2.
        * destruct (fst e); [tauto|discriminate].
        * now rewrite forallb_app, S1.
      + rewrite !in_app_iff. intros [I|[I|[I|I]]].
        * revert I. apply wordy_no; tauto.
        * revert I. cbn. intuition discriminate.
        * revert I. apply wordy_no; tauto.
        * revert I. cbn. intuition discriminate.
      + destruct Z as [ZN' ZD']. destruct (fst e) as [|x r]; [tauto|]. cbn [app hd]. intros ->. discriminate. }
  match goal with |- match scone_words ?x with _ => _ end = _ => replace (scone_words x) with
    ((T "m" ++ m_num m) :: T "{" :: T "composition" :: T "{" ::
      flat_map (fun e : text * Q => [(fst e ++ T ".03" : text); fmt_e 6 (snd e) ++ T ";"]) c ++ T "}" :: colour_words m ++ [T "}"]) by (symmetry; exact W) end.
  rewrite !text_eqb_refl. cbn [andb]. rewrite E. reflexivity.
Qed.
Print Assumptions C69_scone.

Example scone_ex : exists c, scone_densities (m_dens gas) (m_comp gas) = Some c /\
  zaid (m_num gas) /\ ~ In newline (m_name gas) /\ Forall (fun e => zaid (fst e)) (m_comp gas) /\
  (forall k, m_colour gas = Some k -> ~ In newline (T k)) /\
  option_map scone_read (write_scone_material gas) =
    Some (Some (T "m2", [(T "2004.03", 1000000 # 1000000000)%Q], [T "rgb"; T "(0"; T "0"; T "255);"; T "}"])).
Proof.
  eexists. split; [reflexivity|]. split; [split; [discriminate|reflexivity]|]. split; [vm_compute; intuition discriminate|].
  split; [constructor; [split; [discriminate|reflexivity]|constructor]|].
  split; [intros k E; injection E as <-; vm_compute; intuition discriminate|]. vm_compute. reflexivity.
Qed.
