(** A Serpent file converted to PHITS or SCONE (csg2csg/__main__.py 68-134, SerpentInput.py): C89. *)
From Coq Require Import QArith Qabs Qfield Reals Lia Lqa.
From Verif Require Import PyStr PyStrFacts PyInt PyIntFacts PyDict FortranNumber FortranNumberProofs MaterialModel MaterialProofs PropMaterial MaterialWriters PropMaterialOut NamesModel PropNames PropMaterialTargets
  NotsModel DeckScan PropDeck PropTexts ConvertModel MainModel LayoutProofs FileProofs WrapProofs OptionsModel PropOptions PropSerpentTo UniverseModel PropUniverse.
From Verif Require CellText PropSerpentIn PropPhitsFile PropSconeFile PropMain PropProcess PropFile.
Open Scope nat_scope.
Open Scope list_scope.

(** ** The libraries *)

(** The library that a list of entries gives a nuclide: what stands after the first point of its word. *)
Definition has_library (es : list PropMaterial.entry) (n l : text) : Prop := exists w f, In (Nuclide w f) es /\ before_dot w = n /\ l = xsid_of w.

Lemma pairs_libraries es : forall c x c' x', Forall is_nuclide es -> NoDup (nuclides_of es) -> serpent_pairs (flat_map entry_words es) c x = Some (c', x') ->
  forall n, (forall w f, In (Nuclide w f) es -> before_dot w = n -> dget n x' = Some (xsid_of w)) /\ (~ lists n es -> dget n x' = dget n x).
Proof.
  induction es as [|e es IH]; intros c x c' x' F ND E n; cbn [flat_map app serpent_pairs] in E.
  - injection E as <- <-. split; [intros w f []|reflexivity].
  - inversion F as [|? ? Oe F']. subst. destruct e as [w|w f]; [destruct Oe|]. cbn [entry_words app serpent_pairs] in E.
    destruct (get_fortran_formatted_number f) as [q|]; [|discriminate E]. cbv zeta in E. rewrite nuclide_of_before in E.
    cbn [nuclides_of flat_map app] in ND. fold (nuclides_of es) in ND. apply NoDup_cons_iff in ND as [NI ND].
    destruct (IH _ _ _ _ F' ND E n) as [H1 H2]. assert (L : lists n es -> In n (nuclides_of es)).
    { intros (w' & f' & I & B). unfold nuclides_of. apply in_flat_map. exists (Nuclide w' f'). split; [exact I|now left]. }
    split.
    + intros w' f' [I|I] B; [|now apply (H1 w' f')]. injection I as <- <-. rewrite H2; [|intro C; apply NI; rewrite B; now apply L].
      rewrite dget_dset. now rewrite B, text_eqb_refl.
    + intro NL. rewrite H2; [|intros (w' & f' & I & B); apply NL; exists w', f'; split; [now right|exact B]].
      rewrite dget_dset. destruct (text_eqb_spec (before_dot w) n) as [B|B]; [|reflexivity]. exfalso. apply NL. exists w, f. split; [now left|exact B].
Qed.

Lemma materials_skip i L rest : Forall PropSerpentIn.good_line L -> Forall PropSerpentIn.no_mat L ->
  serpent_materials i (map PropSerpentIn.as_read (filter PropSerpentIn.says L) ++ rest) = serpent_materials i rest.
Proof.
  intros F N. induction F as [|l L G F IH]; [reflexivity|]. inversion N as [|? ? N1 N2]. subst. cbn [filter]. destruct (PropSerpentIn.says l) eqn:S; [|now apply IH].
  cbn [map app serpent_materials]. rewrite (PropSerpentIn.no_mat_line l G S N1). now apply IH.
Qed.

Lemma smats_libraries ms : Forall PropSerpentIn.good_smat ms -> forall i dm, serpent_materials i (map PropSerpentIn.as_read (filter PropSerpentIn.says (PropSerpentIn.all_lines ms))) = Some dm ->
  Forall2 (fun m e => forall w f, In (Nuclide w f) (PropSerpentIn.sm_entries m) -> dget (before_dot w) (m_xs (snd e)) = Some (xsid_of w)) ms dm.
Proof.
  intro F. induction F as [|m ms G F IH]; intros i dm E; [cbn in E; injection E as <-; constructor|].
  destruct G as (GH & GL & (a & r & A & HD) & WH & D & NM & WL & EO & EN & ND). unfold PropSerpentIn.all_lines in E. cbn [flat_map filter app] in E. fold (PropSerpentIn.all_lines ms) in E.
  assert (S : PropSerpentIn.says (PropSerpentIn.sm_head m) = true) by (unfold PropSerpentIn.says; now rewrite WH). rewrite S in E. cbn [map serpent_materials] in E.
  assert (ML : is_mat_line (PropSerpentIn.as_read (PropSerpentIn.sm_head m)) = true).
  { rewrite PropSerpentIn.as_read_eq, HD, <- !app_assoc. apply (PropSerpentIn.mat_line_blanks a _ A). }
  rewrite ML in E. rewrite filter_app, map_app in E. rewrite materials_skip in E by assumption.
  destruct (PropSerpentIn.text_read (PropSerpentIn.sm_lines m) (map PropSerpentIn.as_read (filter PropSerpentIn.says (PropSerpentIn.all_lines ms))) GL NM) as (t & TX & TW).
  { destruct F as [|m2 ms2 G2 F2]; [now left|right]. destruct G2 as (GH2 & _ & _ & WH2 & _). unfold PropSerpentIn.all_lines. cbn [flat_map filter app].
    assert (S2 : PropSerpentIn.says (PropSerpentIn.sm_head m2) = true) by (unfold PropSerpentIn.says; now rewrite WH2). rewrite S2. cbn [map]. do 2 eexists. split; [reflexivity|].
    destruct (PropSerpentIn.as_read_words _ GH2) as (r2 & ->). now rewrite WH2. }
  unfold serpent_material in E. destruct (PropSerpentIn.as_read_words _ GH) as (r1 & W1). rewrite W1, WH in E. cbn [app] in E. rewrite TX in E.
  destruct (py_float (PropSerpentIn.sm_dens m)) as [q|]; [|discriminate E]. destruct (serpent_composition (T " " ++ t)) as [[c y]|] eqn:SC; [|discriminate E].
  destruct (serpent_materials (i + 1) _) as [dm'|] eqn:EM; [|discriminate E]. injection E as <-. constructor; [|exact (IH _ _ EM)]. cbn [snd m_xs].
  intros w f I. unfold serpent_composition in SC. rewrite replace_char_app in SC. change (replace_char newline [blank] (T " ")) with (T " ") in SC.
  rewrite words_app_space_l in SC by reflexivity. rewrite TW, WL in SC. exact (proj1 (pairs_libraries _ _ _ _ _ EN ND SC (before_dot w)) w f I eq_refl).
Qed.

Lemma serpent_libraries pre ms dm : Forall PropSerpentIn.good_line pre -> Forall PropSerpentIn.no_mat pre -> Forall PropSerpentIn.good_smat ms ->
  serpent_deck (serpent_text_of pre ms) = Some (ConvertModel.mkDeck [] [] dm []) ->
  Forall2 (fun m e => forall w f, In (Nuclide w f) (PropSerpentIn.sm_entries m) -> dget (before_dot w) (m_xs (snd e)) = Some (xsid_of w)) ms dm.
Proof.
  intros GP NP F E. unfold serpent_deck, serpent_text_of, read_lines, with_ends in E.
  assert (GA : Forall PropSerpentIn.good_line (PropSerpentIn.all_lines ms)).
  { unfold PropSerpentIn.all_lines. apply Forall_flat_map. apply (Forall_impl _) with (2 := F). intros m (A & B & _). now constructor. }
  assert (G : Forall PropSerpentIn.good_line (pre ++ PropSerpentIn.all_lines ms)) by now apply Forall_app.
  rewrite readlines_lines in E. 2:{ apply Forall_map. apply (Forall_impl _) with (2 := G). now intros l (N & _). }
  assert (M : map lower (map (fun x => x ++ [newline]) (map PropSerpentIn.shown (pre ++ PropSerpentIn.all_lines ms))) = map PropSerpentIn.as_read (pre ++ PropSerpentIn.all_lines ms)).
  { rewrite !map_map. apply map_ext. intro l. apply lower_app. }
  rewrite M, PropSerpentIn.lines_kept in E by exact G. rewrite filter_app, map_app, materials_skip in E by assumption.
  destruct (serpent_materials 1 _) as [dm'|] eqn:EM; [|discriminate E]. cbn [option_map] in E. assert (dm' = dm) by congruence. subst dm'. exact (smats_libraries ms F _ _ EM).
Qed.

(** ** PHITS *)

(** A material that can be written for PHITS: it has nuclides, they are numbered, the libraries have none of the characters that
    end a line for PHITS, and the fractions are printed as numbers. *)
Definition phits_writable (show : Q -> text) (m : PropSerpentIn.smat) : Prop :=
  PropSerpentIn.sm_entries m <> [] /\ (forall n, lists n (PropSerpentIn.sm_entries m) -> zaid n) /\
  (forall w f, In (Nuclide w f) (PropSerpentIn.sm_entries m) -> CellText.nonspace (xsid_of w) /\ PropPhitsFile.bare_word (xsid_of w)) /\
  forall n v, lists n (PropSerpentIn.sm_entries m) -> (v == total (map (listed n) (PropSerpentIn.sm_entries m)))%Q -> numeral (show v).

(** C89 for PHITS: PHITS reads in the file that is written, and in its order, a card for each material of the file, with its
    nuclides, their libraries and their fractions; and no surfaces and cells. *)
Theorem C89_phits_partial str show no uo preserve quick pre ms :
  Forall PropSerpentIn.good_line pre -> Forall PropSerpentIn.no_mat pre -> Forall PropSerpentIn.good_smat ms -> Forall (phits_writable show) ms ->
  exists N t mm d, (forall fuel, N <= fuel -> main str show fuel no uo (mkOpt SERPENT preserve (Some [T "phits"]) quick) (serpent_text_of pre ms) = Done ([(PHITS, File t)], Some d)) /\
    PropPhitsFile.phits_reads t = PropPhitsFile.Rd [] [] [(T "[TITLE]", [words (T "This PHITS file was produced automatically by csg2csg")]);
      (T "[PARAMETERS]", [map T ["icntl"; "="; "11"]; map T ["maxbch"; "="; "10"]; map T ["maxcas"; "="; "1000000"]]%string);
      (T "[SURFACE]", []); (T "[CELL]", []); (T "[IMPORTANCE]", [map T ["reg"; "imp"]%string]); (T "[MATERIAL]", mm)] /\
    length mm = length ms /\
    forall k m, nth_error ms k = Some m -> exists ns, NoDup (map (fun x => fst (fst x)) ns) /\
      nth_error mm k = Some ((T "M" ++ str_Z (1 + Z.of_nat k)) :: flat_map (fun x : text * text * Q => [fst (fst x) ++ T "." ++ snd (fst x); show (snd x)]) ns) /\
      (forall n, In n (map (fun x => fst (fst x)) ns) <-> lists n (PropSerpentIn.sm_entries m)) /\
      forall n l v, In (n, l, v) ns -> has_library (PropSerpentIn.sm_entries m) n l /\ (v == total (map (listed n) (PropSerpentIn.sm_entries m)))%Q.
Proof.
  intros GP NP GM FW. destruct (serpent_memory pre ms GP NP GM) as (dm & SD & LD & NTH).
  assert (LIB := serpent_libraries pre ms dm GP NP GM SD).
  destruct (PropPhitsFile.C78_phits_file_partial str show (ConvertModel.mkDeck [] [] dm [])) as (t & ss & cc & mm & (N & LA) & RD & F1 & F2 & F3).
  { split; [constructor|]. split; [constructor|]. cbn [d_mats].
    apply Forall_forall. intros [n a] I. apply In_nth_error in I as (j & HJ). assert (JL : j < length ms) by (rewrite <- LD; apply nth_error_Some; congruence).
    destruct (nth_error ms j) as [m|] eqn:HM; [|apply nth_error_None in HM; lia]. destruct (NTH j m HM) as (a' & HA & NA & CA & (SN & SDn & SK & SV)). rewrite HJ in HA. injection HA as -> <-.
    cbn [fst snd] in *. assert (LM := PropMain.forall2_nth _ _ _ LIB j m _ HM HJ). cbn [snd] in LM. rewrite Forall_forall in FW. destruct (FW m (nth_error_In _ _ HM)) as (WE & WZ & WL & WN).
    split; [rewrite NA; apply str_zaid; lia|]. split.
    - destruct (PropSerpentIn.sm_entries m) as [|[w|w f] es] eqn:ES; [tauto| |].
      + rewrite Forall_forall in GM. destruct (GM m (nth_error_In _ _ HM)) as (_ & _ & _ & _ & _ & _ & _ & _ & IN & _). rewrite ES in IN. inversion IN as [|? ? HH]. destruct HH.
      + intro CE. assert (K : In (before_dot w) (keys (m_comp a))) by (apply SV; exists w, f; split; [now left|reflexivity]). rewrite CE in K. destruct K.
    - apply Forall_forall. intros e IE. assert (K : lists (fst e) (PropSerpentIn.sm_entries m)) by (apply SV; now apply (in_map fst)). split; [now apply WZ|]. split.
      + apply (WN (fst e)); [exact K|]. apply SV. apply in_dget; [exact SK|now destruct e].
      + destruct K as (w & f & IW & B). exists (xsid_of w). rewrite <- B. split; [now apply (LM w f)|now apply (WL w f)]. }
  cbn [d_surfs d_cells d_mats] in F1, F2, F3. inversion F1; subst ss. inversion F2; subst cc. cbn [d_cells map] in RD.
  exists N, t, mm, (ConvertModel.mkDeck [] [] dm []). split.
  { intros fuel LE. unfold main. cbn [o_format o_output]. rewrite SD. change (asked (Some [T "phits"])) with [PHITS]. cbn [run_serpent writable write_numbered write_code].
    rewrite LA by exact LE. reflexivity. }
  split; [exact RD|]. split; [rewrite <- (PropProcess.forall2_len _ _ _ F3); exact LD|].
  intros k m HK. destruct (NTH k m HK) as (a & HA & NA & CA & (SN & SDn & SK & SV)). cbn [fst snd] in SN, SDn, SK, SV.
  assert (LM := PropMain.forall2_nth _ _ _ LIB k m _ HK HA). cbn [snd] in LM.
  destruct (nth_error mm k) as [card|] eqn:HC.
  2:{ apply nth_error_None in HC. rewrite <- (PropProcess.forall2_len _ _ _ F3) in HC. assert (k < length dm) by (apply nth_error_Some; congruence). lia. }
  assert (MC := PropMain.forall2_nth _ _ _ F3 k _ _ HA HC). cbn [snd] in MC. unfold PropPhitsFile.mat_card in MC. rewrite NA in MC.
  set (lib := fun n => match dget n (m_xs a) with Some x => x | None => [] end) in *.
  exists (map (fun e => (fst e, lib (fst e), snd e)) (m_comp a)). rewrite !map_map. cbn [fst snd].
  split; [exact SK|]. split.
  - rewrite MC. f_equal. f_equal. rewrite flat_map_concat_map, flat_map_concat_map, map_map. reflexivity.
  - split; [exact (fun n => proj1 (SV n))|]. intros n l v I. apply in_map_iff in I as ([n' v'] & E & I). cbn [fst snd] in E.
    assert (n' = n) by congruence. assert (v' = v) by congruence. assert (EL : l = lib n') by congruence. subst n' v'. split.
    + destruct (proj1 (proj1 (SV n)) (in_map fst _ _ I)) as (w & f & IW & B). exists w, f. split; [exact IW|]. split; [exact B|]. rewrite EL. unfold lib. rewrite <- B. now rewrite (LM w f IW).
    + apply SV. now apply in_dget.
Qed.
Print Assumptions C89_phits_partial.

(** ** SCONE *)

(** The mass number in the number of a nuclide. *)
Definition mass_number (n : text) : Q := match py_int n with Some z => inject_Z (z mod 1000) | None => 0%Q end.

(** The densities that the SCONE writer makes: the fractions times the density, or times the factor that gives the mass. *)
Lemma scone_defined rho c : (0 < rho \/ (rho < 0 /\ c <> [] /\ Forall (fun e => py_int (fst e) <> None /\ 0 < snd e /\ 0 < mass_number (fst e)) c))%Q ->
  exists f, scone_densities rho c = Some (map (fun e => (fst e, (snd e * f)%Q)) c) /\ (0 < f)%Q /\ (0 < rho -> f == rho)%Q /\
    (rho < 0 -> f * total (map (fun e => snd e * mass_number (fst e)) c) == - rho * (602214 # 1000000))%Q.
Proof.
  intros [P|(P & NE & F)]; unfold scone_densities.
  - exists rho. destruct (Qle_bool rho 0) eqn:E; [apply Qle_bool_iff in E; Lqa.lra|]. cbn [negb]. split; [reflexivity|]. split; [exact P|]. split; [reflexivity|]. intro. Lqa.lra.
  - assert (R : Qle_bool rho 0 = true) by (apply Qle_bool_iff; Lqa.lra). rewrite R. cbn [negb].
    assert (Z : exists zs, zaids c = Some zs /\ (sum_q (map (fun p : text * Q * Z => snd (fst p) * inject_Z (snd p mod 1000)) (combine c zs)) == total (map (fun e => snd e * mass_number (fst e)) c))%Q).
    { assert (H : exists zs, zaids c = Some zs /\ (total (map (fun p : text * Q * Z => snd (fst p) * inject_Z (snd p mod 1000)) (combine c zs)) == total (map (fun e => snd e * mass_number (fst e)) c))%Q).
      { clear NE. induction F as [|[k v] c (A & _) F (zs & E1 & E2)]; [now exists []|]. cbn [fst snd] in A. destruct (py_int k) as [z|] eqn:K; [|tauto].
        exists (z :: zs). cbn [zaids]. rewrite K, E1. split; [reflexivity|]. cbn [combine map total fst snd]. rewrite E2. unfold mass_number. now rewrite K. }
      destruct H as (zs & E1 & E2). exists zs. split; [exact E1|]. now rewrite sum_q_total. }
    destruct Z as (zs & -> & EM). cbv zeta. set (m := sum_q _) in *. set (t := total (map (fun e => snd e * mass_number (fst e))%Q c)) in *.
    assert (PT : (0 < t)%Q).
    { subst t. clear - NE F. destruct F as [|e c (_ & A & B) F]; [tauto|]. assert (H : (0 <= total (map (fun e => snd e * mass_number (fst e)) c))%Q).
      { clear - F. induction F as [|e c (_ & A & B) F IH]; cbn [map total]; [Lqa.lra|]. assert (X := Qmult_lt_0_compat _ _ A B). Lqa.lra. }
      cbn [map total]. assert (X := Qmult_lt_0_compat _ _ A B). Lqa.lra. }
    assert (Z0 : Qeq_bool m 0 = false) by (destruct (Qeq_bool m 0) eqn:E; [apply Qeq_bool_iff in E; rewrite EM in E; Lqa.lra|reflexivity]).
    rewrite Z0. exists (- rho * (602214 # 1000000) / m)%Q. split; [reflexivity|]. split.
    + apply Qlt_shift_div_l; [rewrite EM; exact PT|]. Lqa.lra.
    + split; [intro; Lqa.lra|]. intros _. rewrite EM. field. Lqa.lra.
Qed.

(** A material that can be written for SCONE: its nuclides are numbered, its name stays on its line, and it has an atom density, or
    a mass density and fractions by atoms. *)
Definition scone_writable (m : PropSerpentIn.smat) : Prop :=
  (forall n, lists n (PropSerpentIn.sm_entries m) -> zaid n) /\ ~ In newline (PropSerpentIn.sm_name m) /\
  forall q, py_float (PropSerpentIn.sm_dens m) = Some q ->
    (0 < q \/ (q < 0 /\ PropSerpentIn.sm_entries m <> [] /\ forall n, lists n (PropSerpentIn.sm_entries m) -> py_int n <> None /\ 0 < mass_number n /\ 0 < total (map (listed n) (PropSerpentIn.sm_entries m))))%Q.

Lemma no_universes (order : list ucell -> list Z) : universe_ids (order []) [] -> order [] = [].
Proof. intros (_ & _ & H). destruct (order []) as [|n l]; [reflexivity|]. destruct (proj1 (H n) (or_introl eq_refl)) as (c & [] & _). Qed.

(** C89 for SCONE: SCONE reads in the file that is written, and in its order, a material for each of the file, with its nuclides and
    their atom densities to seven digits, which are the fractions times the density or give the mass density; and no
    surfaces, cells and universes. *)
Theorem C89_scone_partial str show no uo preserve quick pre ms :
  Forall PropSerpentIn.good_line pre -> Forall PropSerpentIn.no_mat pre -> Forall PropSerpentIn.good_smat ms -> Forall scone_writable ms -> universe_ids (uo []) [] ->
  exists N t mm d, (forall fuel, N <= fuel -> main str show fuel no uo (mkOpt SERPENT preserve (Some [T "scone"]) quick) (serpent_text_of pre ms) = Done ([(SCONE, File t)], Some d)) /\
    PropSconeFile.scone_reads t = Some (PropSconeFile.whole [] [] [] mm) /\ length mm = length ms /\
    forall k m, nth_error ms k = Some m -> exists q f ns, py_float (PropSerpentIn.sm_dens m) = Some q /\ (0 < f)%Q /\
      nth_error mm k = Some (PropSconeFile.Dict (T "m" ++ str_Z (1 + Z.of_nat k)) [PropSconeFile.Dict (T "composition") (map (fun x => PropSconeFile.Leaf (fst x ++ T ".03") [snd x]) ns)]) /\
      NoDup (map fst ns) /\ (forall n, In n (map fst ns) <-> lists n (PropSerpentIn.sm_entries m)) /\
      (forall n w, In (n, w) ns -> exists u v, py_float w = Some u /\ seven_digits u v /\ (v == f * total (map (listed n) (PropSerpentIn.sm_entries m)))%Q) /\
      (0 < q -> f == q)%Q /\
      (q < 0 -> f * total (map (fun x => total (map (listed (fst x)) (PropSerpentIn.sm_entries m)) * mass_number (fst x)) ns) == - q * (602214 # 1000000))%Q.
Proof.
  intros GP NP GM FW UI. destruct (serpent_memory pre ms GP NP GM) as (dm & SD & LD & NTH). assert (U0 := no_universes uo UI).
  assert (DEF : forall k m a, nth_error ms k = Some m -> nth_error dm k = Some (str_Z (1 + Z.of_nat k), a) -> PropSerpentIn.smat_read m (m_name a, m_dens a, m_comp a) ->
    exists f, scone_densities (m_dens a) (m_comp a) = Some (map (fun e => (fst e, (snd e * f)%Q)) (m_comp a)) /\ (0 < f)%Q /\ (0 < m_dens a -> f == m_dens a)%Q /\
      (m_dens a < 0 -> f * total (map (fun e => snd e * mass_number (fst e)) (m_comp a)) == - m_dens a * (602214 # 1000000))%Q).
  { intros k m a HM HA (SN & SDn & SK & SV). cbn [fst snd] in *. rewrite Forall_forall in FW. destruct (FW m (nth_error_In _ _ HM)) as (_ & _ & W). apply scone_defined.
    destruct (W _ SDn) as [P|(P & NE & H)]; [now left|right]. split; [exact P|]. split.
    - destruct (PropSerpentIn.sm_entries m) as [|[w|w f] es] eqn:ES; [tauto| |].
      + rewrite Forall_forall in GM. destruct (GM m (nth_error_In _ _ HM)) as (_ & _ & _ & _ & _ & _ & _ & _ & IN & _). rewrite ES in IN. inversion IN as [|? ? HH]. destruct HH.
      + intro CE. assert (K : In (before_dot w) (keys (m_comp a))) by (apply SV; exists w, f; split; [now left|reflexivity]). rewrite CE in K. destruct K.
    - apply Forall_forall. intros e IE. assert (K : lists (fst e) (PropSerpentIn.sm_entries m)) by (apply SV; now apply (in_map fst)). destruct (H _ K) as (H1 & H2 & H3).
      split; [exact H1|]. split; [|exact H2]. assert (V : (snd e == total (map (listed (fst e)) (PropSerpentIn.sm_entries m)))%Q) by (apply SV, in_dget; [exact SK|now destruct e]).
      now rewrite V. }
  set (str0 := fun _ : R => T "0").
  destruct (PropSconeFile.C79_scone_file_partial str0 show uo (ConvertModel.mkDeck [] [] dm [])) as (t & ss & cs & us & es & mm & CU & (N & LA) & RD & F1 & F2 & F3 & F4).
  { split; [intro x; split; [discriminate|split; [cbn; lia|reflexivity]]|]. split; [constructor|]. split; [constructor|]. cbn [d_mats d_cells map d_univ]. split.
    - apply Forall_forall. intros [n a] I. apply In_nth_error in I as (j & HJ). assert (JL : j < length ms) by (rewrite <- LD; apply nth_error_Some; congruence).
      destruct (nth_error ms j) as [m|] eqn:HM; [|apply nth_error_None in HM; lia]. destruct (NTH j m HM) as (a' & HA & NA & CA & SR). assert (SR' := SR). destruct SR' as (SN & SDn & SK & SV).
      rewrite HJ in HA. injection HA as -> <-. cbn [fst snd] in *. destruct (DEF j m a HM HJ SR) as (f & DE & _). rewrite Forall_forall in FW. destruct (FW m (nth_error_In _ _ HM)) as (WZ & WN & _).
      eexists. split; [exact DE|]. split; [rewrite NA; apply str_zaid; lia|]. split; [now rewrite SN|]. split; [|now rewrite CA].
      apply Forall_forall. intros e IE. apply WZ, SV. now apply (in_map fst).
    - split; [exact UI|]. split; [constructor|]. split; [reflexivity|]. intros us E. rewrite U0 in E. cbn in E. injection E as <-. constructor. }
  cbn [d_surfs d_cells d_mats map] in F1, F2, F4, CU. inversion F1; subst ss. inversion F2; subst cs. rewrite U0 in CU. cbn in CU. injection CU as <-. inversion F3; subst es.
  exists N, t, mm, (ConvertModel.mkDeck [] [] dm []). split.
  { intros fuel LE. unfold main. cbn [o_format o_output]. rewrite SD. change (asked (Some [T "scone"])) with [SCONE]. cbn [run_serpent writable write_numbered write_code].
    change (scone_file str show fuel uo (ConvertModel.mkDeck [] [] dm [])) with (scone_file str0 show fuel uo (ConvertModel.mkDeck [] [] dm [])).
    rewrite LA by exact LE. reflexivity. }
  split; [exact RD|]. split; [rewrite <- (PropProcess.forall2_len _ _ _ F4); exact LD|].
  intros k m HK. destruct (NTH k m HK) as (a & HA & NA & CA & SR). destruct (DEF k m a HK HA SR) as (f & DE & FP & FA & FM). destruct SR as (SN & SDn & SK & SV). cbn [fst snd] in SN, SDn, SK, SV.
  destruct (nth_error mm k) as [e|] eqn:HC.
  2:{ apply nth_error_None in HC. rewrite <- (PropProcess.forall2_len _ _ _ F4) in HC. assert (k < length dm) by (apply nth_error_Some; congruence). lia. }
  destruct (PropMain.forall2_nth _ _ _ F4 k _ _ HA HC _ DE) as (ns & EE & FN). cbn [snd] in EE, FN. rewrite NA, CA in EE. cbn [app] in EE.
  assert (X : exists xs, ns = map (fun x : text * text => (fst x ++ T ".03", snd x)) xs /\
    Forall2 (fun x e0 => fst x = fst e0 /\ exists q, py_float (snd x) = Some q /\ seven_digits q (snd e0 * f)%Q) xs (m_comp a)).
  { clear - FN. revert ns FN. induction (m_comp a) as [|[n v] c IH]; intros ns FN; inversion FN as [|[w s] ? ns' ? H FN']; subst; [now exists []; split; [|constructor]|].
    destruct (IH _ FN') as (xs & -> & F). cbn [fst snd] in H. destruct H as (-> & q & Q1 & Q2). exists ((n, s) :: xs). split; [reflexivity|]. constructor; [|exact F]. cbn [fst snd]. split; [reflexivity|]. now exists q. }
  destruct X as (xs & -> & FX). assert (KX : map fst xs = keys (m_comp a)) by (clear - FX; induction FX as [|x e0 xs c [E _] F IH]; [reflexivity|]; unfold keys in *; cbn [map]; now rewrite E, IH).
  exists (m_dens a), f, xs. split; [exact SDn|]. split; [exact FP|]. split; [rewrite EE, map_map; reflexivity|]. split; [clear - SK KX; unfold text in *; unfold keys in *; rewrite <- KX in SK; exact SK|].
  assert (VAL : forall n v, In (n, v) (m_comp a) -> (v == total (map (listed n) (PropSerpentIn.sm_entries m)))%Q) by (intros n v I; apply SV; now apply in_dget).
  split; [intro n; etransitivity; [|exact (proj1 (SV n))]; rewrite <- KX; reflexivity|]. split; [|split; [exact FA|]].
  - intros n w I. destruct (PropMain.forall2_in_left _ _ _ _ FX I) as ([n' v] & I' & E & q & Q1 & Q2). cbn [fst snd] in *. subst n'. exists q, (v * f)%Q. split; [exact Q1|]. split; [exact Q2|].
    rewrite (VAL n v I'). ring.
  - intro L. rewrite <- (FM L). apply Qmult_comp; [reflexivity|]. clear - FX VAL. revert VAL. induction FX as [|x [n v] xs c [E _] F IH]; intro VAL; [reflexivity|].
    cbn [map total fst snd] in *. rewrite IH by (intros; apply VAL; now right). rewrite E, (VAL n v (or_introl eq_refl)). reflexivity.
Qed.
Print Assumptions C89_scone_partial.

(** ** Examples *)

Lemma fuel_lists n : lists n (PropSerpentIn.sm_entries PropSerpentIn.fuel_mat) -> n = T "92235" \/ n = T "92238" \/ n = T "8016".
Proof. intros (w & f & [E|[E|[E|[]]]] & Q); injection E as <- <-; rewrite <- Q; auto. Qed.

Example C89_phits_example : exists N t mm d, (forall fuel, N <= fuel -> main (fun _ => []) (fun _ => T "1.0") fuel (fun _ => []) (fun _ => []) (mkOpt SERPENT false (Some [T "phits"]) false)
    (serpent_text_of pre89 [PropSerpentIn.fuel_mat]) = Done ([(PHITS, File t)], Some d)) /\
  (exists ss, PropPhitsFile.phits_reads t = PropPhitsFile.Rd [] [] (ss ++ [(T "[MATERIAL]", [mm])])) /\ hd [] mm = T "M1" /\ In (T "92238.09c") mm.
Proof.
  destruct pre89_good as [GL NM].
  destruct (C89_phits_partial (fun _ => []) (fun _ => T "1.0") (fun _ => []) (fun _ => []) false false pre89 [PropSerpentIn.fuel_mat] GL NM) as (N & t & mm & d & M & RD & L & H).
  - exact (proj1 (proj2 (proj2 PropSerpentIn.C74_example))).
  - constructor; [|constructor]. split; [discriminate|]. split; [exact (proj2 fuel89)|]. split.
    + intros w f [E|[E|[E|[]]]]; injection E as <- <-; vm_compute; repeat split; try reflexivity; intuition discriminate.
    + intros. split; [discriminate|]. split; [cbn; lia|reflexivity].
  - destruct mm as [|c [|]]; [discriminate L| |discriminate L]. exists N, t, c, d. split; [exact M|]. split; [rewrite RD; match goal with |- context [PropPhitsFile.Rd _ _ [?a; ?b; ?c; ?d; ?e; _]] => now exists [a; b; c; d; e] end|].
    destruct (H 0 _ eq_refl) as (ns & ND & HC & KS & VS). cbn [nth_error] in HC. injection HC as ->. split; [reflexivity|]. right.
    assert (I : In (T "92238") (map (fun x => fst (fst x)) ns)) by (apply KS; exists (T "92238.09c"), (T "0.96"); split; [right; now left|reflexivity]).
    apply in_map_iff in I as ([[n l] v] & E & I). cbn [fst] in E. subst n. destruct (VS _ _ _ I) as ((w & f & IW & B & EL) & _). apply in_flat_map. eexists. split; [exact I|]. cbn [fst snd]. left.
    destruct IW as [EW|[EW|[EW|[]]]]; injection EW as <- <-; vm_compute in B; [discriminate B| |discriminate B]. rewrite EL. reflexivity.
Qed.

Example C89_scone_example : exists N t mm d, (forall fuel, N <= fuel -> main (fun _ => []) (fun _ => []) fuel (fun _ => []) (fun _ => []) (mkOpt SERPENT false (Some [T "scone"]) false)
    (serpent_text_of pre89 [PropSerpentIn.fuel_mat]) = Done ([(SCONE, File t)], Some d)) /\
  PropSconeFile.scone_reads t = Some (PropSconeFile.whole [] [] [] [PropSconeFile.Dict (T "m1") [PropSconeFile.Dict (T "composition") mm]]) /\ exists v, In (PropSconeFile.Leaf (T "8016.03") v) mm.
Proof.
  destruct pre89_good as [GL NM].
  destruct (C89_scone_partial (fun _ => []) (fun _ => []) (fun _ => []) (fun _ => []) false false pre89 [PropSerpentIn.fuel_mat] GL NM) as (N & t & mm & d & M & RD & L & H).
  - exact (proj1 (proj2 (proj2 PropSerpentIn.C74_example))).
  - constructor; [|constructor]. split; [exact (proj2 fuel89)|]. split; [vm_compute; intuition discriminate|]. intros q E. vm_compute in E. injection E as <-. right.
    split; [reflexivity|]. split; [discriminate|]. intros n LN. destruct (fuel_lists n LN) as [->|[->| ->]]; vm_compute; intuition discriminate.
  - split; [constructor|]. split; [intros c []|]. intro n. split; [intros []|intros (c & [] & _)].
  - destruct mm as [|c [|]]; [discriminate L| |discriminate L]. destruct (H 0 _ eq_refl) as (q & f & ns & _ & _ & HC & _ & KS & _). cbn [nth_error] in HC.
    match type of HC with Some ?x = Some ?y => assert (EC : x = y) by congruence end. clear HC. subst c.
    exists N, t, (map (fun x => PropSconeFile.Leaf (fst x ++ T ".03") [snd x]) ns), d. split; [exact M|]. split; [exact RD|].
    assert (I : In (T "8016") (map fst ns)) by (apply KS; exists (T "8016.09c"), (T "2.0-0"); split; [right; right; now left|reflexivity]).
    apply in_map_iff in I as ([n w] & E & I). cbn [fst] in E. subst n. exists [w]. apply in_map_iff. now exists (T "8016", w).
Qed.
