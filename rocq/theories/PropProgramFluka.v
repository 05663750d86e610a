(** C84: the whole program, from the characters of an MCNP file to the FLUKA file (csg2csg/__main__.py 74-134,
    FLUKAInput.py 229-421). *)
From Coq Require Import QArith Qabs Reals Lra Lia.
From Coq Require Lqa.
From Verif Require Import PyStr PyStrFacts PyInt PyIntFacts PyDict FortranNumber RegionSpec RegionFacts LexSpec CellModel CellProofs CellText CellWritersProofs
  CellWritersOut SurfModel GeomSpec SurfSpec SurfWritersProofs SurfTargets FlattenModel FlattenProofs FlattenDeck NotsModel BoundaryModel NuclideData MaterialModel MaterialProofs PropMaterial
  PropMaterialOut PropMaterialTargets KeywordModel DeckScan FileModel FileProofs PropKeyword PropDeck ProcessModel PropProcess PropRead ConvertModel LayoutProofs
  MainModel PropPlace PropMain PropCards PropProgram PropTexts PropFlukaCards.
From Verif Require ProcessProofs FlukaInput PropFluka PropFlukaNames PropFlukaMat PropFlukaFile PropProgramPhits PropProgramScone PropVacuum PropProgramMcnp.
Open Scope nat_scope.
Open Scope list_scope.

(** ** The materials *)

(** FLUKA has a name for the nuclide, or the code leaves it out. *)
Definition known_nuclide (n : Z) : Prop := PropFlukaNames.dropped n \/ exists name, PropFlukaNames.called n name.

(** What is asked of the material cards: some cell has a material; positive fractions (by atoms) that are not out of
    all proportion; nuclides that FLUKA has a name for, and no natural tellurium (see [C84_tellurium_refuted]). *)
Definition fluka_nuclides (cells : list cell_says) (ds : list data_says) : Prop :=
  forall n es, last_for n (mats_of ds) es -> (exists c, In c cells /\ cs_mat c <> None) /\
    (forall w f, In (Nuclide w f) es -> 10 ^ (-40) <= fraction (Nuclide w f))%Q /\ (total (map fraction es) <= 10 ^ 40)%Q /\
    forall z i, lists z es -> py_int z = Some i -> i <> 52000%Z /\ ((i mod 1000 <> 0)%Z -> known_nuclide i).

(** Every natural isotope but those of tellurium has a name, or its element is left out. *)
Lemma natural_all e : In e nuclide_table -> (fst e / 10000 / 1000 = 52)%Z \/ FlukaInput.collapse (str_Z (fst e / 10000)) <> None.
Proof.
  assert (TB : forallb (fun e : Z * (Q * Q) => Z.eqb (fst e / 10000 / 1000) 52 || match FlukaInput.collapse (str_Z (fst e / 10000)) with None => false | _ => true end) nuclide_table = true)
    by (vm_compute; reflexivity).
  rewrite forallb_forall in TB. intro I. specialize (TB e I). destruct (Z.eqb_spec (fst e / 10000 / 1000) 52) as [E|N]; [now left|right].
  cbn [orb] in TB. destruct (FlukaInput.collapse _); [discriminate|discriminate TB].
Qed.
Lemma natural_known i : FlukaInput.collapse (str_Z i) <> None -> known_nuclide i.
Proof.
  intro N. destruct (FlukaInput.collapse (str_Z i)) as [[f|]|] eqn:C; [| |now elim N].
  - right. exists f. exact (proj1 (PropFlukaNames.collapse_called _ _ f (py_int_str_Z i)) C).
  - left. exact (proj1 (PropFlukaNames.collapse_dropped _ _ (py_int_str_Z i)) C).
Qed.
Lemma natural_called y i a : In (i, a) (isotopes y) -> y <> 52%Z -> known_nuclide i.
Proof.
  unfold isotopes. rewrite in_map_iff. intros (e & E & I) NY. injection E as <- <-. apply filter_In in I as [I F]. apply Z.eqb_eq in F.
  apply natural_known. destruct (natural_all e I) as [E|N]; [elim NY; now rewrite <- F|exact N].
Qed.
Lemma abundance y i a : In (i, a) (isotopes y) -> ((1 # 10000000) <= a / 100 <= 1)%Q.
Proof.
  assert (TB : forallb (fun e : Z * (Q * Q) => Qle_bool (1 # 10000000) (fst (snd e) / 100) && Qle_bool (fst (snd e) / 100) 1) nuclide_table = true) by (vm_compute; reflexivity).
  unfold isotopes. rewrite in_map_iff. intros (e & E & I). injection E as <- <-. apply filter_In in I as [I _]. rewrite forallb_forall in TB.
  specialize (TB e I). apply andb_prop in TB as [H1 H2]. split; now apply Qle_bool_iff.
Qed.

Definition nuclides_of (es : list PropMaterial.entry) : list text := flat_map (fun e => match e with Nuclide w _ => [before_dot w] | Keyword _ => [] end) es.
Lemma nuclides_lists z es : lists z es <-> In z (nuclides_of es).
Proof.
  unfold lists, nuclides_of. rewrite in_flat_map. split.
  - intros (w & f & I & E). exists (Nuclide w f). split; [exact I|]. left. exact E.
  - intros ([w|w f] & I & H); [destruct H|]. destruct H as [<-|[]]. now exists w, f.
Qed.
Section Bounds.
Context (eps : Q) (E0 : (0 <= eps)%Q) (es : list PropMaterial.entry) (LO : forall w f, In (Nuclide w f) es -> (eps <= fraction (Nuclide w f))%Q).
Lemma fraction_pos e : In e es -> (0 <= fraction e)%Q.
Proof. destruct e as [w|w f]; intro I; [apply Qle_refl|]. apply Qle_trans with (1 := E0); now apply LO. Qed.
Lemma listed_le z : (0 <= total (map (listed z) es) <= total (map fraction es))%Q.
Proof.
  assert (P := fraction_pos). clear LO. induction es as [|e l IH]; cbn [map total]; [split; discriminate|].
  destruct IH as [H1 H2]; [intros x I; apply P; now right|]. assert (H := P e (or_introl eq_refl)).
  assert (L : (0 <= listed z e <= fraction e)%Q).
  { destruct e as [w|w f]; cbn [listed fraction] in *; [split; apply Qle_refl|]. destruct (text_eqb _ z); [split; [exact H|apply Qle_refl]|split; [apply Qle_refl|exact H]]. }
  Lqa.lra.
Qed.
Lemma listed_ge z : lists z es -> (eps <= total (map (listed z) es))%Q.
Proof.
  intros (w & f & I & B). assert (LE := LO w f I). assert (P := fraction_pos). apply Qle_trans with (fraction (Nuclide w f)); [exact LE|]. clear LE.
  assert (G : forall l, (forall e, In e l -> (0 <= fraction e)%Q) -> (0 <= total (map (listed z) l))%Q).
  { clear. induction l as [|e l IH]; intro P; cbn [map total]; [apply Qle_refl|]. specialize (IH (fun x I => P x (or_intror I))). assert (H := P e (or_introl eq_refl)).
    assert (L : (0 <= listed z e)%Q) by (destruct e as [w|w f]; cbn [listed fraction] in *; [apply Qle_refl|]; destruct (text_eqb _ z); [exact H|apply Qle_refl]). Lqa.lra. }
  clear LO. induction es as [|e l IH]; [destruct I|]. cbn [map total]. destruct I as [-> | I].
  - assert (H := G l (fun x I => P x (or_intror I))). cbn [listed]. destruct (text_eqb_spec (before_dot w) z) as [_|N]; [|contradiction]. cbn [fraction]. Lqa.lra.
  - specialize (IH I (fun x I => P x (or_intror I))). assert (H := G [e] ltac:(intros x [<-|[]]; apply P; now left)). cbn [map total] in H. Lqa.lra.
Qed.
Lemma count_le : (inject_Z (Z.of_nat (length (nuclides_of es))) * eps <= total (map fraction es))%Q.
Proof.
  assert (P := LO). clear LO. induction es as [|e l IH]; [cbn [nuclides_of flat_map length map total]; change (inject_Z (Z.of_nat 0)) with 0%Q; rewrite Qmult_0_l; apply Qle_refl|]. specialize (IH (fun w f I => P w f (or_intror I))). cbn [map total].
  destruct e as [w|w f]; cbn [nuclides_of flat_map app].
  - fold (nuclides_of l). cbn [fraction] in *. Lqa.lra.
  - fold (nuclides_of l). specialize (P w f (or_introl eq_refl)). cbn [length]. rewrite Nat2Z.inj_succ. unfold Z.succ. rewrite inject_Z_plus, Qmult_plus_distr_l. change (inject_Z 1) with 1%Q. rewrite Qmult_1_l. Lqa.lra.
Qed.
End Bounds.

Lemma filter_few {A} (f : A -> bool) l : length (filter f l) <= length l.
Proof. induction l as [|x l IH]; [apply le_n|]. cbn. destruct (f x); cbn; lia. Qed.
Lemma isotopes_few y : length (isotopes y) <= 288.
Proof. unfold isotopes. rewrite map_length. apply Nat.le_trans with (length nuclide_table); [apply filter_few|apply Nat.leb_le; vm_compute; reflexivity]. Qed.

Lemma times_le (a b x y : Q) : (0 <= a -> a <= x -> 0 <= b -> b <= y -> a * b <= x * y)%Q.
Proof. intros A AX B BY. apply Qle_trans with (x * b)%Q; [now apply Qmult_le_compat_r|]. rewrite !(Qmult_comm x). apply Qmult_le_compat_r; [exact BY|]. now apply Qle_trans with a. Qed.
Lemma total_few c : Forall (fun e : text * Q => (snd e <= 1)%Q) c -> (total (map snd c) <= inject_Z (Z.of_nat (length c)))%Q.
Proof.
  induction 1 as [|e c H F IH]; [apply Qle_refl|]. cbn [map total length]. rewrite Nat2Z.inj_succ. unfold Z.succ. rewrite inject_Z_plus. change (inject_Z 1) with 1%Q. Lqa.lra.
Qed.


(** [made_of] for any table of isotopes. *)
Definition made_with (iso : Z -> list (Z * Q)) (es : list PropMaterial.entry) (c : dict Q) : Prop :=
  NoDup (keys c) /\ exists k, (0 < k /\ k * Qabs (total (map fraction es)) == 1)%Q /\
    (forall z n, lists z es -> py_int z = Some n -> (n mod 1000 <> 0)%Z ->
       exists v, dget z c = Some v /\ (v == k * total (map (listed z) es))%Q) /\
    (forall z y i a, lists z es -> py_int z = Some (1000 * y)%Z -> In (i, a) (iso y) ->
       exists v, dget (str_Z i) c = Some v /\ (v == k * total (map (listed z) es) * (a / 100))%Q) /\
    (forall t, In t (keys c) -> (lists t es /\ exists n, py_int t = Some n /\ (n mod 1000 <> 0)%Z) \/
       exists z y i a, lists z es /\ py_int z = Some (1000 * y)%Z /\ In (i, a) (iso y) /\ t = str_Z i).
Section Table.
Context (iso : Z -> list (Z * Q)) (few : forall y, length (iso y) <= 288) (AB : forall y i a, In (i, a) (iso y) -> ((1 # 10000000) <= a / 100 <= 1)%Q).
Lemma made_bounds_with (eps top : Q) es c : (0 < eps -> 0 <= top -> eps * top <= 1)%Q -> (0 < eps)%Q -> made_with iso es c ->
  (forall w f, In (Nuclide w f) es -> eps <= fraction (Nuclide w f))%Q -> (total (map fraction es) <= top)%Q ->
  Forall (fun e => eps * eps * (1 # 10000000) <= snd e)%Q c /\ (total (map snd c) * eps <= 289 * top)%Q.
Proof.
  intros ET0 E0 (ND & k & (PK & KT) & H1 & H2 & H3) LO HI.
  assert (E1 := Qlt_le_weak _ _ E0). assert (LL := listed_le eps E1 es LO).
  assert (T0 : (0 <= total (map fraction es))%Q) by (apply Qle_trans with (1 := proj1 (LL nil)); apply (LL nil)).
  assert (ET := ET0 E0 (Qle_trans _ _ _ T0 HI)). clear ET0.
  rewrite Qabs_pos in KT by exact T0.
  assert (K1 : (eps <= k)%Q).
  { apply Qnot_lt_le. intro L. assert (X : (k * total (map fraction es) < 1)%Q).
    { assert (T1 : (0 < total (map fraction es))%Q).
      { destruct (Qlt_le_dec 0 (total (map fraction es))) as [T1|T1]; [exact T1|]. assert (Z : (total (map fraction es) == 0)%Q) by now apply Qle_antisym. rewrite Z, Qmult_0_r in KT. discriminate KT. }
      apply Qlt_le_trans with (eps * total (map fraction es))%Q; [now apply Qmult_lt_r|]. apply Qle_trans with (2 := ET). rewrite !(Qmult_comm eps). now apply Qmult_le_compat_r. }
    rewrite KT in X. now apply (Qlt_irrefl 1). }
  assert (EE : (0 <= eps * eps)%Q) by (rewrite <- (Qmult_0_l eps); now apply Qmult_le_compat_r).
  assert (B : forall t q, In (t, q) c -> (eps * eps * (1 # 10000000) <= q)%Q /\ (q <= 1)%Q).
  { intros t q I. assert (IT : In t (keys c)) by (unfold keys; apply in_map_iff; now exists (t, q)).
    assert (LK : forall z, lists z es -> (eps * eps <= k * total (map (listed z) es) /\ k * total (map (listed z) es) <= 1)%Q).
    { intros z L. split; [apply times_le; [exact E1|exact K1|exact E1|now apply (listed_ge eps E1)]|].
      rewrite <- KT, !(Qmult_comm k). apply Qmult_le_compat_r; [apply LL|now apply Qlt_le_weak]. }
    destruct (H3 t IT) as [(L & n & EN & M)|(z & y & i & a & L & EZ & II & E)].
    - destruct (H1 t n L EN M) as (v & D & V). rewrite (in_dget t q c ND I) in D. injection D as <-. rewrite V. destruct (LK t L) as [L1 L2]. split; [|exact L2].
      apply Qle_trans with (2 := L1). rewrite <- (Qmult_1_r (eps * eps)) at 2. rewrite !(Qmult_comm (eps * eps)). apply Qmult_le_compat_r; [discriminate|exact EE].
    - subst t. destruct (H2 z y i a L EZ II) as (v & D & V). rewrite (in_dget _ q c ND I) in D. injection D as <-. rewrite V. destruct (LK z L) as [L1 L2], (AB y i a II) as [A1 A2].
      split; [apply times_le; [exact EE|exact L1|discriminate|exact A1]|]. apply Qle_trans with (1 * 1)%Q; [|discriminate]. apply times_le; [|exact L2| |exact A2].
      + apply Qle_trans with (2 := L1). exact EE.
      + apply Qle_trans with (2 := A1). discriminate. }
  split.
  - apply Forall_forall. intros [t q] I. apply (B t q I).
  - apply Qle_trans with (inject_Z (Z.of_nat (length c)) * eps)%Q.
    { apply Qmult_le_compat_r; [|exact E1]. apply total_few. apply Forall_forall. intros [t q] I. apply (B t q I). }
    set (keyed := flat_map (fun z => z :: map (fun e => str_Z (fst e)) (iso (match py_int z with Some n => n / 1000 | None => 0 end)%Z)) (nuclides_of es)).
    assert (LC : length c <= length keyed).
    { rewrite <- (map_length fst c). apply NoDup_incl_length; [exact ND|]. intros t IT. unfold keyed. apply in_flat_map.
      destruct (H3 t IT) as [(L & _)|(z & y & i & a & L & EZ & II & ->)].
      - exists t. split; [now apply nuclides_lists|now left].
      - exists z. split; [now apply nuclides_lists|right]. rewrite EZ. rewrite (Z.mul_comm 1000 y), Z.div_mul by lia. apply in_map_iff. now exists (i, a). }
    assert (LK : length keyed <= 289 * length (nuclides_of es)).
    { unfold keyed. clear - few. induction (nuclides_of es) as [|z l IH]; [cbn; lia|]. cbn [flat_map]. rewrite app_length. cbn [length]. rewrite map_length.
      match goal with |- context [iso ?y] => pose proof (few y) end. lia. }
    assert (CE := count_le eps es LO). apply Qle_trans with (289 * (inject_Z (Z.of_nat (length (nuclides_of es))) * eps))%Q.
    { rewrite Qmult_assoc. apply Qmult_le_compat_r; [|exact E1]. change 289%Q with (inject_Z 289). rewrite <- inject_Z_mult, <- Zle_Qle. lia. }
    rewrite !(Qmult_comm 289). apply Qmult_le_compat_r; [|discriminate]. now apply Qle_trans with (1 := CE).
Qed.
End Table.
Lemma made_bounds es c : made_of es c -> (forall w f, In (Nuclide w f) es -> 10 ^ (-40) <= fraction (Nuclide w f))%Q -> (total (map fraction es) <= 10 ^ 40)%Q ->
  Forall (fun e => 10 ^ (-99) <= snd e)%Q c /\ (total (map snd c) < 10 ^ 99)%Q.
Proof.
  intros M LO HI. assert (X1 : (10 ^ (-40) * 10 ^ 40 <= 1)%Q) by (vm_compute; discriminate). assert (X2 : (0 < 10 ^ (-40))%Q) by reflexivity.
  assert (X3 : (10 ^ (-99) <= 10 ^ (-40) * 10 ^ (-40) * (1 # 10000000))%Q) by (vm_compute; discriminate).
  assert (X4 : (289 * 10 ^ 40 < 10 ^ 99 * 10 ^ (-40))%Q) by (vm_compute; reflexivity).
  revert LO HI X1 X2 X3 X4. generalize (10 ^ (-40))%Q (10 ^ 40)%Q (10 ^ 99)%Q (10 ^ (-99))%Q. intros eps top huge tiny LO HI X1 X2 X3 X4.
  destruct (made_bounds_with isotopes isotopes_few abundance eps top es c (fun _ _ => X1) X2 M LO HI) as [H1 H2]. split.
  - apply (Forall_impl _) with (2 := H1). intros e H. now apply Qle_trans with (1 := X3).
  - apply (Qmult_lt_r _ _ eps X2). now apply Qle_lt_trans with (1 := H2).
Qed.

(** The names of the materials stay short. *)
Lemma deck_short str show quick s cells ss ds d N : describes s cells ss ds -> (forall n, In n (map fst (mats_of ds)) -> length n <= 9) ->
  (Z.of_nat (length (mats_of ds) + length cells) < 99999999)%Z -> (forall fuel, N <= fuel -> load str show fuel quick s = Done d) ->
  forall k a, In (k, a) (d_mats d) -> length k <= 9.
Proof.
  intros (title & noisy & cs & b1 & b2 & dd & H1 & H2 & H3 & H4 & H5 & H6 & H7 & SC & SS & SD & -> & ->) LN PM L.
  destruct (file_read s title noisy cs b1 ss b2 dd) as (p & R & _ & FC & FS & _ & _ & MG); auto.
  assert (LD : load str show (S N) quick s = Done d) by (apply L; lia).
  destruct (load_stages _ _ _ _ _ _ _ (R N) LD) as (imps & o & pls & cs2 & _ & ER & _).
  apply (reorganised_texts show (fun _ => True) 99999999 (fun k a => length k <= 9)) with (4 := ER).
  - intros; assumption.
  - intros k m q z n _ _ BN. apply (str_length 7). change (10 ^ Z.of_nat 8)%Z with 100000000%Z. lia.
  - intros; assumption.
  - intros; exact I.
  - intros c IC. apply in_map_iff in IC as (x & <- & IX). cbn [k_mat]. eauto.
  - rewrite map_length, <- (forall2_len _ _ _ FC). rewrite map_length in PM.
    assert (LM : length (f_mats p) <= length (mats_of (map snd dd))).
    { destruct MG as [MG _]. rewrite <- (map_length fst (f_mats p)), <- (map_length fst (mats_of _)). apply NoDup_incl_length; [apply (read_file_mats _ _ _ (R 0))|].
      intros k I. now apply MG. }
    lia.
  - intros k a I. apply LN. apply MG. unfold keys. apply in_map_iff. now exists (k, a).
Qed.

(** What is asked of the numbers: FLUKA's fields have ten columns. *)
Record fluka_widths (show : Q -> text) (cells : list cell_says) (ds : list data_says) : Prop := {
  fw_cells : forall c, In c cells -> (cs_id c < 100000000)%Z;
  fw_mats : (Z.of_nat (length (mats_of ds) + length cells) < 99999999)%Z;
  fw_names : forall n, In n (map fst (mats_of ds)) -> length n <= 9;
  fw_dens : forall c m q, In c cells -> cs_mat c = Some (m, q) -> word (show (Qabs q)) /\ length (show (Qabs q)) <= 10;
  fw_none : word (show 0%Q) /\ length (show 0%Q) <= 10;
  fw_imps : forall k c q, nth_error cells k = Some c -> importance ds k c q -> PropFlukaMat.reasonable q }.

Lemma deck_for_fluka str show quick order s cells ss ds d N : (forall x, numeral (str x)) -> describes s cells ss ds -> fine_cards quick (trs_of ds) ss -> fluka_cards (trs_of ds) ss ->
  fluka_widths show cells ds -> fluka_nuclides cells ds -> (forall ms, FlukaInput.is_nuclide_set ms (order ms)) ->
  deck_means str show cells (map snd ss) ds d -> deck_prints show cells ds d -> (forall c, In c cells -> (0 < cs_id c)%Z) ->
  (forall fuel, N <= fuel -> load str show fuel quick s = Done d) ->
  exists bc l, bounding_coordinates l [0; 0; 0; 0; 0; 0]%R = Some bc /\ (forall x, In x (d_surfs d) -> after (fst x)) /\ PropFlukaFile.fluka_deck str show order bc d.
Proof.
  intros NS DS FW FC WD FN NO D DP POS L.
  destruct (deck_bodies str show quick s cells ss ds d N DS FW FC L) as (bc & l & BC & HB). exists bc, l. split; [exact BC|]. split; [intros x I; now apply HB|].
  assert (SK := deck_short str show quick s cells ss ds d N DS (fw_names _ _ _ WD) (fw_mats _ _ _ WD) L).
  split; [exact NS|]. split; [now exists l|]. split; [|split; [|split; [apply NO|]]].
  - apply Forall_forall. intros x I. destruct (HB x I) as ((TO & NO' & CC) & EB), (dm_surfs _ _ _ _ _ _ D x I) as (P & sn & E).
    split; [rewrite E; discriminate|]. split; [exact TO|]. split; [exact NO'|]. intro IC. split; [exact EB|now apply CC].
  - apply Forall_forall. intros g I. apply In_nth_error in I as (k & HG). destruct (nth_there _ _ k g (dm_count _ _ _ _ _ _ D) HG) as (c & HC).
    assert (M := dm_cells _ _ _ _ _ _ D k c g HC HG). assert (IC := nth_error_In _ _ HC). destruct (cm_laid _ _ _ _ _ _ _ _ _ M) as [[_ TI] CN].
    pose proof (POS c IC) as PC. pose proof (fw_cells _ _ _ WD c IC) as LC.
    split; [|split].
    + split; [rewrite (cm_id _ _ _ _ _ _ _ _ _ M); lia|]. split; [rewrite (cm_id _ _ _ _ _ _ _ _ _ M); apply (str_length 7); change (10 ^ Z.of_nat 8)%Z with 100000000%Z; lia|].
      split; [exact TI|]. split.
      * intros s0 IS IW. destruct (CN s0 IS IW) as (z & E). exists z. rewrite E. split; [apply py_int_str_Z|]. intro Z0.
        assert (IM : In (Z.abs z) (map (fun s => s_id (fst s)) (d_surfs d))).
        { apply (cm_surfs _ _ _ _ _ _ _ _ _ M). exists (str_Z z), z. rewrite <- E at 1. split; [exact IS|]. split; [apply py_int_str_Z|reflexivity]. }
        apply in_map_iff in IM as (x & EX & IX). destruct (dm_surfs _ _ _ _ _ _ D x IX) as [PX _]. lia.
      * destruct (cm_region _ _ _ _ _ _ _ _ _ M) as (r & E & _). now exists r.
    + destruct (cs_mat c) as [[m q]|] eqn:EM; [|rewrite (cm_void _ _ _ _ _ _ _ _ _ M EM); vm_compute; lia].
      destruct (cm_mat _ _ _ _ _ _ _ _ _ M m q EM) as (_ & _ & a & A & _). apply dget_some_in in A. now apply (SK _ a).
    + exact (fw_imps _ _ _ WD k c _ HC (cm_imp _ _ _ _ _ _ _ _ _ M)).
  - intros k a I. destruct (dm_mats _ _ _ _ _ _ D k a I) as (MN & n & es & LE & MO). destruct (FN n es LE) as (EX & LO & HI & KN). destruct (MO EX) as [MA _].
    destruct (dp_keys _ _ _ _ DP k a I) as ((NE & DG) & _ & _ & _ & DQ). rewrite <- MN in NE, DG.
    assert (WS : word (show (Qabs (m_dens a))) /\ length (show (Qabs (m_dens a))) <= 10).
    { destruct DQ as [-> | (c & m & IC & EC)]; [exact (fw_none _ _ _ WD)|exact (fw_dens _ _ _ WD c m _ IC EC)]. }
    destruct (made_bounds es _ MA LO HI) as [B1 B2].
    split; [split; [exact NE|split; [exact DG|split; [rewrite MN; now apply (SK k a)|apply WS]]]|]. split; [apply MA|]. split; [apply WS|]. split; [exact B1|]. split; [exact B2|].
    intros t IT. destruct MA as (_ & _ & _ & _ & _ & KS). destruct (KS t IT) as [(LT & i & EI & NZ)|(z & y & i & b & LZ & EZ & II & ->)].
    + exists i. split; [exact EI|]. now apply (KN t i).
    + exists i. split; [apply py_int_str_Z|]. apply (natural_called y i b II). intros ->. now apply (proj1 (KN z _ LZ EZ)).
Qed.

(** Strictly between the coordinates the code keeps of the whole problem (see C39, C43). *)
Definition within (bc : list R) (p : pt) : Prop :=
  (nth 0 bc 0 < GeomSpec.px p < nth 1 bc 0 /\ nth 2 bc 0 < GeomSpec.py p < nth 3 bc 0 /\ nth 4 bc 0 < GeomSpec.pz p < nth 5 bc 0)%R.

(** A body of the file: it is called after the surface, and is its negative side; if a cone is cut this is said of the points
    between the coordinates only. *)
Definition fluka_body_said (str : R -> text) (ss : list (card * surf_says)) (bc : list R) (x : Z * sense) (b : list text) : Prop :=
  exists ty toks vals body, b = T ty :: (T "S" ++ str_Z (fst x)) :: toks /\ Forall2 (TargetSpec.shows str) toks vals /\ FlukaSpec.fluka_means ty vals body /\
    forall p, uncut_cards ss \/ within bc p -> (body p <-> neg (snd x) p).

Lemma forall2_there {A B} (P : A -> B -> Prop) l l' : Forall2 P l l' -> Forall2 (fun a b => In a l /\ P a b) l l'.
Proof.
  intro F. assert (X : forall x, In x l -> In x l) by auto. revert X. generalize l at 2 3. induction F as [|x y l l' H F IH]; intros l0 X; constructor; [split; [apply X; now left|exact H]|].
  apply IH. intros z I. apply X. now right.
Qed.

(** C84, FLUKA: the program is given the characters of an MCNP file and asked for FLUKA.  It ends, and the file it writes,
    read as FLUKA reads a file, holds the geometry the MCNP file describes, with its importances up to one factor, what is in
    the regions, and materials with the fractions of the cards summed by FLUKA's names.  (Missing, because false or not
    modelled: universes and the sign of densities, which are lost, see [C80_universe_refuted] and [C80_density_refuted];
    tellurium, see [C84_tellurium_refuted]; whole cones and tori, see [C43_whole_cone_refuted]; cut cones outside the
    coordinates kept of the problem; what C80 and C83 leave out.) *)
Theorem C84_fluka_partial str show nuclide_order universe_order quick s cells ss ds rank :
  describes s cells ss ds -> good_cards cells (map snd ss) ds rank -> fine_cards quick (trs_of ds) ss -> fluka_cards (trs_of ds) ss ->
  printable show cells ss ds -> fluka_widths show cells ds -> fluka_nuclides cells ds -> (forall ms, FlukaInput.is_nuclide_set ms (nuclide_order ms)) ->
  (forall x, numeral (str x)) -> (forall c m q, In c cells -> cs_mat c = Some (m, q) -> numeral (show q)) ->
  exists N t d' bc srfs mats order bs rs k bias assign es gs,
    (forall fuel, N <= fuel -> program str show fuel nuclide_order universe_order quick [FLUKA] s = Done ([(FLUKA, File t)], Some d')) /\
    PropFlukaFile.fluka_reads t = Some (PropFlukaFile.Fi (T " input deck automatically created by csg2csg" ++ [newline]) bs rs (bias ++ assign ++ es ++ concat gs)) /\
    (* bodies *)
    Forall2 (fluka_body_said str ss bc) srfs bs /\ NoDup (map fst srfs) /\
    (* regions *)
    Forall2 (fun c ts => exists reg r, ts = TAtom (T "C" ++ str_Z (cs_id c)) :: TAtom (T "5") :: reg /\ expr reg r /\
      forall p env incell, means_at cells (map snd ss) (trs_of ds) p env incell ->
      forall inside, (forall x, In x srfs -> (inside (T "S" ++ str_Z (fst x)) = true <-> neg (snd x) p) /\ (inside (T "S" ++ str_Z (fst x)) = false <-> pos (snd x) p)) ->
      holds (fluka_env inside) r = incell (str_Z (cs_id c))) cells rs /\
    (* importances *)
    (0 < k)%Q /\ length bias = length cells /\
    (forall i c card, nth_error cells i = Some c -> nth_error bias i = Some card -> exists q, importance ds i c q /\ PropFlukaFile.bias_is k (cs_id c) q card) /\
    (* contents *)
    length assign = length cells /\
    (forall i c card, nth_error cells i = Some c -> nth_error assign i = Some card -> exists q n, importance ds i c q /\ PropFlukaFile.assign_is (cs_id c) n q card /\
      match cs_mat c with
      | None => n = 0%Z
      | Some (m, rho) => (0 < n)%Z /\ exists a, In a mats /\ m_num a = str_Z n /\ (m_dens a == rho)%Q /\ forall es, last_for (str_Z m) (mats_of ds) es -> made_of es (m_comp a)
      end) /\
    (* materials *)
    NoDup (map m_num mats) /\ Forall (fun a => exists n es, last_for n (mats_of ds) es /\ made_of es (m_comp a)) mats /\
    (forall t, In t order <-> exists a, In a mats /\ In t (keys (m_comp a))) /\
    Forall2 (fun a g => exists named, PropFlukaFile.renamed (m_comp a) named /\
      (forall name, In name (keys named) -> PropFlukaFile.known order (es ++ concat gs) name) /\ PropFlukaFile.material_is show a named g) mats gs.
Proof.
  intros DS G FW FC PR WD FN NO NS NQ.
  destruct (read_deck str show quick s cells ss ds rank DS G FW) as (N & d & L & D & UC & _).
  assert (POS : forall c, In c cells -> (0 < cs_id c)%Z) by (intros c I; now apply (gc_cells _ _ _ _ G c)).
  destruct (deck_printed str show quick s cells ss ds d N DS PR) as [DP GE]; [|exact (gc_pos _ _ _ _ G)|exact L|].
  { intros c m q IC EC. apply numeral_newline. now apply (NQ c m q). }
  destruct (deck_for_fluka str show quick nuclide_order s cells ss ds d N NS DS FW FC WD FN NO D DP POS L) as (bc & l & BC & AF & SD).
  destruct (PropFlukaFile.C80_fluka_file_partial str show nuclide_order bc d SD) as (t & d' & bs & rs & k & bias & assign & es & gs & (K & LT) & RD & HB & HR & KP & HI & HA & HM & _).
  destruct (choices (fun s y => surf_sense (fst s) = Some (snd y) /\ fst y = s_id (fst s)) (d_surfs d)) as (srfs & FR).
  { intros x I. destruct (dm_surfs _ _ _ _ _ _ D x I) as (_ & sn & E). now exists (s_id (fst x), sn). }
  set (mats := map snd (d_mats d)).
  exists (max N K), t, d', bc, srfs, mats, (nuclide_order (d_mats d)), bs, rs, k, bias, assign, es, gs. split.
  { intros fuel HF. unfold program. rewrite L by lia. cbn [run write_code]. rewrite LT by lia. reflexivity. }
  split; [exact RD|]. split.
  { assert (HB' : Forall2 (fun s b => In s (d_surfs d) /\ forall sn, surf_sense (fst s) = Some sn -> PropFlukaFile.body_is str bc (fst s) sn b) (d_surfs d) bs).
    { now apply forall2_there. }
    apply forall2_same_left with (1 := FR) (2 := HB'). intros x y b (E1 & E2) (IX & H). destruct (H (snd y) E1) as (ty & tk & vals & body & EB & SV & FM & HP).
    exists ty, tk, vals, body. rewrite E2. split; [exact EB|]. split; [exact SV|]. split; [exact FM|]. intros p UP. apply HP. intro IC.
    destruct UP as [U|(W1 & W2 & W3)].
    - elim (UC U x IX). destruct (AF x IX) as (_ & _ & CC). destruct (CC IC) as (c1 & c2 & c3 & t2 & sh & EC & SH & _). unfold sheeted. rewrite EC.
      destruct (s_type (fst x)); try discriminate IC; destruct SH; lra.
    - unfold PropFluka.low_of, PropFluka.high_of, PropFluka.along. destruct (s_type (fst x)); try discriminate IC; assumption. }
  split.
  { assert (IDS : map fst srfs = map (fun s => s_id (fst s)) (d_surfs d)) by (clear - FR; induction FR as [|x y l l' (_ & E) F IH]; cbn [map]; [reflexivity|]; now rewrite E, IH).
    rewrite IDS. apply (dm_ids _ _ _ _ _ _ D). }
  split.
  { apply nth_forall2; [rewrite <- (dm_count _ _ _ _ _ _ D); exact (forall2_len _ _ _ HR)|].
    intros i c ts HC HT. destruct (nth_there _ _ i c (eq_sym (dm_count _ _ _ _ _ _ D)) HC) as (g & HG).
    assert (M := dm_cells _ _ _ _ _ _ D i c g HC HG). destruct (cm_region _ _ _ _ _ _ _ _ _ M) as (r & EX & HH).
    destruct (forall2_nth _ _ _ HR i g ts HG HT r EX) as (reg & r' & ET & ER & HE). rewrite (cm_id _ _ _ _ _ _ _ _ _ M) in ET.
    exists reg, r'. split; [exact ET|]. split; [exact ER|]. intros p env incell MA inside IN.
    rewrite (HE (fun n => negb (inside (T "S" ++ str_Z n))) inside) by (intros; now rewrite negb_involutive).
    apply (HH p env incell MA). intros s0 sn IS ES. destruct (forall2_in_left _ _ _ s0 FR IS) as (y & IY & Y1 & Y2).
    rewrite Y1 in ES. injection ES as <-. destruct (IN y IY) as [I1 I2]. rewrite Y2 in I1, I2. rewrite negb_true_iff. exact I2. }
  split; [exact KP|]. split; [rewrite <- (forall2_len _ _ _ HI); apply (dm_count _ _ _ _ _ _ D)|]. split.
  { intros i c card HC HX. destruct (nth_there _ _ i c (eq_sym (dm_count _ _ _ _ _ _ D)) HC) as (g & HG). assert (M := dm_cells _ _ _ _ _ _ D i c g HC HG).
    exists (g_imp g). split; [exact (cm_imp _ _ _ _ _ _ _ _ _ M)|]. rewrite <- (cm_id _ _ _ _ _ _ _ _ _ M). exact (forall2_nth _ _ _ HI i g card HG HX). }
  split; [rewrite <- (forall2_len _ _ _ HA); apply (dm_count _ _ _ _ _ _ D)|]. split.
  { intros i c card HC HX. destruct (nth_there _ _ i c (eq_sym (dm_count _ _ _ _ _ _ D)) HC) as (g & HG). assert (M := dm_cells _ _ _ _ _ _ D i c g HC HG).
    exists (g_imp g), (g_mat g). split; [exact (cm_imp _ _ _ _ _ _ _ _ _ M)|]. rewrite <- (cm_id _ _ _ _ _ _ _ _ _ M). split; [exact (forall2_nth _ _ _ HA i g card HG HX)|].
    destruct (cs_mat c) as [[m q]|] eqn:EM; [|exact (cm_void _ _ _ _ _ _ _ _ _ M EM)]. destruct (cm_mat _ _ _ _ _ _ _ _ _ M m q EM) as (_ & PM & a & A1 & A2 & A3 & A4).
    split; [exact PM|]. exists a. split; [unfold mats; apply in_map_iff; exists (str_Z (g_mat g), a); split; [reflexivity|now apply dget_some_in]|].
    split; [exact A2|]. split; [exact A3|]. intros es0 LE. now apply A4. }
  split.
  { unfold mats. rewrite map_map. rewrite (map_ext_in _ fst); [apply (dm_keys _ _ _ _ _ _ D)|]. intros [k0 a] I. cbn [fst snd]. now apply (dm_mats _ _ _ _ _ _ D k0 a). }
  split.
  { unfold mats. apply Forall_map. apply Forall_forall. intros [k0 a] I. cbn [fst snd]. destruct (dm_mats _ _ _ _ _ _ D k0 a I) as (_ & n & es0 & LE & MO).
    exists n, es0. split; [exact LE|]. apply MO. now apply (FN n es0). }
  split.
  { intro x. destruct (NO (d_mats d)) as [_ H]. rewrite H. unfold mats. split.
    - intros (k0 & a & I & J). exists a. split; [|exact J]. apply in_map_iff. now exists (k0, a).
    - intros (a & I & J). apply in_map_iff in I as ([k0 a'] & E & I). cbn [snd] in E. subst a'. now exists k0, a. }
  unfold mats. revert HM. generalize (nuclide_order (d_mats d)) (es ++ concat gs). clear. intros od cd HM. induction HM as [|e g l l' H F IH]; cbn [map]; constructor; assumption.
Qed.
Print Assumptions C84_fluka_partial.

(** ** What stops the writer *)

(** A nuclide that FLUKA has no name for and that is not left out. *)
Definition unnamed (i : Z) : Prop := (forall name, ~ PropFlukaNames.called i name) /\ ~ PropFlukaNames.dropped i.
Lemma unnamed_collapse i : FlukaInput.collapse (str_Z i) = None -> unnamed i.
Proof.
  intro C. split.
  - intros name H. apply (PropFlukaNames.collapse_called _ i name (py_int_str_Z i)) in H. congruence.
  - intro H. apply (PropFlukaNames.collapse_dropped _ i (py_int_str_Z i)) in H. congruence.
Qed.
(** None of the natural isotopes of tellurium has a name (FLUKAInput.py 67-222: 52000 is to be collapsed, to no name). *)
Lemma tellurium_isotopes : isotopes 52 <> [] /\ forall i a, In (i, a) (isotopes 52) -> unnamed i.
Proof.
  assert (TB : forallb (fun e : Z * Q => match FlukaInput.collapse (str_Z (fst e)) with None => true | _ => false end) (isotopes 52) = true) by (vm_compute; reflexivity).
  split; [vm_compute; discriminate|]. intros i a I. rewrite forallb_forall in TB. specialize (TB _ I). cbn [fst] in TB. apply unnamed_collapse.
  destruct (FlukaInput.collapse (str_Z i)); [discriminate TB|reflexivity].
Qed.

(** C84: if the material of a cell lists natural tellurium, or a nuclide without a name, the program asked for FLUKA ends with
    an exception. *)
Theorem C84_unnamed_fails str show nuclide_order universe_order quick s cells ss ds rank c m rho es z i :
  describes s cells ss ds -> good_cards cells (map snd ss) ds rank -> fine_cards quick (trs_of ds) ss -> (forall ms, FlukaInput.is_nuclide_set ms (nuclide_order ms)) ->
  In c cells -> cs_mat c = Some (m, rho) -> last_for (str_Z m) (mats_of ds) es -> lists z es -> py_int z = Some i ->
  i = 52000%Z \/ (i mod 1000 <> 0)%Z /\ unnamed i ->
  exists N, forall fuel, N <= fuel -> program str show fuel nuclide_order universe_order quick [FLUKA] s = Done ([], None).
Proof.
  intros DS G FW NO IC EM LE LZ EZ UN. destruct (read_deck str show quick s cells ss ds rank DS G FW) as (N & d & L & D & _).
  exists N. intros fuel HF. unfold program. rewrite L by exact HF. cbn [run write_code].
  apply In_nth_error in IC as (k & HC). destruct (nth_there _ _ k c (eq_sym (dm_count _ _ _ _ _ _ D)) HC) as (g & HG).
  destruct (cm_mat _ _ _ _ _ _ _ _ _ (dm_cells _ _ _ _ _ _ D k c g HC HG) m rho EM) as (_ & _ & a & A & _ & _ & MO). destruct (MO es LE) as [MA _]. apply dget_some_in in A.
  assert (W : FlukaInput.write_fluka_materials show fuel (nuclide_order (d_mats d)) (d_mats d) = None).
  { assert (X : exists t j, In t (keys (m_comp a)) /\ py_int t = Some j /\ unnamed j).
    { destruct MA as (_ & k0 & _ & H1 & H2 & _). destruct UN as [E|[NZ U]].
      - destruct tellurium_isotopes as [NE U]. rewrite E in EZ. revert NE U H2. generalize isotopes. intros iso NE U H2. destruct (iso 52%Z) as [|[j b] l] eqn:EI; [now elim NE|].
        destruct (H2 z 52%Z j b LZ EZ) as (v & DV & _); [rewrite EI; now left|]. exists (str_Z j), j. split; [exact (in_map fst _ _ (dget_some_in _ _ _ DV))|]. split; [apply py_int_str_Z|apply (U j b); now left].
      - destruct (H1 z i LZ EZ NZ) as (v & DV & _). exists z, i. split; [exact (in_map fst _ _ (dget_some_in _ _ _ DV))|]. now split. }
    destruct X as (t & j & IT & ET & U1 & U2). exact (PropFlukaNames.C66_unnamed_fails show fuel _ (d_mats d) _ a t j (NO _) A IT ET U1 U2). }
  unfold fluka_file. rewrite W. destruct (fluka_surfaces str (d_surfs d)) as [[? ?]|]; reflexivity.
Qed.
Print Assumptions C84_unnamed_fails.

(** ** Examples *)

(** The file of the example of C84 for MCNP, with natural tellurium for the uranium. *)
Definition file84t : text :=
  T "A ball in a ball" ++ newline :: T "1 1 -18.5 -1 U=3" ++ newline :: T "2 0 -2 FILL=3 (1 0 0)" ++ newline :: T "3 0 2" ++ newline :: newline ::
  T "1 SO 5" ++ newline :: T "2 SO 6" ++ newline :: newline :: T "IMP:N 1 1 0" ++ newline :: T "M1 52000 2" ++ newline :: T "nps 1000" ++ [newline].
Definition data84t : list (card * data_says) :=
  [((mkL (T "imp:n 1 1 0") None, []), DImp NamesModel.NEUTRON [T "1"; T "1"; T "0"]);
   ((mkL (T "m1 52000 2") None, []), DMat (T "1") [Nuclide (T "52000") (T "2")]); ((mkL (T "nps 1000") None, []), DOther)].
Lemma says_datas84t : says_datas data84t.
Proof.
  assert (NI : forall r, ~ indented ("i"%char :: r) /\ ~ indented ("m"%char :: r) /\ ~ indented ("n"%char :: r)) by (intro r; repeat split; intros (x & E); discriminate).
  assert (NM : forall x, is_material_line x = false -> ~ material_name x) by (intros x E M; apply is_material_spec in M; congruence).
  split.
  - constructor; [|constructor; [|constructor; [|constructor]]]; cbn [fst snd]; (split; [split; [apply NI|constructor]|]).
    + exists (T "1 1 0"). split; [reflexivity|]. split; [reflexivity|]. split; [|reflexivity]. constructor.
    + exists (T "52000 2"). split.
      * split; [exists []; repeat split; cbn; lia|]. split; [discriminate|]. split; [reflexivity|]. split; [split; vm_compute; intuition discriminate|constructor].
      * split; [vm_compute; reflexivity|]. split.
        -- repeat (constructor; [split; [unfold no_eq; vm_compute; intuition discriminate|split; [unfold no_eq; vm_compute; intuition discriminate|vm_compute; discriminate]]|]). constructor.
        -- constructor; [|constructor]; vm_compute; reflexivity.
    + split; [intros [(r & E)|(r & E)]; discriminate|]. constructor; [|constructor]. split; [vm_compute; reflexivity|now apply NM].
  - eexists [_; _], _, _. split; [reflexivity|]. split; discriminate.
Qed.
Lemma describes84t : describes file84t (map snd PropProgramMcnp.cells88) PropVacuum.surfs86 (map snd data84t).
Proof.
  eexists (T "a ball in a ball" ++ [newline]), _, PropProgramMcnp.cells88, [newline], [newline], data84t. split.
  { exists (readlines file84t). split; [vm_compute; reflexivity|]. split; [|vm_compute; reflexivity].
    assert (E : forallb ended (readlines file84t) = true) by (vm_compute; reflexivity).
    apply Forall_forall. intros x I. rewrite forallb_forall in E. now apply ended_ok, E. }
  split; [vm_compute; reflexivity|]. split; [vm_compute; repeat (apply wc_line; [intros r E; discriminate E|]); apply wc_nil|].
  split; [discriminate|]. split; [reflexivity|]. split; [discriminate|]. split; [reflexivity|]. split; [exact PropProgramMcnp.says_cells88|]. split; [exact PropVacuum.says_surfs86|].
  split; [exact says_datas84t|]. split; reflexivity.
Qed.
Lemma mats84t n es : last_for n (mats_of (map snd data84t)) es -> n = T "1" /\ es = [Nuclide (T "52000") (T "2")].
Proof.
  intros (a & b & E & _). change (mats_of (map snd data84t)) with [(T "1", [Nuclide (T "52000") (T "2")])] in E.
  destruct a as [|? a]; [now injection E as <- <- _|]. injection E as _ E. destruct a; discriminate.
Qed.
Lemma lists84t z : lists z [Nuclide (T "52000") (T "2")] -> z = T "52000".
Proof. intros (w & f & [E|[]] & <-); injection E as <- <-; reflexivity. Qed.
Lemma good_cards84t : good_cards (map snd PropProgramMcnp.cells88) (map snd PropVacuum.surfs86) (map snd data84t) Z.to_nat.
Proof.
  destruct PropProgramMcnp.good_cards88 as [G1 G2 G3 G4 G5 G6 G7 G8 _ _]. split.
  - exact G1.
  - exact G2.
  - exact G3.
  - exact G4.
  - exact G5.
  - exact G6.
  - split.
    + intros p vs v I IV. cbn [map snd data84t In] in I. destruct I as [I|[I|[I|[]]]]; try discriminate. injection I as <- <-.
      cbn [In] in IV. destruct IV as [<-|[<-|[<-|[]]]]; split; vm_compute; intuition discriminate.
    + intros _. exists [T "1"; T "1"; T "0"]. split; [|split; [cbn; lia|]].
      * exists []. eexists. split; [reflexivity|]. intros ws I. cbn [In] in I. intuition discriminate.
      * repeat (constructor; [vm_compute; discriminate|]). constructor.
  - intros k c q s f i w HC IM Z IS B. exfalso. destruct IS as [<-|[<-|[]]]; discriminate B.
  - intros n es L. destruct (mats84t n es L) as [_ ->]. clear L. assert (P1 : py_int (T "52000") = Some 52000%Z) by (vm_compute; reflexivity). split.
    + intros z L. rewrite (lists84t z L). eexists; (split; [vm_compute; reflexivity|reflexivity]).
    + intros z z' L L' E. now rewrite (lists84t z L), (lists84t z' L').
    + intros z z' y n' L L' E E' M EY. rewrite (lists84t z' L'), P1 in E'. assert (N : (n' = 52000)%Z) by congruence. subst n'. now elim M.
    + intros z y L E. apply lists84t in L. subst z. rewrite P1 in E. assert (Y : (52000 = 1000 * y)%Z) by congruence. assert (y = 52%Z) by lia. subst y. split; vm_compute; discriminate.
    + vm_compute. discriminate.
  - intros c m d [<-|[<-|[<-|[]]]]; cbn [snd cs_mat]; try discriminate; injection 1 as <- <-; now left.
Qed.

(** C84 is false of FLUKA for natural tellurium: no file is written. *)
Theorem C84_tellurium_refuted : exists s cells ss ds rank, describes s cells ss ds /\ good_cards cells (map snd ss) ds rank /\
  (exists c m rho es, In c cells /\ cs_mat c = Some (m, rho) /\ last_for (str_Z m) (mats_of ds) es /\ forall z, lists z es <-> z = T "52000") /\
  forall str show nuclide_order universe_order quick, (forall ms, FlukaInput.is_nuclide_set ms (nuclide_order ms)) ->
    exists N, forall fuel, N <= fuel -> program str show fuel nuclide_order universe_order quick [FLUKA] s = Done ([], None).
Proof.
  exists file84t, (map snd PropProgramMcnp.cells88), PropVacuum.surfs86, (map snd data84t), Z.to_nat. split; [exact describes84t|]. split; [exact good_cards84t|].
  assert (IC := or_introl eq_refl : In (snd (nth 0 PropProgramMcnp.cells88 (mkL [] None, [], mkCS 0 None (RAtom []) []))) (map snd PropProgramMcnp.cells88)).
  assert (LF : last_for (str_Z 1) (mats_of (map snd data84t)) [Nuclide (T "52000") (T "2")]) by (exists [], []; split; [reflexivity|intros []]).
  assert (LS : lists (T "52000") [Nuclide (T "52000") (T "2")]) by (exists (T "52000"), (T "2"); split; [now left|reflexivity]).
  split.
  { eexists _, _, _, _. split; [exact IC|]. split; [reflexivity|]. split; [exact LF|]. intro z. split; [apply lists84t|intros ->; exact LS]. }
  intros str show nuclide_order universe_order quick NO.
  apply (C84_unnamed_fails str show nuclide_order universe_order quick file84t _ _ _ Z.to_nat _ 1%Z (-185 # 10)%Q _ (T "52000") 52000%Z describes84t good_cards84t (PropVacuum.fine_cards86 quick) NO IC eq_refl LF LS);
    [vm_compute; reflexivity|now left].
Qed.
Print Assumptions C84_tellurium_refuted.

(** Printing for the file of the example of C83. *)
Definition show84f (q : Q) : text := if Qeq_bool q (78 # 10) then T "7.8" else if Qeq_bool q (25 # 10) then T "2.5" else PropProgramSerpent.show84 q.
Lemma show84f_small q : (q <= 1)%Q -> show84f q = PropProgramSerpent.show84 q.
Proof.
  intro L. unfold show84f. destruct (Qeq_bool q (78 # 10)) eqn:E1; [apply Qeq_bool_iff in E1; rewrite E1 in L; now elim L|].
  destruct (Qeq_bool q (25 # 10)) eqn:E2; [apply Qeq_bool_iff in E2; rewrite E2 in L; now elim L|reflexivity].
Qed.
Lemma imp83_small k c q : nth_error (map snd cells83) k = Some c -> importance (map snd data83) k c q -> (q == 1 \/ q == 0)%Q.
Proof.
  intros HC HI. assert (LP : last_imp (map snd data83) [T "1"; T "1"; T "1"; T "0"]).
  { exists []. eexists. split; [reflexivity|]. intros ws I. cbn [In] in I. intuition discriminate. }
  assert (K : k < 4) by (change 4 with (length (map snd cells83)); apply nth_error_Some; congruence).
  destruct HI as [(vs & v & L & NV & PF)|[L _]]; [|specialize (L _ LP); cbn [length] in L; lia]. rewrite (last_imp83 vs L) in NV.
  destruct k as [|[|[|[|k]]]]; cbn [nth_error] in NV; [| | | |lia]; injection NV as <-; vm_compute in PF; injection PF as <-; (left + right); reflexivity.
Qed.
Lemma dens83 c m q : In c (map snd cells83) -> cs_mat c = Some (m, q) -> q = (-78 # 10)%Q \/ q = (-25 # 10)%Q.
Proof. intros I E. cbn [map cells83 snd In] in I. destruct I as [<-|[<-|[<-|[<-|[]]]]]; cbn [cs_mat] in E; try discriminate; injection E as <- <-; auto. Qed.
Lemma printable84f : printable show84f (map snd cells83) surfs83 (map snd data83).
Proof.
  destruct PropProgramSerpent.printable84 as [P1 P2 P3 P4 P5 P6 P7 P8]. split; [exact P1|exact P2|exact P3|exact P4| | |exact P7|exact P8].
  - intros c m q I E. assert (H := P5 c m q I E). unfold density_shown in *. rewrite show84f_small; [exact H|]. destruct (dens83 c m q I E) as [-> | ->]; discriminate.
  - intros k c q I E. assert (H := P6 k c q I E). unfold importance_shown in *. rewrite show84f_small; [exact H|]. destruct (imp83_small k c q I E) as [X|X]; rewrite X; discriminate.
Qed.
Lemma fluka_cards83 : fluka_cards (trs_of (map snd data83)) surfs83.
Proof.
  apply Forall_forall. intros x I m vals S. assert (K := spells83 x m vals I S).
  assert (NM : forall n, n <> "so"%string -> n <> "rpp"%string -> m <> n) by (intros n N1 N2 ->; destruct K as [[-> _]| ->]; [now elim N1|now elim N2]).
  split; [intros [E|[E|E]]; revert E; apply NM; discriminate|].
  split; [intro E; elim (NM "p"%string); [discriminate|discriminate|exact E]|].
  split; [intros _ J; exfalso; cbn [In] in J; repeat (destruct J as [J|J]; [symmetry in J; revert J; apply NM; discriminate|]); destruct J|].
  split; [intros _ J; exfalso; cbn [In] in J; repeat (destruct J as [J|J]; [symmetry in J; revert J; apply NM; discriminate|]); destruct J|].
  intros id mo E L. split; [|intro EM; elim (NM "sq"%string); [discriminate|discriminate|exact EM]].
  assert (EM : mo = motion7).
  { destruct L as (a & b & L & _). change (trs_of (map snd data83)) with [(T "7", motion7)] in L. destruct a as [|? a]; [now injection L as _ <- _|]. injection L as _ L. destruct a; discriminate. }
  subst mo. unfold motion7, det_of, dot, cross_pt. cbn [r1 r2 r3 GeomSpec.px GeomSpec.py GeomSpec.pz]. lra.
Qed.
Lemma widths83 : fluka_widths show84f (map snd cells83) (map snd data83).
Proof.
  split.
  - intros c I. cbn [map cells83 snd In] in I. destruct I as [<-|[<-|[<-|[<-|[]]]]]; reflexivity.
  - vm_compute. reflexivity.
  - change (mats_of (map snd data83)) with [(T "1", [Nuclide (T "8000") (T "0.5"); Nuclide (T "1001.70c") (T "1.5")])]. intros n [<-|[]]. cbn. lia.
  - intros c m q I E. destruct (dens83 c m q I E) as [-> | ->]; (split; [split; [discriminate|reflexivity]|cbn; lia]).
  - split; [split; [discriminate|reflexivity]|cbn; lia].
  - intros k c q HC HI. destruct (imp83_small k c q HC HI) as [X|X]; [right|left; exact X]. rewrite X. vm_compute. discriminate.
Qed.
Lemma fluka_nuclides83 : fluka_nuclides (map snd cells83) (map snd data83).
Proof.
  intros n es L. destruct (mats83 n es L) as [_ ->]. split; [eexists; split; [left; reflexivity|discriminate]|]. split.
  { intros w f [E|[E|[]]]; injection E as <- <-; vm_compute; discriminate. }
  split; [vm_compute; discriminate|]. intros z i LZ EZ. destruct (lists83 z LZ) as [-> | ->]; vm_compute in EZ; injection EZ as <-; (split; [discriminate|]).
  - intro N. now elim N.
  - intros _. apply natural_known. vm_compute. discriminate.
Qed.

(** The file of the example of C83 for FLUKA: four regions, of which (1/2, 1/2, 6) is in the second and the third only (the
    universe the third is filled with is lost); the second has a material made of HYDROG-1 and OXYGEN; the fourth is a black
    hole. *)
Example C84_fluka_example str nuclide_order universe_order quick : (forall x, numeral (str x)) -> (forall ms, FlukaInput.is_nuclide_set ms (nuclide_order ms)) ->
  exists N t d' srfs bs rs reg1 reg2 reg3 reg4 r1 r2 r3 r4 cards assign2 assign4 n named g c,
    (forall fuel, N <= fuel -> program str show84f fuel nuclide_order universe_order quick [FLUKA] file83 = Done ([(FLUKA, File t)], Some d')) /\
    PropFlukaFile.fluka_reads t = Some (PropFlukaFile.Fi (T " input deck automatically created by csg2csg" ++ [newline]) bs rs cards) /\
    Forall2 (fluka_body_said str surfs83 []) srfs bs /\
    rs = [TAtom (T "C1") :: TAtom (T "5") :: reg1; TAtom (T "C2") :: TAtom (T "5") :: reg2; TAtom (T "C3") :: TAtom (T "5") :: reg3; TAtom (T "C4") :: TAtom (T "5") :: reg4] /\
    expr reg1 r1 /\ expr reg2 r2 /\ expr reg3 r3 /\ expr reg4 r4 /\
    In assign2 cards /\ words (PropFlukaMat.field 1 assign2) = [T "M" ++ str_Z n] /\ words (PropFlukaMat.field 2 assign2) = [T "C2"] /\
    In assign4 cards /\ words (PropFlukaMat.field 1 assign4) = [T "BLCKHOLE"] /\ words (PropFlukaMat.field 2 assign4) = [T "C4"] /\
    (forall x, In x g -> In x cards) /\ In c g /\ PropFlukaNames.is_material c (T "M" ++ str_Z n) /\ In (T "HYDROG-1") (keys named) /\ In (T "OXYGEN") (keys named) /\
    (exists cs, g = c :: cs /\ Forall2 PropFlukaMat.shows_component (flat_map PropFlukaMat.pairs_on (rev cs)) named) /\
    forall inside, (forall x, In x srfs -> (inside (T "S" ++ str_Z (fst x)) = true <-> neg (snd x) (Pt (1/2) (1/2) 6)) /\
                                         (inside (T "S" ++ str_Z (fst x)) = false <-> pos (snd x) (Pt (1/2) (1/2) 6))) ->
      map (holds (fluka_env inside)) [r1; r2; r3; r4] = [false; true; true; false].
Proof.
  intros W NO. destruct (C84_fluka_partial str show84f nuclide_order universe_order quick file83 _ surfs83 _ Z.to_nat describes83 good_cards83 (fine_cards83 quick) fluka_cards83
    printable84f widths83 fluka_nuclides83 NO W) as (N & t & d' & bc & srfs & mats & order & bs & rs & k & bias & assign & es & gs & L & RD & FB & _ & FR & _ & LB & _ & LA & HA & NM & FM & _ & HM).
  { intros c m q I E. rewrite show84f_small; [apply PropProgramPhits.show84_numeral|]. destruct (dens83 c m q I E) as [-> | ->]; discriminate. }
  assert (LN := forall2_len _ _ _ FR). destruct rs as [|x1 [|x2 [|x3 [|x4 [|x5 rs]]]]]; try discriminate LN. cbn [map cells83 snd] in FR.
  inversion FR as [|? ? ? ? (reg1 & r1 & E1 & X1 & H1) F1]; subst. clear FR. inversion F1 as [|? ? ? ? (reg2 & r2 & E2 & X2 & H2) F2]; subst. clear F1.
  inversion F2 as [|? ? ? ? (reg3 & r3 & E3 & X3 & H3) F3]; subst. clear F2. inversion F3 as [|? ? ? ? (reg4 & r4 & E4 & X4 & H4) F4]; subst. clear F3 F4 LN.
  destruct assign as [|a1 [|a2 [|a3 [|a4 [|a5 assign]]]]]; try discriminate LA.
  destruct (HA 1 _ a2 eq_refl eq_refl) as (q2 & n2 & _ & (_ & A21 & A22 & _) & P2 & a & IA & NA & _ & MA).
  destruct (HA 3 _ a4 eq_refl eq_refl) as (q4 & n4 & I4 & (_ & A41 & A42 & _) & ->). cbn [cs_mat cs_id] in *.
  assert (LF : last_for (str_Z 1) (mats_of (map snd data83)) [Nuclide (T "8000") (T "0.5"); Nuclide (T "1001.70c") (T "1.5")]) by (exists [], []; split; [reflexivity|intros []]).
  specialize (MA _ LF). destruct (forall2_in_left _ _ _ a HM IA) as (g & IG & named & (_ & RN & _) & _ & c & cs & EG & IM & _ & _ & _ & SC).
  exists N, t, d', srfs, bs, [TAtom (T "C1") :: TAtom (T "5") :: reg1; TAtom (T "C2") :: TAtom (T "5") :: reg2; TAtom (T "C3") :: TAtom (T "5") :: reg3; TAtom (T "C4") :: TAtom (T "5") :: reg4],
    reg1, reg2, reg3, reg4, r1, r2, r3, r4, (bias ++ [a1; a2; a3; a4] ++ es ++ concat gs), a2, a4, n2, named, g, c.
  split; [exact L|]. split; [exact RD|]. split.
  { clear - FB. induction FB as [|x y l l' H F IH]; constructor; [|exact IH]. destruct H as (ty & tk & vals & body & E & SV & M & H). exists ty, tk, vals, body. split; [exact E|]. split; [exact SV|].
    split; [exact M|]. intros p _. apply H. left. exact uncut_cards83. }
  split; [reflexivity|]. split; [exact X1|]. split; [exact X2|]. split; [exact X3|]. split; [exact X4|]. split; [rewrite !in_app_iff; right; left; right; now left|].
  split.
  { rewrite A21. destruct (Z.eqb_spec n2 0) as [Z0|_]; [lia|reflexivity]. }
  split; [exact A22|]. split; [rewrite !in_app_iff; right; left; do 3 right; now left|]. split.
  { rewrite A41. cbn [Z.eqb]. assert (Z4 : Qeq_bool q4 0 = true).
    { apply Qeq_bool_iff. assert (LP : last_imp (map snd data83) [T "1"; T "1"; T "1"; T "0"]).
      { exists []. eexists. split; [reflexivity|]. intros ws I. cbn [In] in I. intuition discriminate. }
      destruct I4 as [(vs & v & LV & NV & PF)|[LV _]]; [|specialize (LV _ LP); cbn [length] in LV; lia]. rewrite (last_imp83 vs LV) in NV. injection NV as <-. vm_compute in PF. injection PF as <-. reflexivity. }
    rewrite Z4. reflexivity. }
  split; [exact A42|]. split.
  { intros x I. rewrite !in_app_iff. right. right. right. apply in_concat. now exists g. }
  split; [rewrite EG; now left|]. split; [rewrite <- NA; exact IM|].
  assert (CL : forall z name, FlukaInput.collapse (str_Z z) = Some (Some name) -> PropFlukaNames.called z name) by (intros z name C; exact (proj1 (PropFlukaNames.collapse_called _ _ name (py_int_str_Z z)) C)).
  destruct MA as (_ & k0 & _ & K1 & K2 & _). split.
  { apply RN. exists (T "1001"), 1001%Z. split; [|split; [vm_compute; reflexivity|apply CL; vm_compute; reflexivity]].
    destruct (K1 (T "1001") 1001%Z) as (v & DV & _); [exists (T "1001.70c"), (T "1.5"); split; [right; now left|reflexivity]|vm_compute; reflexivity|discriminate|].
    exact (in_map fst _ _ (dget_some_in _ _ _ DV)). }
  split.
  { apply RN. exists (str_Z 8016), 8016%Z. split; [|split; [vm_compute; reflexivity|apply CL; vm_compute; reflexivity]].
    assert (I8 : exists b, In (8016%Z, b) (isotopes 8)) by (eexists; vm_compute; left; reflexivity). destruct I8 as (b & I8).
    destruct (K2 (T "8000") 8%Z 8016%Z b) as (v & DV & _); [exists (T "8000"), (T "0.5"); split; [now left|reflexivity]|vm_compute; reflexivity|exact I8|].
    exact (in_map fst _ _ (dget_some_in _ _ _ DV)). }
  split; [now exists cs|].
  intros inside IN. cbn [map]. rewrite (H1 _ _ _ means83 inside IN), (H2 _ _ _ means83 inside IN), (H3 _ _ _ means83 inside IN), (H4 _ _ _ means83 inside IN). vm_compute. reflexivity.
Qed.
