(** Properties of the reorganisation of materials (C33) and of their colours (C57). *)
From Coq Require Import QArith Permutation.
From Verif Require Import PyStr PyStrFacts FortranNumber PyInt PyIntFacts PyDict NuclideData MaterialModel MaterialProofs
  ReorgProofs.
Open Scope nat_scope.
Open Scope list_scope.

(** ** C33 *)

(** What becomes of a cell of material [m], given the table [l] and the rules [p]. *)
Lemma cell_fate l p m d ds : NoDup (map fst l) -> map fst p = flat_map further l -> In (m, ds) l -> apart ds ->
  existsb (Qeq_bool d) ds = true ->
  (exists d0 r, ds = d0 :: r /\ (d == d0)%Q /\ apply_rules p (mkC (MInt m) d) = mkC (MInt m) d) \/
  (exists d' n, In (m, d', n) p /\ (d == d')%Q /\ apply_rules p (mkC (MInt m) d) = mkC (MStr n) d).
Proof.
  intros Nl Pf I A E. rewrite apply_rules_int. destruct (List.find (hits m d) p) as [[[m' d'] n]|] eqn:F.
  - right. apply List.find_some in F as [Ie H]. unfold hits in H. cbn [fst snd] in H. apply andb_prop in H as [H1 H2].
    apply Z.eqb_eq in H1. apply Qeq_bool_iff in H2. subst m'. exists d', n. auto.
  - left. apply existsb_exists in E as (q & Iq & Eq). apply Qeq_bool_iff in Eq. destruct ds as [|d0 r]; [destruct Iq|].
    destruct Iq as [<-|Iq]; [exists d0, r; auto|]. exfalso.
    assert (J : In (m, q) (map fst p)).
    { rewrite Pf. apply in_flat_map. exists (m, d0 :: r). split; [exact I|]. unfold further. cbn [fst snd tl]. now apply in_map. }
    apply in_map_iff in J as ([[m' d'] n] & Ee & Ip). injection Ee as -> ->. pose proof (find_none _ _ F _ Ip) as H.
    unfold hits in H. cbn [fst snd] in H. rewrite Z.eqb_refl in H. cbn [andb] in H.
    apply (proj2 (Qeq_bool_iff d q)) in Eq. congruence.
Qed.

Theorem C33_reorganise show ms cs :
  NoDup (keys ms) ->
  Forall (fun c => exists m, k_mat c = MInt m) cs ->
  (forall c m, In c cs -> k_mat c = MInt m -> m <> 0%Z -> In (str_Z m) (keys ms)) ->
  (forall k a, In (k, a) ms -> finish_material a <> None) ->
  exists ms' cs', reorganise_materials show ms cs = Some (ms', cs') /\
    (** every cell keeps its density, void cells stay void, and the material a cell now names has the
        density of the cell and the composition of the card it named, normalised and exploded; *)
    Forall2 (fun c c' => k_dens c' = k_dens c /\ (k_mat c = MInt 0 -> k_mat c' = MInt 0) /\
      forall m, k_mat c = MInt m -> m <> 0%Z ->
        exists a a' comp, dget (str_Z m) ms = Some a /\ dget (ref_key (k_mat c')) ms' = Some a' /\
          (m_dens a' == k_dens c)%Q /\ normalise (m_comp a) = Some comp /\
          explode_elements comp (m_xs a) = Some (m_comp a', m_xs a')) cs cs' /\
    (** two cells share a material iff they had the same number and density. *)
    (forall c1 c1' c2 c2' m1 m2, In (c1, c1') (combine cs cs') -> In (c2, c2') (combine cs cs') ->
       k_mat c1 = MInt m1 -> k_mat c2 = MInt m2 -> m1 <> 0%Z -> m2 <> 0%Z ->
       (ref_key (k_mat c1') = ref_key (k_mat c2') <-> m1 = m2 /\ (k_dens c1 == k_dens c2)%Q)).
Proof.
  intros Nk Ints Def Fin. unfold reorganise_materials. cbv zeta.
  destruct (densities_ok cs Ints) as [Tk Tr Tc Tu].
  set (l0 := filter (fun e => negb (fst e =? 0)%Z) (densities cs)).
  assert (L0 : forall e, In e l0 <-> In e (densities cs) /\ fst e <> 0%Z).
  { intro e. unfold l0. rewrite filter_In, negb_true_iff, Z.eqb_neq. tauto. }
  assert (Nl0 : NoDup (map fst l0)).
  { unfold l0. clear -Tk. induction (densities cs) as [|e l IH]; cbn [filter map]; [constructor|].
    cbn [map] in Tk. inversion Tk as [|? ? Ne N']. subst. destruct (negb _); [|auto]. cbn [map]. constructor; [|auto].
    intro I. apply Ne. apply in_map_iff in I as (x & E & Ix). apply filter_In in Ix as [Ix _]. apply in_map_iff. eauto. }
  assert (Row : forall m d, In (mkC (MInt m) d) cs -> m <> 0%Z ->
     exists ds, In (m, ds) l0 /\ apart ds /\ existsb (Qeq_bool d) ds = true).
  { intros m d I Hm. destruct (Tc m d I) as (ds & A & B). exists ds. split; [apply L0; auto|]. split; [|exact B].
    rewrite Forall_forall in Tr. now apply (Tr (m, ds)). }
  destruct l0 as [|e0 l1] eqn:El0.
  - (** nothing but void *)
    exists ms, cs. split; [reflexivity|].
    assert (V : forall c m, In c cs -> k_mat c = MInt m -> m = 0%Z).
    { intros [r d] m I E. cbn [k_mat] in E. subst r. destruct (Z.eq_dec m 0) as [|Hm]; [assumption|].
      destruct (Row m d I Hm) as (ds & [] & _). }
    split.
    + clear -V. induction cs as [|c cs IH]; constructor; [|apply IH; intros; eapply V; [right|]; eassumption].
      split; [reflexivity|]. split; [auto|]. intros m E Hm. elim Hm. apply (V c m); [now left|exact E].
    + intros c1 c1' c2 c2' m1 m2 I1 I2 E1 E2 H1 H2. elim H1. apply (V c1 m1); [|exact E1]. now apply in_combine_l in I1.
  - rewrite <- El0 in *. clear e0 l1 El0.
    assert (P := sort_mats_perm l0). set (l := sort_mats l0) in *.
    assert (Nl : NoDup (map fst l)) by (apply (Permutation_NoDup (l := map fst l0)); [symmetry; now apply Permutation_map|exact Nl0]).
    assert (Lin : forall e, In e l <-> In e l0) by (intro e; split; apply Permutation_in; [exact P|now symmetry]).
    assert (F : Forall (fun e => snd e <> [] /\ In (str_Z (fst e)) (keys ms)) l).
    { apply Forall_forall. intros e I. apply Lin, L0 in I as [I Hz]. rewrite Forall_forall in Tr. split; [now apply Tr|].
      destruct (Tu e I) as [d Id]. now apply (Def (mkC (MInt (fst e)) d) (fst e)). }
    destruct (split_ok show l ms cs Nk Nl F) as (p & ms1 & Es & N1 & Pf & Pn & Fr & K & Old & First & Copy).
    rewrite Es.
    assert (Fin1 : forall k b, In (k, b) ms1 -> finish_material b <> None).
    { intros k b I. apply in_dget in I; [|exact N1].
      assert (X : exists a, In a (map snd ms) /\ m_comp b = m_comp a /\ m_xs b = m_xs a).
      { destruct (in_dec text_eq_dec k (map snd p)) as [J|J].
        - apply in_map_iff in J as ([[m d] n] & <- & J). cbn [snd] in I.
          assert (Jm : In (m, d) (flat_map further l)) by (rewrite <- Pf; now apply (in_map fst) in J).
          apply in_flat_map in Jm as (e & Ie & Jm). unfold further in Jm. apply in_map_iff in Jm as (q & Eq & _). injection Eq as <- <-.
          rewrite Forall_forall in F. destruct (F e Ie) as [_ Hk]. destruct (dget_key _ _ Hk) as [a Ga].
          destruct (Copy _ _ _ _ J Ga) as (b' & Gb & _ & B1 & B2 & _). assert (b' = b) by congruence. subst b'.
          exists a. apply dget_some_in in Ga. apply (in_map snd) in Ga. auto.
        - destruct (in_dec text_eq_dec k (map (fun e => str_Z (fst e)) l)) as [M|M].
          + apply in_map_iff in M as ([m ds] & <- & M). rewrite Forall_forall in F. destruct (F _ M) as [Hd Hk]. cbn [fst snd] in *.
            destruct ds as [|d ds]; [congruence|]. destruct (dget_key _ _ Hk) as [a Ga]. rewrite (First m d ds a M Ga) in I. injection I as <-.
            exists a. apply dget_some_in in Ga. apply (in_map snd) in Ga. auto.
          + rewrite Old in I; [|exact J|].
            * exists b. apply dget_some_in in I. apply (in_map snd) in I. auto.
            * intros e Ie E. apply M. apply in_map_iff. exists e. auto. }
      destruct X as (a & Ia & X1 & X2). apply in_map_iff in Ia as ([k' a'] & Ea & Ia). cbn [snd] in Ea. subst a'.
      destruct (finish_material a) as [fa|] eqn:Ef; [|exfalso; now apply (Fin k' a)].
      destruct (finish_same a b X1 X2 fa Ef) as (fb & -> & _). discriminate. }
    destruct (finish_all_ok ms1 Fin1) as (ms2 & Ef & Kf & Gf). rewrite Ef.
    assert (Fate : forall m d, In (mkC (MInt m) d) cs -> m <> 0%Z ->
      (exists d0 r, In (m, d0 :: r) l /\ apart (d0 :: r) /\ (d == d0)%Q /\ apply_rules p (mkC (MInt m) d) = mkC (MInt m) d) \/
      (exists d' n, In (m, d', n) p /\ (d == d')%Q /\ apply_rules p (mkC (MInt m) d) = mkC (MStr n) d)).
    { intros m d I Hm. destruct (Row m d I Hm) as (ds & A & B & C). apply Lin in A.
      destruct (cell_fate l p m d ds Nl Pf A B C) as [(d0 & r & -> & Q1 & Q2)|X]; [|now right]. left. exists d0, r. auto. }
    assert (Fin2 : forall a b, m_comp b = m_comp a -> m_xs b = m_xs a -> forall fb, finish_material b = Some fb ->
       exists comp, normalise (m_comp a) = Some comp /\ explode_elements comp (m_xs a) = Some (m_comp fb, m_xs fb) /\ m_dens fb = m_dens b).
    { intros a b X1 X2 fb. unfold finish_material. rewrite X1, X2. destruct (normalise (m_comp a)) as [c|]; [|discriminate].
      intro H. exists c. split; [reflexivity|]. destruct (explode_elements c (m_xs a)) as [[c' x']|]; [|discriminate]. injection H as <-. auto. }
    exists ms2, (map (apply_rules p) cs). split; [reflexivity|]. split.
    + assert (G : forall c, In c cs -> k_dens (apply_rules p c) = k_dens c /\ (k_mat c = MInt 0 -> k_mat (apply_rules p c) = MInt 0) /\
        forall m, k_mat c = MInt m -> m <> 0%Z ->
        exists a a' comp, dget (str_Z m) ms = Some a /\ dget (ref_key (k_mat (apply_rules p c))) ms2 = Some a' /\
          (m_dens a' == k_dens c)%Q /\ normalise (m_comp a) = Some comp /\
          explode_elements comp (m_xs a) = Some (m_comp a', m_xs a')).
      { intros [r d] I. split; [|split].
        - destruct r as [m|t]; [|now rewrite apply_rules_str]. rewrite apply_rules_int. destruct (List.find _ _); reflexivity.
        - cbn [k_mat]. intros ->. rewrite apply_rules_int. destruct (List.find (hits 0 d) p) as [[[m' d'] n]|] eqn:Ff; [|reflexivity].
          exfalso. apply List.find_some in Ff as [Ie H]. unfold hits in H. cbn [fst snd] in H. apply andb_prop in H as [H _].
          apply Z.eqb_eq in H. subst m'. assert (J : In (0%Z, d') (flat_map further l)) by (rewrite <- Pf; now apply (in_map fst) in Ie).
          apply in_flat_map in J as (e & Ie' & J). unfold further in J. apply in_map_iff in J as (q & Eq & _).
          apply Lin, L0 in Ie' as [_ H0]. apply H0. congruence.
        - cbn [k_mat k_dens]. intros m -> Hm. assert (Hk := Def _ m I eq_refl Hm). destruct (dget_key _ _ Hk) as [a Ga].
          destruct (Fate m d I Hm) as [(d0 & r & Il & _ & Q1 & ->)|(d' & n & Ip & Q1 & ->)]; cbn [k_mat ref_key].
          + assert (G1 := First m d0 r a Il Ga). destruct (Gf _ _ G1) as (b & Fb & Gb).
            destruct (Fin2 a (with_dens a d0) eq_refl eq_refl b Fb) as (comp & C1 & C2 & C3). exists a, b, comp.
            split; [exact Ga|]. split; [exact Gb|]. split; [|auto]. rewrite C3. cbn [with_dens m_dens]. now symmetry.
          + destruct (Copy m d' n a Ip Ga) as (b0 & G1 & B1 & B2 & B3 & _). destruct (Gf _ _ G1) as (b & Fb & Gb).
            destruct (Fin2 a b0 B2 B3 b Fb) as (comp & C1 & C2 & C3). exists a, b, comp.
            split; [exact Ga|]. split; [exact Gb|]. split; [|auto]. rewrite C3, B1. now symmetry. }
      clear -G. induction cs as [|c cs IH]; cbn [map]; constructor; [apply G; now left|apply IH; intros; apply G; now right].
    + assert (In1 : forall c c', In (c, c') (combine cs (map (apply_rules p) cs)) -> In c cs /\ c' = apply_rules p c).
      { clear. induction cs as [|a cs IH]; cbn [map combine In]; intros c c' I; [destruct I|].
        destruct I as [I|I]; [injection I as -> <-; auto|]. destruct (IH _ _ I). auto. }
      intros [r1 d1] c1' [r2 d2] c2' m1 m2 I1 I2 E1 E2 H1 H2. cbn [k_mat] in E1, E2. subst r1 r2.
      apply In1 in I1 as [I1 ->]. apply In1 in I2 as [I2 ->]. cbn [k_dens]. split.
      * destruct (Fate m1 d1 I1 H1) as [(a1 & r1 & L1 & A1 & Q1 & ->)|(a1 & n1 & L1 & Q1 & ->)],
                 (Fate m2 d2 I2 H2) as [(a2 & r2 & L2 & A2 & Q2 & ->)|(a2 & n2 & L2 & Q2 & ->)]; cbn [k_mat ref_key]; intro E.
        -- apply str_Z_inj in E. subst m2. split; [reflexivity|]. rewrite Q1, Q2.
           assert (X : a1 :: r1 = a2 :: r2).
           { clear -Nl L1 L2. induction l as [|[a b] l IH]; [destruct L1|]. cbn [map fst] in Nl. inversion Nl as [|? ? Na Nl']. subst.
             destruct L1 as [L1|L1], L2 as [L2|L2].
             - congruence.
             - injection L1 as -> ->. exfalso. apply Na. now apply (in_map fst) in L2.
             - injection L2 as -> ->. exfalso. apply Na. now apply (in_map fst) in L1.
             - now apply IH. }
           injection X as -> _. reflexivity.
        -- exfalso. apply (in_map snd) in L2. apply (Fr _ L2). cbn [snd]. rewrite <- E. now apply (Def _ m1 I1).
        -- exfalso. apply (in_map snd) in L1. apply (Fr _ L1). cbn [snd]. rewrite E. now apply (Def _ m2 I2).
        -- subst n2. assert (X : (m1, a1, n1) = (m2, a2, n1)).
           { clear -Pn L1 L2. induction p as [|e p IH]; [destruct L1|]. cbn [map] in Pn. inversion Pn as [|? ? Ne Pn']. subst.
             destruct L1 as [->|L1], L2 as [L2|L2].
             - exact L2.
             - exfalso. apply Ne. now apply (in_map snd) in L2.
             - subst e. exfalso. apply Ne. now apply (in_map snd) in L1.
             - now apply IH. }
           injection X as -> ->. split; [reflexivity|]. now rewrite Q1, Q2.
      * intros [<- Q]. rewrite !apply_rules_int.
        assert (X : forall e, hits m1 d1 e = hits m1 d2 e).
        { intro e. unfold hits. f_equal. destruct (Qeq_bool d1 (snd (fst e))) eqn:B.
          - apply Qeq_bool_iff in B. symmetry. apply Qeq_bool_iff. now rewrite <- Q.
          - destruct (Qeq_bool d2 (snd (fst e))) eqn:C; [|reflexivity]. apply Qeq_bool_iff in C. rewrite <- Q in C.
            apply Qeq_bool_iff in C. congruence. }
        assert (Y : List.find (hits m1 d1) p = List.find (hits m1 d2) p).
        { clear -X. induction p as [|e p IH]; [reflexivity|]. cbn [List.find]. rewrite X, IH. reflexivity. }
        rewrite Y. destruct (List.find (hits m1 d2) p); reflexivity.
Qed.
Print Assumptions C33_reorganise.

(** Three cells of material 1, two densities, and material 2 already there: the copy is number 3. *)
Definition ex_mats : dict material :=
  [(T "1", mkM (T "1") (T "M1") 0 [(T "1001", 2%Q); (T "8016", 1%Q)] [] None);
   (T "2", mkM (T "2") (T "M2") 0 [(T "26056", 1%Q)] [] None)].
Definition ex_cells : list mcell :=
  [mkC (MInt 1) (-1 # 1); mkC (MInt 0) 0; mkC (MInt 1) (-1 # 2); mkC (MInt 2) (-8 # 1); mkC (MInt 1) (-2 # 2)].
Example C33_example : exists ms' cs', reorganise_materials (fun _ => []) ex_mats ex_cells = Some (ms', cs') /\
  map k_mat cs' = [MInt 1; MInt 0; MStr (T "3"); MInt 2; MInt 1] /\ keys ms' = [T "1"; T "2"; T "3"].
Proof. do 2 eexists. split; [vm_compute; reflexivity|]. split; vm_compute; reflexivity. Qed.
Example C33_example_hyps : NoDup (keys ex_mats) /\ Forall (fun c => exists m, k_mat c = MInt m) ex_cells /\
  (forall c m, In c ex_cells -> k_mat c = MInt m -> m <> 0%Z -> In (str_Z m) (keys ex_mats)) /\
  (forall k a, In (k, a) ex_mats -> finish_material a <> None).
Proof.
  split; [repeat constructor; vm_compute; intuition discriminate|]. split; [repeat constructor; eexists; reflexivity|].
  split.
  - intros c m I E Hm. cbn [ex_cells In] in I. destruct I as [<-|[<-|[<-|[<-|[<-|[]]]]]]; injection E as <-;
      (elim Hm; reflexivity) || (left; reflexivity) || (right; left; reflexivity).
  - intros k a I. cbn [ex_mats In] in I. destruct I as [I|[I|[]]]; injection I as <- <-; vm_compute; discriminate.
Qed.

(** ** C57: colours *)

(** No deck ever gets a colour: the density of a material is zero while its card is read. *)
Lemma no_colour cards : forall ms ms', add_materials ms cards = Some ms' ->
  Forall (fun e => m_colour (snd e) = None) ms -> Forall (fun e => m_colour (snd e) = None) ms'.
Proof.
  induction cards as [|[n s] cards IH]; intros ms ms' E F; cbn [add_materials] in E; [injection E as <-; exact F|].
  destruct (add_material ms n s) as [ms1|] eqn:Ea; [|discriminate]. apply (IH ms1 ms' E).
  unfold add_material, read_mcnp_material in Ea. destruct (mcnp_composition s) as [[c x]|]; [|discriminate].
  cbn [m_dens m_num m_name m_comp m_xs] in Ea. cbv zeta in Ea.
  change (negb (Qle_bool 0 0)) with false in Ea. cbn match in Ea. injection Ea as <-. cbn [m_num]. clear -F.
  induction F as [|[k m] ms Hm F IH]; cbn [dset]; [repeat constructor|].
  destruct (text_eqb k n); constructor; cbn [snd]; auto.
Qed.

Theorem C57_colours_missing cards ms show cs ms' cs' : add_materials [] cards = Some ms ->
  reorganise_materials show ms cs = Some (ms', cs') -> Forall (fun e => m_colour (snd e) = None) ms'.
Proof.
  intros Ha Hr. assert (F := no_colour cards [] ms Ha (Forall_nil _)). clear Ha. unfold reorganise_materials in Hr. cbv zeta in Hr.
  set (l := filter _ _) in Hr. destruct l as [|e0 l1]; [now injection Hr as <- <-|].
  destruct (split_materials show (sort_mats (e0 :: l1)) ms cs) as [[ms1 cs1]|] eqn:Es; [|discriminate].
  assert (F1 : Forall (fun e => m_colour (snd e) = None) ms1).
  { assert (S : forall k m (d : dict material), Forall (fun e => m_colour (snd e) = None) d -> m_colour m = None ->
       Forall (fun e => m_colour (snd e) = None) (dset k m d)).
    { clear. intros k m d F E. induction F as [|[k' m'] d Hm F IH]; cbn [dset]; [repeat constructor; exact E|].
      destruct (text_eqb k' k); constructor; cbn [snd]; auto. }
    assert (G : forall k m (d : dict material), Forall (fun e => m_colour (snd e) = None) d -> dget k d = Some m -> m_colour m = None).
    { clear. intros k m d F E. apply dget_some_in in E. rewrite Forall_forall in F. now apply (F (k, m)). }
    assert (Cp : forall mat ds ms cs ms' cs', copies show mat ds ms cs = Some (ms', cs') ->
       Forall (fun e => m_colour (snd e) = None) ms -> Forall (fun e => m_colour (snd e) = None) ms').
    { intro mat. induction ds as [|d ds IH]; intros ms0 cs0 ms0' cs0' E F0; cbn [copies] in E; [now injection E as <- <-|].
      destruct (dget (str_Z mat) ms0) as [m|] eqn:Gm; [|discriminate]. destruct (next_free_int (keys ms0)); [|discriminate].
      apply (IH _ _ _ _ E). apply S; [exact F0|]. cbn [m_colour]. now apply (G (str_Z mat) m ms0). }
    clear Hr. revert ms cs ms1 cs1 Es F. induction (sort_mats (e0 :: l1)) as [|[mat ds] l IH]; intros ms cs ms1 cs1 Es F; cbn [split_materials] in Es.
    - now injection Es as <- <-.
    - destruct ds as [|d ds]; [discriminate|]. unfold set_density in Es. destruct (dget (str_Z mat) ms) as [m|] eqn:Gm; [|discriminate].
      destruct (copies show mat ds (dset (str_Z mat) (with_dens m d) ms) cs) as [[ms2 cs2]|] eqn:Ec; [|discriminate].
      apply (IH _ _ _ _ Es). apply (Cp _ _ _ _ _ _ Ec). apply S; [exact F|]. cbn [with_dens m_colour]. now apply (G (str_Z mat) m ms). }
  destruct (finish_all ms1) as [ms2|] eqn:Ef; [|discriminate]. injection Hr as <- <-. clear -F1 Ef. revert ms2 Ef.
  induction F1 as [|[k m] ms1 Hm F1 IH]; intros ms2 Ef; cbn [finish_all] in Ef; [injection Ef as <-; constructor|].
  destruct (finish_material m) as [m'|] eqn:Em; [|discriminate]. destruct (finish_all ms1) as [r|]; [|discriminate]. injection Ef as <-.
  constructor; [|now apply IH]. cbn [snd] in *. unfold finish_material in Em. destruct (normalise (m_comp m)); [|discriminate].
  destruct (explode_elements d (m_xs m)) as [[c' x']|]; [|discriminate]. now injection Em as <-.
Qed.
Print Assumptions C57_colours_missing.

(** A deck with one material, used by a cell, which has no colour in the end. *)
Theorem C57_colour_refuted : exists cards ms cs ms' cs' m,
  add_materials [] cards = Some ms /\ reorganise_materials (fun _ => []) ms cs = Some (ms', cs') /\
  In (mkC (MInt 1) (-1 # 1)) cs /\ dget (T "1") ms' = Some m /\ m_dens m = (-1 # 1)%Q /\ m_colour m = None.
Proof.
  exists [(T "1", T "1001 2 8016 1 ")]. eexists. exists [mkC (MInt 1) (-1 # 1)]. do 3 eexists.
  split; [vm_compute; reflexivity|]. split; [vm_compute; reflexivity|]. split; [now left|]. split; [vm_compute; reflexivity|].
  split; reflexivity.
Qed.
Print Assumptions C57_colour_refuted.

(** The colour that would be given is one of the first 63, cyclically. *)
Theorem C57_colour_cycle_partial n : In (get_material_colour n) (firstn 63 colours) /\
  get_material_colour (n + 63) = get_material_colour n /\
  (n < 63 -> nth_error colours n = Some (get_material_colour n)).
Proof.
  unfold get_material_colour. assert (B : n mod 63 < 63) by (apply Nat.mod_upper_bound; lia). split; [|split].
  - assert (H : nth (n mod 63) (firstn 63 colours) EmptyString = nth (n mod 63) colours EmptyString).
    { clear -B. revert B. generalize (n mod 63). intros k B. rewrite <- (firstn_skipn 63 colours) at 2.
      rewrite app_nth1; [reflexivity|]. rewrite firstn_length. cbn [colours length]. lia. }
    rewrite <- H. apply nth_In. rewrite firstn_length. cbn [colours length]. lia.
  - f_equal. rewrite <- (Nat.mul_1_l 63) at 1. rewrite Nat.mod_add by lia. reflexivity.
  - intro L. rewrite Nat.mod_small by exact L. apply nth_error_nth'. cbn [colours length]. lia.
Qed.
Print Assumptions C57_colour_cycle_partial.
