(** Properties of the removal of duplicate surfaces (C16, C17, C18). *)
From Coq Require Import Reals Lra.
From Verif Require Import PyStr PyStrFacts PyInt PyIntFacts RegionSpec RegionFacts GeomSpec SurfModel SurfSpec SurfProofs PropSurf
  FlattenModel NotsModel NotsProofs CellModel CellProofs DedupeModel DedupeProofs.
Open Scope nat_scope.

Lemma tight_rep ref new rev l : tight (map (rep_item ref new rev) l) = tight l.
Proof.
  induction l as [|i l IH]; [reflexivity|]. cbn [map tight].
  destruct i as [[]|s]; cbn [rep_item]; try apply IH.
  - destruct l as [|[[]|s] l]; cbn [map rep_item] in *; auto.
    destruct (is_word s) eqn:W; [|now rewrite W]. rewrite rep_word_word by assumption. now rewrite IH.
  - destruct (is_word s); apply IH.
Qed.

(** All the replacements in one description. *)
Lemma replace_all_ok : forall (d : dups) l,
  (forall k t r, In (k, (t, r)) d -> (0 < s_id (e_org k))%Z /\ (0 < s_id (e_org t))%Z) ->
  (forall k t r k' t' r', In (k, (t, r)) d -> In (k', (t', r')) d -> s_id (e_org t) <> s_id (e_org k')) ->
  all_ints l ->
  exists l', replace_all d l = Some l' /\ all_ints l' /\
    spaced false l' = spaced false l /\ tight l' = tight l /\
    (forall r, expr (toks l) r -> exists r', expr (toks l') r' /\
       forall sense, (forall k t rv, In (k, (t, rv)) d -> sense (s_id (e_org k)) = xorb rv (sense (s_id (e_org t)))) ->
         holds (zenv sense) r' = holds (zenv sense) r) /\
    (forall n, mentions l' n ->
       (forall k v, In (k, v) d -> n <> s_id (e_org k)) /\
       (mentions l n \/ exists k t r, In (k, (t, r)) d /\ mentions l (s_id (e_org k)) /\ n = s_id (e_org t))).
Proof.
  induction d as [|[k [t rv]] d IH]; intros l P D A.
  { exists l. split; [reflexivity|]. split; [exact A|]. split; [reflexivity|]. split; [reflexivity|]. split.
    - intros r E. exists r. auto.
    - intros n M. split; [intros ? ? []|]. auto. }
  cbn [replace_all]. destruct (P k t rv (or_introl eq_refl)) as [Pk Pt].
  rewrite replace_surface_eq by assumption.
  destruct (IH (map (rep_item (s_id (e_org t)) (s_id (e_org k)) rv) l)) as (l' & R & A' & S & Ti & E' & M').
  - intros; eapply P; right; eassumption.
  - intros; eapply D; right; eassumption.
  - now apply all_ints_rep.
  - exists l'. split; [exact R|]. split; [exact A'|]. split; [now rewrite S, spaced_rep|]. split; [now rewrite Ti, tight_rep|].
    split.
    + intros r E. destruct (replace_surface_region (s_id (e_org t)) (s_id (e_org k)) rv l r Pt Pk A E) as (l1 & r1 & R1 & E1 & H1).
      rewrite replace_surface_eq in R1 by assumption. injection R1 as <-.
      destruct (E' r1 E1) as (r' & Er & Hr). exists r'. split; [exact Er|]. intros sense Hs.
      rewrite Hr by (intros; apply Hs; now right). apply H1. apply Hs. now left.
    + intros n Mn. destruct (M' n Mn) as [Nk Ms].
      assert (Q : (mentions l n /\ n <> s_id (e_org k)) \/
        (exists k0 t0 r0, In (k0, (t0, r0)) ((k, (t, rv)) :: d) /\ mentions l (s_id (e_org k0)) /\ n = s_id (e_org t0))).
      { destruct Ms as [Ms|(k0 & t0 & r0 & I0 & M0 & ->)].
        - apply mentions_rep in Ms; try assumption. destruct Ms as [[-> Mk]|Ms]; [|now left].
          right. exists k, t, rv. split; [now left|auto].
        - apply mentions_rep in M0; try assumption. destruct M0 as [[E0 Mk]|[M0 _]].
          + right. exfalso. refine (D k t rv k0 t0 r0 (or_introl eq_refl) (or_intror I0) _). now symmetry.
          + right. exists k0, t0, r0. split; [now right|auto]. }
      split.
      * intros k' v' [I|I]; [|eapply Nk; exact I]. injection I as <- <-.
        destruct Q as [[_ N]|(k0 & t0 & r0 & I0 & _ & ->)]; [exact N|].
        eapply D; [exact I0|now left].
      * destruct Q as [[Q _]|Q]; auto.
Qed.

(** The entries. *)
Lemma entries_ok l : forall n es, entries n l = Some es ->
  map e_org es = l /\ (forall e, In e es -> SurfModel.generalise (e_org e) = Some (e_gen e)) /\
  map e_ix es = seq n (length l).
Proof.
  induction l as [|s l IH]; intros n es; cbn [entries].
  - intro H. injection H as <-. repeat split. intros ? [].
  - destruct (SurfModel.generalise s) as [g|] eqn:G; [|discriminate].
    destruct (entries (S n) l) as [es'|] eqn:E; [|discriminate]. intro H. injection H as <-.
    destruct (IH _ _ E) as (A & B & C). cbn [map e_org e_ix]. split; [now rewrite A|]. split.
    + intros e [<-|I]; [exact G|auto].
    + rewrite C. reflexivity.
Qed.

Lemma generalise_total s sn : surf_sense s = Some sn -> exists g, SurfModel.generalise s = Some g.
Proof.
  destruct s as [id tr ty l bc]. unfold surf_sense, SurfModel.generalise. cbn [s_type s_coef].
  destruct ty; cbn [sem]; intros E; dl l; eexists; reflexivity.
Qed.

Lemma entries_total l : (forall s, In s l -> exists g, SurfModel.generalise s = Some g) -> forall n, exists es, entries n l = Some es.
Proof.
  induction l as [|s l IH]; intros H n; [exists []; reflexivity|]. cbn [entries].
  destruct (H s (or_introl eq_refl)) as [g ->]. destruct (IH (fun x I => H x (or_intror I)) (S n)) as [es ->].
  eexists; reflexivity.
Qed.

Lemma nodup_map_inj {A B} (f : A -> B) l x y : NoDup (map f l) -> In x l -> In y l -> f x = f y -> x = y.
Proof.
  induction l as [|a l IH]; intros N Ix Iy E; [destruct Ix|]. cbn [map] in N. inversion N as [|? ? Na N']. subst.
  destruct Ix as [->|Ix], Iy as [->|Iy]; auto.
  - exfalso. apply Na. rewrite E. now apply in_map.
  - exfalso. apply Na. rewrite <- E. now apply in_map.
Qed.

Lemma sameb_diff e k r : SurfModel.generalise (e_org e) = Some (e_gen e) -> SurfModel.generalise (e_org k) = Some (e_gen k) ->
  (sameb e k = Some r <-> exists s' o', diff (e_org e) (e_org k) true false = Some ((true, r), s', o')).
Proof.
  intros Ge Gk. unfold sameb, diff. rewrite Ge, Gk. destruct (diff_gen (e_gen e) (e_gen k) true) as [[same rv] o]. split.
  - destruct same; [|discriminate]. intro H. injection H as ->. eauto.
  - intros (s' & o' & H). injection H as -> -> _ _. reflexivity.
Qed.

(** The situation after a successful run, for distinct surface numbers. *)
Section Run.
Context (surfs : list surface) (es : list ent).
Context (Nd : NoDup (map s_id surfs)) (Es : entries 0 surfs = Some es).
Context (Pos : forall s, In s surfs -> (0 < s_id s)%Z).
Let d := find_dups es.

Lemma run_uniq : uniq es.
Proof. unfold uniq. destruct (entries_ok _ _ _ Es) as (_ & _ & ->). apply seq_NoDup. Qed.

Lemma run_in e : In e es -> In (e_org e) surfs.
Proof. destruct (entries_ok _ _ _ Es) as (E & _ & _). intro I. rewrite <- E. now apply in_map. Qed.

Lemma run_ids e k : In e es -> In k es -> s_id (e_org e) = s_id (e_org k) -> e = k.
Proof.
  intros Ie Ik E. destruct (entries_ok _ _ _ Es) as (Eo & _ & _).
  apply (nodup_map_inj (fun x => s_id (e_org x)) es); auto.
  rewrite <- (map_map e_org s_id), Eo. exact Nd.
Qed.

Lemma run_pos k t r : In (k, (t, r)) d -> (0 < s_id (e_org k))%Z /\ (0 < s_id (e_org t))%Z.
Proof. intro I. destruct (dups_facts es k t r run_uniq I) as (Ik & It & _). split; apply Pos; now apply run_in. Qed.

Lemma key_no_target k t r k' t' r' : In (k, (t, r)) d -> In (k', (t', r')) d -> s_id (e_org t) <> s_id (e_org k').
Proof.
  intros I I' E. destruct (dups_facts es k t r run_uniq I) as (_ & It & _ & L & _).
  destruct (dups_facts es k' t' r' run_uniq I') as (Ik' & _).
  assert (t = k') by now apply run_ids. subst k'.
  destruct (keys_find_dups es) as [N _]. rewrite (in_lookup _ _ _ N I') in L. discriminate.
Qed.

Lemma keep_in s : In s (keep d es) <-> exists e, In e es /\ e_org e = s /\ lookup d e = None.
Proof.
  unfold keep. rewrite in_map_iff. split.
  - intros (e & E & I). apply filter_In in I as [I F]. apply negb_true_iff in F. apply lookup_none in F. eauto.
  - intros (e & I & E & L). exists e. split; [exact E|]. apply filter_In. split; [exact I|].
    apply negb_true_iff. now apply lookup_none.
Qed.

Lemma key_not_kept k v : In (k, v) d -> ~ In (e_org k) (keep d es).
Proof.
  intros I J. apply keep_in in J as (e & Ie & E & L). destruct v as [t r].
  destruct (dups_facts es k t r run_uniq I) as (Ik & _).
  assert (e = k) by (apply run_ids; auto; now rewrite E). subst e.
  destruct (keys_find_dups es) as [N _]. fold d in N. rewrite (in_lookup _ _ _ N I) in L. discriminate.
Qed.

Lemma target_kept k t r : In (k, (t, r)) d -> In (e_org t) (keep d es).
Proof. intro I. destruct (dups_facts es k t r run_uniq I) as (_ & It & _ & L & _). apply keep_in. eauto. Qed.

Lemma lookup_in k v : In k es -> lookup d k = Some v -> In (k, v) d.
Proof.
  intros Ik. unfold d. destruct (keys_find_dups es) as [_ Ks]. revert Ks. generalize (find_dups es). clear d.
  induction d as [|[k' v'] l IH]; intros Ks L; [discriminate|]. cbn [lookup] in L.
  destruct (Nat.eqb_spec (e_ix k') (e_ix k)) as [E|E].
  - injection L as ->. left. f_equal. apply (nodup_map_inj e_ix es); [exact run_uniq| |exact Ik|exact E].
    apply (Ks k' v). now left.
  - right. apply IH; [|exact L]. intros; apply Ks; now right.
Qed.
End Run.

Lemma mapM_total {A B} (f : A -> option B) l : (forall a, In a l -> exists b, f a = Some b) -> exists l', mapM f l = Some l'.
Proof.
  induction l as [|a l IH]; intro H; [exists []; reflexivity|]. cbn [mapM].
  destruct (H a (or_introl eq_refl)) as [b ->]. destruct (IH (fun x I => H x (or_intror I))) as [l' ->]. eexists; reflexivity.
Qed.

Lemma mapM_forall2 {A B} (f : A -> option B) l l' : mapM f l = Some l' -> Forall2 (fun a b => f a = Some b) l l'.
Proof.
  revert l'. induction l as [|a l IH]; intros l' H; cbn [mapM] in H.
  - injection H as <-. constructor.
  - destruct (f a) eqn:E; [|discriminate]. destruct (mapM f l) eqn:M; [|discriminate]. injection H as <-. constructor; auto.
Qed.

Lemma forall2_in {A B} (P Q : A -> B -> Prop) l l' : Forall2 P l l' -> (forall a b, In a l -> P a b -> Q a b) -> Forall2 Q l l'.
Proof. induction 1; intro H'; constructor; [apply H'; [now left|assumption]|]. apply IHForall2. intros; apply H'; [now right|assumption]. Qed.

(** C16 (partial: surfaces that are merged must not be cones with a selected sheet, nor
    tori with negative radii).  Surfaces with distinct positive numbers; cells described
    by surface numbers.  The removal succeeds, and every cell keeps its number, its
    material and its region: whenever [sense] agrees with the sides of the surfaces at
    [p], and [p] lies on no removed surface, the new description holds iff the old one
    does. *)
Theorem C16_dedupe_keeps_regions_partial :
  forall surfs cells,
  NoDup (map s_id surfs) ->
  (forall s, In s surfs -> (0 < s_id s)%Z /\ exists sn, surf_sense s = Some sn) ->
  (forall s o r s' o', In s surfs -> In o surfs -> s_id s <> s_id o ->
     diff s o true false = Some ((true, r), s', o') -> ~ sheeted s /\ ~ sheeted o /\ torus_ok s /\ torus_ok o) ->
  (forall c, In c cells -> all_ints (c_items c)) ->
  exists surfs' cells', remove_duplicates surfs cells = Some (surfs', cells') /\
    Forall2 (fun c c' =>
      c_id c' = c_id c /\ c_mat c' = c_mat c /\ c_dens c' = c_dens c /\
      spaced false (c_items c') = spaced false (c_items c) /\ tight (c_items c') = tight (c_items c) /\ all_ints (c_items c') /\
      forall r, expr (toks (c_items c)) r ->
      exists r', expr (toks (c_items c')) r' /\
        forall p sense,
        (forall s sn, In s surfs -> surf_sense s = Some sn ->
           (pos sn p -> sense (s_id s) = true) /\ (neg sn p -> sense (s_id s) = false)) ->
        (forall s sn, In s surfs -> ~ In s surfs' -> surf_sense s = Some sn -> pos sn p \/ neg sn p) ->
        holds (zenv sense) r' = holds (zenv sense) r) cells cells'.
Proof.
  intros surfs cells Nd Hs Hd Hc.
  assert (Pos : forall s, In s surfs -> (0 < s_id s)%Z) by (intros s I; apply Hs; exact I).
  destruct (entries_total surfs) with (n := 0) as [es Es].
  { intros s I. destruct (Hs s I) as (_ & sn & E). eapply generalise_total; exact E. }
  assert (U := run_uniq surfs es Es).
  set (d := find_dups es).
  assert (Cell : forall c, In c cells -> exists l', replace_all d (c_items c) = Some l' /\ all_ints l' /\
    spaced false l' = spaced false (c_items c) /\ tight l' = tight (c_items c) /\
    (forall r, expr (toks (c_items c)) r -> exists r', expr (toks l') r' /\
       forall sense, (forall k t rv, In (k, (t, rv)) d -> sense (s_id (e_org k)) = xorb rv (sense (s_id (e_org t)))) ->
         holds (zenv sense) r' = holds (zenv sense) r)).
  { intros c I. destruct (replace_all_ok d (c_items c)) as (l' & A & B & C & D & E & _).
    - intros k t r J. now apply (run_pos surfs es Es Pos k t r).
    - intros k t r k' t' r'. apply (key_no_target surfs es Nd Es).
    - now apply Hc.
    - exists l'. auto. }
  destruct (mapM_total (replace_cell d) cells) as [cells' M].
  { intros c I. destruct (Cell c I) as (l' & E & _). unfold replace_cell. rewrite E. eexists; reflexivity. }
  exists (keep d es), cells'. split.
  { unfold remove_duplicates. rewrite Es. fold d. now rewrite M. }
  apply mapM_forall2 in M. apply (forall2_in _ _ _ _ M). clear M. intros c c' I R. cbn beta in R.
  destruct (Cell c I) as (l' & E & A & Sp & Ti & H). unfold replace_cell in R. rewrite E in R. injection R as <-.
  cbn [with_items c_id c_mat c_dens c_items]. split; [reflexivity|]. split; [reflexivity|]. split; [reflexivity|].
  split; [exact Sp|]. split; [exact Ti|]. split; [exact A|]. intros r Er. destruct (H r Er) as (r' & Er' & Hr). exists r'. split; [exact Er'|].
  intros p sense H1 H2. apply Hr. intros k t rv J.
  destruct (dups_facts es k t rv U J) as (Ik & It & Sb & _ & Ne).
  destruct (entries_ok _ _ _ Es) as (Eo & Eg & _).
  destruct (Hs (e_org k)) as (_ & sk & Ek); [now apply (run_in surfs es Es)|].
  destruct (Hs (e_org t)) as (_ & st & Et); [now apply (run_in surfs es Es)|].
  apply sameb_diff in Sb; [|now apply Eg..]. destruct Sb as (s' & o' & Df).
  assert (Nid : s_id (e_org t) <> s_id (e_org k)).
  { intro F. apply Ne. f_equal. apply (run_ids surfs es Nd Es); auto. }
  destruct (Hd _ _ _ _ _ (run_in surfs es Es t It) (run_in surfs es Es k Ik) Nid Df) as (X1 & X2 & X3 & X4).
  destruct (C15_diff_sound_partial _ _ _ _ _ _ _ _ Et Ek X1 X2 X3 X4 Df) as [Q _].
  destruct (H1 _ _ (run_in surfs es Es k Ik) Ek) as [K1 K2].
  destruct (H1 _ _ (run_in surfs es Es t It) Et) as [T1 T2].
  destruct (H2 _ _ (run_in surfs es Es k Ik) (key_not_kept surfs es Nd Es k _ J) Ek) as [P|P].
  - rewrite (K1 P). destruct rv; destruct (Q p) as [Q1 Q2]; [rewrite T2 by (apply Q2; exact P)|rewrite T1 by (apply Q2; exact P)]; reflexivity.
  - rewrite (K2 P). destruct rv; destruct (Q p) as [Q1 Q2]; [rewrite T1 by (apply Q1; exact P)|rewrite T2 by (apply Q1; exact P)]; reflexivity.
Qed.
Print Assumptions C16_dedupe_keeps_regions_partial.

(** A deck with a plane given twice in different ways, once reversed, and a sphere. *)
Definition planes_deck : list surface :=
  [mkS 3 None PLANE_X [1; 0; 0; 2]%R TRANSMISSION; mkS 7 None SPHERE_GENERAL [0; 0; 0; 5]%R TRANSMISSION;
   mkS 4 None PLANE_GENERAL [-1; 0; 0; -2]%R TRANSMISSION].
Definition planes_cell : cell := Cell 1 0 (QArith_base.Qmake 0 1) [] [Op AND; Str (T "-3"); Op AND; Str (T "-7")] [].

(** The entries of that deck, and which pairs are the same. *)
Lemma planes_dups : exists es, entries 0 planes_deck = Some es /\
  exists a b c, es = [a; b; c] /\ find_dups es = [(a, (c, true))] /\
   e_org a = mkS 3 None PLANE_X [1; 0; 0; 2]%R TRANSMISSION /\ e_org c = mkS 4 None PLANE_GENERAL [-1; 0; 0; -2]%R TRANSMISSION /\
   e_org b = mkS 7 None SPHERE_GENERAL [0; 0; 0; 5]%R TRANSMISSION /\ keep (find_dups es) es = [e_org b; e_org c].
Proof.
  eexists. split; [reflexivity|]. do 3 eexists. split; [reflexivity|].
  match goal with |- find_dups [?x; ?y; ?z] = _ /\ _ => set (a := x); set (b := y); set (c := z) end.
  assert (Sba : sameb b a = None).
  { destruct (sameb b a) eqn:E; [|reflexivity]. exfalso. assert (N : sameb b a <> None) by congruence.
    apply sameb_iff in N as [_ [N|N]]; cbn in N; injection N; intros; lra. }
  assert (Scb : sameb c b = None).
  { destruct (sameb c b) eqn:E; [|reflexivity]. exfalso. assert (N : sameb c b <> None) by congruence.
    apply sameb_iff in N as [_ [N|N]]; cbn in N; injection N; intros; lra. }
  assert (Sca : sameb c a = Some true).
  { unfold sameb, diff_gen. change (negb (stype_beq (s_type (e_gen a)) (s_type (e_gen c)))) with false. cbv iota.
    assert (E1 : list_Reqb (s_coef (e_gen a)) (s_coef (e_gen c)) = false).
    { destruct (list_Reqb (s_coef (e_gen a)) (s_coef (e_gen c))) eqn:E; [|reflexivity].
      apply list_Reqb_true in E. cbn in E. injection E; intros; lra. }
    rewrite E1.
    assert (E2 : list_Reqb (s_coef (reverse (e_gen a))) (s_coef (e_gen c)) = true).
    { apply list_Reqb_true. cbn. repeat (apply (f_equal2 (@cons R)); [ring|]). reflexivity. }
    rewrite E2. reflexivity. }
  assert (F : find_dups [a; b; c] = [(a, (c, true))]).
  { unfold find_dups. assert (G : groups [a; b; c] = [(GENERAL_QUADRATIC, [a; b; c])]) by reflexivity.
    rewrite G. cbn [fold_left snd scan app]. rewrite !compare_one_eq, Sba, Sca, Scb. reflexivity. }
  rewrite F. repeat split; reflexivity.
Qed.

Example C16_example :
  NoDup (map s_id planes_deck) /\
  (forall s, In s planes_deck -> (0 < s_id s)%Z /\ exists sn, surf_sense s = Some sn) /\
  (forall s, In s planes_deck -> ~ sheeted s /\ torus_ok s) /\
  all_ints (c_items planes_cell) /\
  exists surfs' c', remove_duplicates planes_deck [planes_cell] = Some (surfs', [c']) /\ map s_id surfs' = [7%Z; 4%Z] /\
    c_items c' = [Op AND; Str (T "4"); Op AND; Str (T "-7")].
Proof.
  split; [cbn; repeat constructor; cbn; intuition discriminate|].
  split; [intros s [<-|[<-|[<-|[]]]]; (split; [reflexivity|eexists; reflexivity])|].
  split; [intros s [<-|[<-|[<-|[]]]]; (split; [intros []|discriminate])|].
  split. { intros s I W. repeat (destruct I as [I|I]; [first [discriminate I|injection I as <-; eexists; reflexivity]|]). destruct I. }
  destruct planes_dups as (es & Es & a & b & c & -> & F & Ea & Ec & Eb & K).
  unfold remove_duplicates. rewrite Es, K, F, Eb, Ec. cbn [mapM]. unfold replace_cell. cbn [replace_all].
  rewrite Ea, Ec. cbn [s_id].
  change (replace_surface 4 3 true (c_items planes_cell)) with (Some [Op AND; Str (T "4"); Op AND; Str (T "-7")]).
  do 2 eexists. split; [reflexivity|]. split; reflexivity.
Qed.

(** C16 fails for the two sheets of a cone: they are merged, and a point inside the upper
    sheet is lost from the cell inside it. *)
Theorem C16_dedupe_keeps_regions_refuted :
  exists surfs c surfs' c' r r' p sense,
    NoDup (map s_id surfs) /\ (forall s, In s surfs -> (0 < s_id s)%Z /\ exists sn, surf_sense s = Some sn) /\
    remove_duplicates surfs [c] = Some (surfs', [c']) /\
    expr (toks (c_items c)) r /\ expr (toks (c_items c')) r' /\
    (forall s sn, In s surfs -> surf_sense s = Some sn ->
       (pos sn p -> sense (s_id s) = true) /\ (neg sn p -> sense (s_id s) = false)) /\
    (forall s sn, In s surfs -> surf_sense s = Some sn -> pos sn p \/ neg sn p) /\
    holds (zenv sense) r = true /\ holds (zenv sense) r' = false.
Proof.
  set (up := mkS 1 None CONE_Z [0; 0; 0; 1; 1]%R TRANSMISSION).
  set (dn := mkS 2 None CONE_Z [0; 0; 0; 1; -1]%R TRANSMISSION).
  set (c := Cell 1 0 (QArith_base.Qmake 0 1) [] [Op AND; Str (T "-1")] []).
  assert (R : exists surfs', remove_duplicates [up; dn] [c] = Some (surfs', [with_items c [Op AND; Str (T "-2")]])).
  { unfold remove_duplicates.
    assert (Es : exists a b, entries 0 [up; dn] = Some [a; b] /\ e_org a = up /\ e_org b = dn /\ e_ix a = 0 /\
      groups [a; b] = [(GENERAL_QUADRATIC, [a; b])] /\ sameb b a = Some false).
    { do 2 eexists. split; [reflexivity|]. repeat split. unfold sameb, diff_gen. cbn [e_gen].
      match goal with |- context [negb ?x] => change (negb x) with false end. cbv iota.
      match goal with |- context [list_Reqb ?a ?b] => replace (list_Reqb a b) with true end; [reflexivity|].
      symmetry. apply list_Reqb_true. cbn. reflexivity. }
    destruct Es as (a & b & -> & Oa & Ob & Ia & G & S).
    assert (F : find_dups [a; b] = [(a, (b, false))]).
    { unfold find_dups. rewrite G. cbn [fold_left snd scan app]. rewrite compare_one_eq, S. reflexivity. }
    rewrite F. cbn [mapM]. unfold replace_cell. cbn [replace_all]. rewrite Oa, Ob. eexists. reflexivity. }
  destruct R as (surfs' & R).
  exists [up; dn], c, surfs', (with_items c [Op AND; Str (T "-2")]). do 2 eexists. exists (Pt 0 0 1), (fun n => (n =? 2)%Z).
  split; [cbn; repeat constructor; cbn; intuition discriminate|].
  split; [intros s [<-|[<-|[]]]; (split; [reflexivity|eexists; reflexivity])|].
  split; [exact R|]. split; [apply parse_sound; vm_compute; reflexivity|]. split; [apply parse_sound; vm_compute; reflexivity|].
  assert (Up : forall sn, surf_sense up = Some sn -> neg sn (Pt 0 0 1) /\ ~ pos sn (Pt 0 0 1)).
  { intros sn E. injection E as <-. cbn [neg pos one_sheet]. unfold cone_z. cbn [px py pz].
    split; [split; [lra|]; intros; lra|]. intros [H|H]; [lra|]. destruct H. lra. }
  assert (Dn : forall sn, surf_sense dn = Some sn -> pos sn (Pt 0 0 1) /\ ~ neg sn (Pt 0 0 1)).
  { intros sn E. injection E as <-. cbn [neg pos one_sheet]. unfold cone_z. cbn [px py pz].
    split; [right; split; lra|]. intros [H1 H2]. assert ((-1)%R <> 0%R) by lra. specialize (H2 H). lra. }
  split; [|split].
  - intros s sn [<-|[<-|[]]] E; cbn [s_id up dn].
    + destruct (Up sn E). split; [contradiction|reflexivity].
    + destruct (Dn sn E). split; [reflexivity|contradiction].
  - intros s sn [<-|[<-|[]]] E; [right; apply (Up sn E)|left; apply (Dn sn E)].
  - split; vm_compute; reflexivity.
Qed.
Print Assumptions C16_dedupe_keeps_regions_refuted.

(** C17.  Distinct positive surface numbers; cells described by surface numbers.  After a
    run: the remaining surfaces are the original ones, unchanged and in order, less some;
    no two of them compare the same; each removed one compares the same as a remaining one;
    and what a cell mentions is a remaining surface, unless it was no surface of the deck
    in the first place. *)
Theorem C17_dedupe_complete :
  forall surfs cells surfs' cells',
  NoDup (map s_id surfs) -> (forall s, In s surfs -> (0 < s_id s)%Z) ->
  (forall c, In c cells -> all_ints (c_items c)) ->
  remove_duplicates surfs cells = Some (surfs', cells') ->
  (exists f, surfs' = filter f surfs) /\
  (forall s o r s1 o1, In s surfs' -> In o surfs' -> s <> o -> diff s o true false <> Some ((true, r), s1, o1)) /\
  (forall s, In s surfs -> In s surfs' \/
     exists o r s1 o1, In o surfs' /\ o <> s /\ diff o s true false = Some ((true, r), s1, o1)) /\
  Forall2 (fun c c' => forall n, mentions (c_items c') n ->
     (exists s, In s surfs' /\ s_id s = n) \/ (mentions (c_items c) n /\ forall s, In s surfs -> s_id s <> n)) cells cells'.
Proof.
  intros surfs cells surfs' cells' Nd Pos Hc R. unfold remove_duplicates in R.
  destruct (entries 0 surfs) as [es|] eqn:Es; [|discriminate].
  set (d := find_dups es) in *. destruct (mapM (replace_cell d) cells) as [cs|] eqn:M; [|discriminate].
  injection R as <- <-. assert (U := run_uniq surfs es Es). destruct (entries_ok _ _ _ Es) as (Eo & Eg & _).
  split; [|split; [|split]].
  - exists (fun s => negb (existsb (fun kv => (s_id (e_org (fst kv)) =? s_id s)%Z) d)). unfold keep. rewrite <- Eo.
    assert (G : forall l, (forall e, In e l -> In e es) ->
      map e_org (filter (fun e => negb (existsb (fun kv : ent * (ent * bool) => e_ix (fst kv) =? e_ix e) d)) l) =
      filter (fun s => negb (existsb (fun kv => (s_id (e_org (fst kv)) =? s_id s)%Z) d)) (map e_org l)).
    { induction l as [|e l IH]; intro Hl; [reflexivity|]. cbn [filter map].
      assert (X : existsb (fun kv : ent * (ent * bool) => e_ix (fst kv) =? e_ix e) d =
                  existsb (fun kv => (s_id (e_org (fst kv)) =? s_id (e_org e))%Z) d).
      { destruct (keys_find_dups es) as [_ Ks]. fold d in Ks.
        assert (Y : forall kv, In kv d -> (e_ix (fst kv) =? e_ix e) = (s_id (e_org (fst kv)) =? s_id (e_org e))%Z).
        { intros [k v] Ik. cbn [fst]. destruct (Ks k v Ik) as [Ike _]. assert (Ie : In e es) by (apply Hl; now left).
          destruct (Nat.eqb_spec (e_ix k) (e_ix e)) as [E|E].
          - assert (k = e) by (apply (nodup_map_inj e_ix es); auto). subst. now rewrite Z.eqb_refl.
          - destruct (Z.eqb_spec (s_id (e_org k)) (s_id (e_org e))) as [F|F]; [|reflexivity]. exfalso. apply E. f_equal.
            now apply (run_ids surfs es Nd Es). }
        revert Y. generalize d. clear. induction d as [|kv d IH]; intro Y; [reflexivity|]. cbn [existsb].
        rewrite Y by now left. rewrite IH; [reflexivity|]. intros; apply Y; now right. }
      rewrite <- X. destruct (existsb _ d); cbn [negb map]; rewrite IH by (intros; apply Hl; now right); reflexivity. }
    apply G. auto.
  - intros s o r s1 o1 Is Io Ne Df. apply keep_in in Is as (e & Ie & <- & Le). apply keep_in in Io as (k & Ik & <- & Lk).
    assert (Sb : sameb e k = Some r) by (apply sameb_diff; [now apply Eg..|eauto]).
    assert (Nek : e <> k) by congruence.
    destruct (in_split _ _ Ie) as (a & b & E). unfold d in *. rewrite E in Ik, Le, Lk, U.
    apply in_app_or in Ik as [Ik|[Ik|Ik]]; [|congruence|].
    + destruct (in_split _ _ Ik) as (a1 & a2 & ->).
      rewrite <- app_assoc in Lk, U. cbn [app] in Lk, U. rewrite find_dups_lookup in Lk by exact U.
      rewrite (proj1 (last_match_none k _) Lk e) in Sb; [discriminate|]. apply in_elt.
    + rewrite find_dups_lookup in Le by exact U. assert (X : sameb k e <> None) by (apply sameb_sym; congruence).
      apply X. now apply (proj1 (last_match_none e b)).
  - intros s Is. rewrite <- Eo in Is. apply in_map_iff in Is as (k & <- & Ik). destruct (lookup d k) as [[t r]|] eqn:L.
    + right. apply (lookup_in surfs es Es) in L; [|exact Ik]. destruct (dups_facts es k t r U L) as (_ & It & Sb & _ & Ne).
      apply sameb_diff in Sb; [|now apply Eg..]. destruct Sb as (s1 & o1 & Df). exists (e_org t), r, s1, o1.
      split; [now apply (target_kept surfs es Es k t r)|]. split; [|exact Df]. intro F. apply Ne. f_equal.
      apply (run_ids surfs es Nd Es); auto. now rewrite F.
    + left. apply keep_in. eauto.
  - apply mapM_forall2 in M. apply (forall2_in _ _ _ _ M). clear M. intros c c' I R. cbn beta in R.
    destruct (replace_all_ok d (c_items c)) as (l' & A & _ & _ & _ & _ & Mn).
    + intros k t r J. now apply (run_pos surfs es Es Pos k t r).
    + intros k t r k' t' r'. apply (key_no_target surfs es Nd Es).
    + now apply Hc.
    + unfold replace_cell in R. rewrite A in R. injection R as <-. cbn [with_items c_items].
      intros n Hn. destruct (Mn n Hn) as [Nk [Mm|(k & t & r & J & _ & ->)]].
      * destruct (in_dec Z.eq_dec n (map s_id surfs)) as [In_|Out].
        -- left. apply in_map_iff in In_ as (s & En & Is). exists s. split; [|exact En].
           rewrite <- Eo in Is. apply in_map_iff in Is as (k & <- & Ik). apply keep_in. exists k. split; [exact Ik|]. split; [reflexivity|].
           destruct (lookup d k) as [v|] eqn:L; [|exact L]. exfalso. apply (lookup_in surfs es Es) in L; [|exact Ik].
           apply (Nk k v L). now symmetry.
        -- right. split; [exact Mm|]. intros s Is E. apply Out. rewrite <- E. now apply in_map.
      * left. exists (e_org t). split; [now apply (target_kept surfs es Es k t r)|reflexivity].
Qed.
Print Assumptions C17_dedupe_complete.

Example C17_example :
  exists surfs' cells', NoDup (map s_id planes_deck) /\ (forall s, In s planes_deck -> (0 < s_id s)%Z) /\
  (forall c, In c [planes_cell] -> all_ints (c_items c)) /\
  remove_duplicates planes_deck [planes_cell] = Some (surfs', cells') /\ length surfs' = 2.
Proof.
  destruct C16_example as (A & B & _ & C & surfs' & c' & R & I & _). exists surfs', [c'].
  split; [exact A|]. split; [intros s Is; apply B; exact Is|]. split; [intros c [<-|[]]; exact C|]. split; [exact R|].
  rewrite <- (map_length s_id), I. reflexivity.
Qed.

(** C18 fails: a surface with a vacuum boundary is merged into a later copy without it,
    and no remaining surface has the boundary. *)
Theorem C18_boundary_condition_lost_refuted :
  exists surfs s surfs' cells',
    NoDup (map s_id surfs) /\ In s surfs /\ s_bc s = VACUUM /\
    remove_duplicates surfs [] = Some (surfs', cells') /\ surfs' <> [] /\
    forall o, In o surfs' -> s_bc o = TRANSMISSION.
Proof.
  set (s1 := mkS 1 None SPHERE_GENERAL [0; 0; 0; 5]%R VACUUM). set (s2 := mkS 2 None SPHERE_GENERAL [0; 0; 0; 5]%R TRANSMISSION).
  assert (R : remove_duplicates [s1; s2] [] = Some ([s2], [])).
  { unfold remove_duplicates.
    assert (Es : exists a b, entries 0 [s1; s2] = Some [a; b] /\ e_org b = s2 /\ e_ix a = 0 /\ e_ix b = 1 /\
      groups [a; b] = [(GENERAL_QUADRATIC, [a; b])] /\ sameb b a = Some false).
    { do 2 eexists. split; [reflexivity|]. repeat split. unfold sameb, diff_gen. cbn [e_gen].
      match goal with |- context [negb ?x] => change (negb x) with false end. cbv iota.
      match goal with |- context [list_Reqb ?a ?b] => replace (list_Reqb a b) with true end; [reflexivity|].
      symmetry. apply list_Reqb_true. cbn. reflexivity. }
    destruct Es as (a & b & -> & Ob & Ia & Ib & G & S).
    assert (F : find_dups [a; b] = [(a, (b, false))]).
    { unfold find_dups. rewrite G. cbn [fold_left snd scan app]. rewrite compare_one_eq, S. reflexivity. }
    rewrite F. cbn [mapM]. unfold keep. cbn [filter existsb fst]. rewrite Ia, Ib. cbn [Nat.eqb orb negb map]. now rewrite Ob. }
  exists [s1; s2], s1, [s2], []. split; [cbn; repeat constructor; cbn; intuition discriminate|].
  split; [now left|]. split; [reflexivity|]. split; [exact R|]. split; [discriminate|]. intros o [<-|[]]. reflexivity.
Qed.
Print Assumptions C18_boundary_condition_lost_refuted.

(** C18 (partial: surfaces that compare the same have the same boundary condition):
    every surface is still there or is represented by one that compares the same and has
    its boundary condition. *)
Theorem C18_boundary_condition_kept_partial :
  forall surfs cells surfs' cells',
  NoDup (map s_id surfs) -> (forall s, In s surfs -> (0 < s_id s)%Z) ->
  (forall c, In c cells -> all_ints (c_items c)) ->
  (forall s o r s1 o1, In s surfs -> In o surfs -> diff s o true false = Some ((true, r), s1, o1) -> s_bc s = s_bc o) ->
  remove_duplicates surfs cells = Some (surfs', cells') ->
  forall s, In s surfs -> In s surfs' \/
    exists o r s1 o1, In o surfs' /\ diff o s true false = Some ((true, r), s1, o1) /\ s_bc o = s_bc s.
Proof.
  intros surfs cells surfs' cells' Nd Pos Hc Hb R s Is.
  destruct (C17_dedupe_complete surfs cells surfs' cells' Nd Pos Hc R) as ((f & Ef) & _ & C & _).
  destruct (C s Is) as [K|(o & r & s1 & o1 & Io & _ & Df)]; [now left|]. right. exists o, r, s1, o1.
  split; [exact Io|]. split; [exact Df|]. apply (Hb o s r s1 o1); auto. rewrite Ef in Io. now apply filter_In in Io.
Qed.
Print Assumptions C18_boundary_condition_kept_partial.

Example C18_example : forall s o, In s planes_deck -> In o planes_deck -> s_bc s = s_bc o.
Proof. intros s o [<-|[<-|[<-|[]]]] [<-|[<-|[<-|[]]]]; reflexivity. Qed.
