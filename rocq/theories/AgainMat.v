(** The fractions of a composition that is made of the entries of a card (used for C91, csg2csg/MaterialCard.py). *)
From Coq Require Import QArith Qabs Lia Permutation.
From Coq Require Lqa.
From Verif Require Import PyStr PyStrFacts PyInt PyIntFacts PyDict FortranNumber MaterialModel MaterialProofs PropMaterial PropMaterialOut PropRead PropMain PropProgramMcnp.
Open Scope nat_scope.
Open Scope list_scope.

(** The nuclides of a card, each once. *)
Definition zaids (es : list PropMaterial.entry) : list text :=
  nodup (list_eq_dec ascii_dec) (flat_map (fun e => match e with Nuclide w _ => [before_dot w] | Keyword _ => [] end) es).
Lemma in_zaids z es : In z (zaids es) <-> lists z es.
Proof.
  unfold zaids. rewrite nodup_In, in_flat_map. split.
  - intros ([w|w f] & I & H); [destruct H|]. destruct H as [<-|[]]. now exists w, f.
  - intros (w & f & I & <-). exists (Nuclide w f). split; [exact I|now left].
Qed.
Lemma zaids_nodup es : NoDup (zaids es).
Proof. apply NoDup_nodup. Qed.

(** What an entry becomes. *)
Definition parts (k : Q) (es : list PropMaterial.entry) (z : text) : list (text * Q) :=
  match py_int z with
  | Some n => if (n mod 1000 =? 0)%Z then map (fun e => (str_Z (fst e), k * total (map (listed z) es) * (snd e / 100))%Q) (isotopes (n / 1000))
              else [(z, k * total (map (listed z) es))%Q]
  | None => []
  end.

Lemma parts_in k es z t v : In (t, v) (parts k es z) ->
  (t = z /\ v = k * total (map (listed z) es) /\ exists n, py_int z = Some n /\ (n mod 1000 <> 0)%Z)%Q \/
  exists y i a, py_int z = Some (1000 * y)%Z /\ In (i, a) (isotopes y) /\ t = str_Z i /\ v = (k * total (map (listed z) es) * (a / 100))%Q.
Proof.
  unfold parts. destruct (py_int z) as [n|]; [|intros []]. destruct (Z.eqb_spec (n mod 1000) 0) as [E|E].
  - intro I. right. apply in_map_iff in I as ([i a] & H & I). cbn [fst snd] in H. injection H as <- <-. exists (n / 1000)%Z, i, a.
    split; [|auto]. f_equal. pose proof (Z.div_mod n 1000). lia.
  - intros [H|[]]. injection H as <- <-. left. split; [reflexivity|]. split; [reflexivity|]. now exists n.
Qed.

Lemma total_times {A} (f : A -> Q) k l : (total (map (fun x => k * f x) l) == k * total (map f l))%Q.
Proof. induction l as [|x l IH]; cbn [map total]; [ring|]. rewrite IH. ring. Qed.

Lemma parts_total k es z : good_entries es -> lists z es -> (total (map snd (parts k es z)) == k * total (map (listed z) es))%Q.
Proof.
  intros G L. destruct (ge_zaid es G z L) as (n & E & P). unfold parts. rewrite E. destruct (Z.eqb_spec (n mod 1000) 0) as [M|M].
  - assert (EY : n = (1000 * (n / 1000))%Z) by (pose proof (Z.div_mod n 1000); lia).
    destruct (ge_elem es G z (n / 1000)%Z L) as [NI _]; [now rewrite E, <- EY|].
    rewrite map_map. cbn [snd]. assert (H := isotopes_total _ NI). set (q := (k * total (map (listed z) es))%Q).
    transitivity (q * (total (map snd (isotopes (n / 1000))) / 100))%Q.
    + clear. induction (isotopes (n / 1000)) as [|x l IH]; cbn [map total]; [field|]. rewrite IH. field.
    + rewrite H. field.
  - cbn [map snd total]. ring.
Qed.

Lemma nodup_flat {A B} (f : A -> list B) l : NoDup l -> (forall x, In x l -> NoDup (f x)) -> (forall x y b, In x l -> In y l -> In b (f x) -> In b (f y) -> x = y) -> NoDup (flat_map f l).
Proof.
  induction 1 as [|x l N ND IH]; intros H1 H2; [constructor|]. cbn [flat_map]. apply nodup_app_intro; [apply H1; now left| |].
  - apply IH; [intros; apply H1; now right|]. intros a b c IA IB. apply H2; now right.
  - intros b I J. apply in_flat_map in J as (y & IY & J). apply N. rewrite (H2 x y b); auto using in_eq, in_cons.
Qed.

(** Two nuclides of a card become different nuclides. *)
Lemma parts_apart k es z z' t : good_entries es -> lists z es -> lists z' es -> In t (map fst (parts k es z)) -> In t (map fst (parts k es z')) -> z = z'.
Proof.
  intros G L L' I I'. apply in_map_iff in I as ([t1 v] & E1 & I). apply in_map_iff in I' as ([t2 v'] & E2 & I'). cbn [fst] in *. subst t1 t2.
  apply parts_in in I as [(-> & _ & n & En & M)|(y & i & a & Ey & II & -> & _)]; apply parts_in in I' as [(E & _ & n' & En' & M')|(y' & i' & a' & Ey' & II' & E & _)].
  - exact E.
  - exfalso. subst z. rewrite py_int_str_Z in En. injection En as <-. apply isotopes_zaid in II' as (D & _).
    apply (ge_apart es G z' (str_Z i') y' i'); auto. apply py_int_str_Z.
  - exfalso. subst z'. rewrite py_int_str_Z in En'. injection En' as <-. apply isotopes_zaid in II as (D & _).
    apply (ge_apart es G z (str_Z i) y i); auto. apply py_int_str_Z.
  - apply str_Z_inj in E. subst i'. apply isotopes_zaid in II as (D & _). apply isotopes_zaid in II' as (D' & _). apply (ge_once es G); auto. rewrite Ey, Ey'. congruence.
Qed.

Lemma parts_nodup k es z : NoDup (map fst (parts k es z)).
Proof.
  unfold parts. destruct (py_int z) as [n|]; [|constructor]. destruct (n mod 1000 =? 0)%Z; [|constructor; [intros []|constructor]].
  rewrite map_map. cbn [fst]. rewrite <- (map_map fst str_Z). apply nodup_map_on; [apply isotopes_nodup|]. intros x y _ _. apply str_Z_inj.
Qed.

Lemma total_same (a b : dict Q) : NoDup (keys a) -> NoDup (keys b) -> (forall t v, In (t, v) a -> exists v', In (t, v') b /\ (v == v')%Q) ->
  (forall t, In t (keys b) -> In t (keys a)) -> (total (map snd a) == total (map snd b))%Q.
Proof.
  revert b. induction a as [|[t v] a IH]; intros b NA NB H1 H2.
  - destruct b as [|[t v] b]; [reflexivity|]. destruct (H2 t (or_introl eq_refl)).
  - destruct (H1 t v (or_introl eq_refl)) as (v' & I & E). apply in_split in I as (b1 & b2 & ->).
    cbn [keys map fst] in NA. inversion NA as [|? ? N NA']; subst.
    assert (NB' : NoDup (keys (b1 ++ b2))) by (unfold keys in *; rewrite map_app in *; cbn [map fst] in NB; now apply NoDup_remove_1 in NB).
    assert (NT : ~ In t (keys (b1 ++ b2))) by (unfold keys in *; rewrite map_app in *; cbn [map fst] in NB; now apply NoDup_remove_2 in NB).
    cbn [map snd total]. rewrite (IH (b1 ++ b2)); [|exact NA'|exact NB'| |].
    + rewrite !map_app, !total_app. cbn [map snd total]. rewrite E. ring.
    + intros u w I. destruct (H1 u w (or_intror I)) as (w' & I' & E'). exists w'. split; [|exact E']. rewrite in_app_iff in *. cbn [In] in I'.
      destruct I' as [I'|[I'|I']]; [now left| |now right]. exfalso. injection I' as <- _. apply N. unfold keys. apply in_map_iff. now exists (t, w).
    + intros u I. destruct (H2 u) as [E'|I'].
      * unfold keys in *. rewrite map_app, in_app_iff in *. cbn [map fst In]. tauto.
      * exfalso. cbn [fst] in E'. now subst u.
      * exact I'.
Qed.

(** The fractions add up as those of the card. *)
Lemma made_total es c : good_entries es -> made_of es c ->
  exists k, (0 < k)%Q /\ (k * Qabs (total (map fraction es)) == 1)%Q /\ (total (map snd c) == k * total (map fraction es))%Q.
Proof.
  intros G (ND & k & (KP & KT) & H1 & H2 & H3). exists k. split; [exact KP|]. split; [exact KT|].
  transitivity (total (map snd (flat_map (parts k es) (zaids es)))).
  - symmetry. apply total_same.
    + unfold keys. rewrite flat_map_concat_map, concat_map, map_map, <- flat_map_concat_map. apply nodup_flat; [apply zaids_nodup|intros; apply parts_nodup|].
      intros x y b IX IY. apply parts_apart; [exact G|now apply in_zaids|now apply in_zaids].
    + exact ND.
    + intros t v I. apply in_flat_map in I as (z & IZ & I). apply in_zaids in IZ. apply parts_in in I as [(-> & -> & n & En & M)|(y & i & a & Ey & II & -> & ->)].
      * destruct (H1 z n IZ En M) as (v & D & V). exists v. split; [now apply dget_some_in|now symmetry].
      * destruct (H2 z y i a IZ Ey II) as (v & D & V). exists v. split; [now apply dget_some_in|now symmetry].
    + intros t I. unfold keys. destruct (H3 t I) as [(L & n & En & M)|(z & y & i & a & L & Ey & II & ->)].
      * apply in_map_iff. exists (t, (k * total (map (listed t) es))%Q). split; [reflexivity|]. apply in_flat_map. exists t. split; [now apply in_zaids|].
        unfold parts. rewrite En. destruct (Z.eqb_spec (n mod 1000) 0); [contradiction|now left].
      * apply in_map_iff. exists (str_Z i, (k * total (map (listed z) es) * (a / 100))%Q). split; [reflexivity|]. apply in_flat_map. exists z. split; [now apply in_zaids|].
        unfold parts. rewrite Ey. replace ((1000 * y) mod 1000 =? 0)%Z with true by (symmetry; apply Z.eqb_eq; rewrite Z.mul_comm; now apply Z.mod_mul).
        replace (1000 * y / 1000)%Z with y by (rewrite Z.mul_comm; symmetry; now apply Z.div_mul). apply in_map_iff. exists (i, a). now split.
  - rewrite <- (total_listed es (zaids es) (zaids_nodup es)) by (intros z L; now apply in_zaids).
    rewrite <- total_times. assert (K : forall z, In z (zaids es) -> lists z es) by (intro; apply in_zaids). revert K. generalize (zaids es) as zs.
    induction zs as [|z zs IH]; intro K; cbn [flat_map map total]; [reflexivity|]. rewrite map_app, total_app, IH by (intros; apply K; now right).
    rewrite parts_total; [reflexivity|exact G|apply K; now left].
Qed.

(* ------------------------------------------------------------------ *)
(** * The card that is written for a composition *)

(** The entries of the card (MCNPMaterialCard.py 11-28). *)
Definition comp_entries (show : Q -> text) (c : dict Q) : list PropMaterial.entry := map (fun e => Nuclide (fst e) (show (snd e))) c.

Lemma before_before w : before_dot (before_dot w) = before_dot w.
Proof. induction w as [|c w IH]; [reflexivity|]. cbn [before_dot]. destruct (Ascii.eqb "."%char c) eqn:E; [reflexivity|]. cbn [before_dot]. now rewrite E, IH. Qed.
Lemma before_plain w : ~ In "."%char w -> before_dot w = w.
Proof.
  induction w as [|c w IH]; intro N; [reflexivity|]. cbn [before_dot]. destruct (Ascii.eqb_spec "."%char c) as [E|E]; [elim N; left; now symmetry|].
  rewrite IH; [reflexivity|]. intro I. apply N. now right.
Qed.
Lemma before_str z : before_dot (str_Z z) = str_Z z.
Proof. apply before_plain. intro I. apply (CellWritersOut.int_word_chars _ (CellWritersOut.int_word_str z)) in I as [I|I]; discriminate. Qed.

Section Again.
Context (show : Q -> text) (es : list PropMaterial.entry) (c : dict Q).
Context (G : good_entries es) (M : made_of es c) (P : forall e, In e c -> printed_well show (snd e)).

Lemma key_plain t : In t (keys c) -> before_dot t = t /\ exists n, py_int t = Some n /\ (0 < n)%Z /\ (n mod 1000 <> 0)%Z.
Proof.
  intro I. destruct M as (_ & k & _ & _ & _ & H). destruct (H t I) as [(L & n & En & Mn)|(z & y & i & a & L & Ey & II & ->)].
  - split; [destruct L as (w & f & _ & <-); apply before_before|]. destruct (ge_zaid es G t L) as (n' & E' & P'). rewrite En in E'. injection E' as <-. now exists n.
  - split; [apply before_str|]. exists i. apply isotopes_zaid in II as (_ & H1 & H2 & _). split; [apply py_int_str_Z|]. now split.
Qed.

Lemma key_once t t' : In t (keys c) -> In t' (keys c) -> py_int t = py_int t' -> t = t'.
Proof.
  intros I I' E. destruct M as (_ & k & _ & _ & _ & H).
  destruct (H t I) as [(L & n & En & Mn)|(z & y & i & a & L & Ey & II & ->)]; destruct (H t' I') as [(L' & n' & En' & Mn')|(z' & y' & i' & a' & L' & Ey' & II' & ->)].
  - now apply (ge_once es G).
  - exfalso. rewrite py_int_str_Z in E. rewrite En in E. injection E as ->. apply isotopes_zaid in II' as (D & _). now apply (ge_apart es G z' t y' i').
  - exfalso. rewrite py_int_str_Z in E. rewrite En' in E. injection E as <-. apply isotopes_zaid in II as (D & _). now apply (ge_apart es G z t' y i).
  - rewrite !py_int_str_Z in E. now injection E as ->.
Qed.

Lemma lists_again t : lists t (comp_entries show c) <-> In t (keys c).
Proof.
  unfold lists, comp_entries, keys. split.
  - intros (w & f & I & E). apply in_map_iff in I as (e & H & I). injection H as <- _. assert (K : In (fst e) (keys c)) by now apply in_map.
    rewrite (proj1 (key_plain _ K)) in E. now subst t.
  - intro I. assert (K := proj1 (key_plain t I)). apply in_map_iff in I as (e & <- & I). exists (fst e), (show (snd e)). split; [|exact K]. apply in_map_iff. now exists e.
Qed.

Lemma fraction_again : (total (map fraction (comp_entries show c)) == total (map snd c))%Q.
Proof.
  unfold comp_entries. rewrite map_map. apply total_ext. intros e I. cbn [fraction]. destruct (P e I) as (_ & v & -> & V). exact V.
Qed.

Lemma listed_again t v : dget t c = Some v -> (total (map (listed t) (comp_entries show c)) == v)%Q.
Proof.
  intro D. assert (ND := proj1 M). assert (B : forall e, In e c -> before_dot (fst e) = fst e) by (intros e I; apply key_plain; now apply in_map).
  unfold comp_entries. rewrite map_map. revert D ND B P. clear. induction c as [|[t' v'] l IH]; [discriminate|]. intros D ND B P.
  cbn [keys map fst] in ND. inversion ND as [|? ? N ND']; subst. cbn [map total dget fst snd listed] in *. assert (BT := B (t', v') (or_introl eq_refl)). cbn [fst] in BT. rewrite BT.
  destruct (text_eqb_spec t' t) as [E|NE].
  - subst t'. injection D as <-. destruct (P (t, v') (or_introl eq_refl)) as (_ & w & W & V). cbn [snd] in W, V. rewrite W, V.
    rewrite total_zero; [ring|]. intros e I. cbn [listed]. destruct (text_eqb_spec (before_dot (fst e)) t) as [E|]; [|reflexivity].
    exfalso. apply N. rewrite (B e (or_intror I)) in E. rewrite <- E. now apply in_map.
  - rewrite IH; [ring|exact D|exact ND'| |]; intros; [apply B|apply P]; now right.
Qed.

Lemma entries_again : good_entries (comp_entries show c).
Proof.
  destruct (made_total es c G M) as (k & KP & KT & TT). split.
  - intros z L. apply lists_again in L. destruct (key_plain z L) as (_ & n & E & N & _). now exists n.
  - intros z z' L L'. apply key_once; now apply lists_again.
  - intros z z' y n L _ E. apply lists_again in L. destruct (key_plain z L) as (_ & n' & E' & _ & H). assert (EN : n' = (y * 1000)%Z) by (rewrite Z.mul_comm; congruence).
    elim H. rewrite EN. now apply Z.mod_mul.
  - intros z y L E. apply lists_again in L. destruct (key_plain z L) as (_ & n' & E' & _ & H). assert (EN : n' = (y * 1000)%Z) by (rewrite Z.mul_comm; congruence).
    elim H. rewrite EN. now apply Z.mod_mul.
  - rewrite fraction_again, TT. intro H. apply Qmult_integral in H as [H|H]; [rewrite H in KP; discriminate KP|]. now apply (ge_sum es G).
Qed.

(** Reading the card again changes nothing: the fractions add up to 1 already (or to -1). *)
Lemma made_again c2 : made_of (comp_entries show c) c2 -> made_of es c2.
Proof.
  intro M2. destruct (made_total es c G M) as (k0 & KP0 & KT0 & TT). assert (G2 := entries_again).
  assert (SUM : (Qabs (total (map fraction (comp_entries show c))) == 1)%Q).
  { rewrite fraction_again, TT, Qabs_Qmult, (Qabs_pos k0) by now apply Qlt_le_weak. exact KT0. }
  destruct M2 as (ND2 & k2 & (KP2 & KT2) & A1 & A2 & A3). rewrite SUM in KT2. assert (K1 : (k2 == 1)%Q) by (rewrite <- KT2; ring).
  assert (EQ : forall t v, dget t c = Some v -> exists v2, dget t c2 = Some v2 /\ (v2 == v)%Q).
  { intros t v D. assert (I : In t (keys c)) by (unfold keys; apply in_map_iff; exists (t, v); split; [reflexivity|now apply dget_some_in]).
    destruct (key_plain t I) as (_ & n & E & _ & H). destruct (A1 t n (proj2 (lists_again t) I) E H) as (v2 & D2 & V2). exists v2. split; [exact D2|].
    rewrite V2, K1, (listed_again t v D). ring. }
  destruct M as (ND & k & KK & H1 & H2 & H3). split; [exact ND2|]. exists k. split; [exact KK|]. split; [|split].
  - intros z n L E N. destruct (H1 z n L E N) as (v & D & V). destruct (EQ z v D) as (v2 & D2 & V2). exists v2. split; [exact D2|]. now rewrite V2.
  - intros z y i a L E N. destruct (H2 z y i a L E N) as (v & D & V). destruct (EQ _ v D) as (v2 & D2 & V2). exists v2. split; [exact D2|]. now rewrite V2.
  - intros t I. apply H3. destruct (A3 t I) as [(L & _)|(z & y & i & a & L & E & _)]; [now apply lists_again|].
    exfalso. apply lists_again in L. destruct (key_plain z L) as (_ & n' & E' & _ & H). assert (EN : n' = (y * 1000)%Z) by (rewrite Z.mul_comm; congruence).
    elim H. rewrite EN. now apply Z.mod_mul.
Qed.
End Again.
