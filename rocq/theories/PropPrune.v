(** C45, C70: pruning unused OpenMC universes. *)
From Verif Require Import PyStr PyStrFacts PyInt CellModel CellWriters PyDict OpenMCPrune.
Open Scope Z_scope.

(** ** What the elements say *)

Definition cell_element (x : element) : Prop := x_tag x = T "cell".
Definition in_universe (x : element) (u : Z) : Prop := cell_element x /\ exists t, dget (T "universe") (x_attrs x) = Some t /\ py_int t = Some u.
Definition filled_with (x : element) (f : Z) : Prop := cell_element x /\ exists t, dget (T "fill") (x_attrs x) = Some t /\ py_int t = Some f.

(** Every cell has a universe number, and a fill number if it has a fill. *)
Definition readable (g : list element) : Prop :=
  forall x, In x g -> cell_element x -> (exists u, in_universe x u) /\ (forall t, dget (T "fill") (x_attrs x) = Some t -> py_int t <> None).

(** The universes that can be reached from universe 0. *)
Inductive reached (g : list element) : Z -> Prop :=
| reached_root : reached g 0
| reached_fill x u f : In x g -> in_universe x u -> reached g u -> filled_with x f -> reached g f.

(** A universe with cells that fills no cell. *)
Definition nothing_fills (g : list element) (u : Z) : Prop :=
  (exists x, In x g /\ in_universe x u) /\ forall x, In x g -> ~ filled_with x u.

(** ** Proof *)

Lemma is_cell_spec x : is_cell x = true <-> cell_element x.
Proof. unfold is_cell, cell_element. apply text_eqb_eq. Qed.
Lemma universe_spec x u : cell_element x -> universe_of x = Some u <-> in_universe x u.
Proof.
  intro C. unfold universe_of, in_universe. destruct (dget (T "universe") (x_attrs x)) as [t|]; split.
  - intro E. split; [exact C|]. eauto.
  - intros (_ & t' & E & P). congruence.
  - discriminate.
  - intros (_ & t' & E & _). discriminate.
Qed.

Lemma scan_spec g : readable g -> exists us fs, scan_cells g = Some (us, fs) /\
  (forall u, In u us <-> exists x, In x g /\ in_universe x u) /\ (forall f, In f fs <-> exists x, In x g /\ filled_with x f).
Proof.
  induction g as [|x g IH]; intro R.
  - exists [], []. split; [reflexivity|]. split; (split; [intros []|intros (x & [] & _)]).
  - destruct IH as (us & fs & S & U & F); [intros y I; apply R; now right|]. cbn [scan_cells].
    destruct (is_cell x) eqn:C.
    + apply is_cell_spec in C. destruct (R x (or_introl eq_refl) C) as [[u IU] FF].
      assert (UE := proj2 (universe_spec x u C) IU). rewrite UE, S. unfold fill_of.
      assert (US : forall v, In v (u :: us) <-> exists y, In y (x :: g) /\ in_universe y v).
      { intro v. cbn [In]. rewrite U. split.
        - intros [<-|(y & I & V)]; [exists x; auto|exists y; auto].
        - intros (y & [<-|I] & V); [left|right; eauto]. apply (universe_spec x v C) in V. congruence. }
      destruct (dget (T "fill") (x_attrs x)) as [t|] eqn:D.
      * assert (P := FF t eq_refl). destruct (py_int t) as [n|] eqn:PI; [|tauto]. exists (u :: us), (n :: fs). split; [reflexivity|].
        split; [exact US|]. intro f. cbn [In]. rewrite F. split.
        -- intros [<-|(y & I & V)]; [exists x; split; [now left|]; split; [exact C|eauto]|exists y; auto].
        -- intros (y & [<-|I] & V); [left|right; eauto]. destruct V as (_ & t' & E & P'). congruence.
      * exists (u :: us), fs. split; [reflexivity|]. split; [exact US|]. intro f. rewrite F. split.
        -- intros (y & I & V). exists y. split; [now right|exact V].
        -- intros (y & [<-|I] & V); [|eauto]. destruct V as (_ & t' & E & _). congruence.
    + assert (NC : ~ cell_element x) by (intro C'; apply is_cell_spec in C'; congruence).
      exists us, fs. split; [exact S|]. split; intro v.
      * rewrite U. split; [intros (y & I & V); exists y; split; [now right|exact V]|].
        intros (y & [<-|I] & V); [destruct V; tauto|eauto].
      * rewrite F. split; [intros (y & I & V); exists y; split; [now right|exact V]|].
        intros (y & [<-|I] & V); [destruct V; tauto|eauto].
Qed.

Lemma memZ_spec z l : memZ z l = true <-> In z l.
Proof.
  unfold memZ. rewrite existsb_exists. split; [intros (x & I & E); apply Z.eqb_eq in E; now subst|intro I; exists z; split; [exact I|apply Z.eqb_refl]].
Qed.

Lemma unused_spec g : readable g -> exists us, unused_fills g = Some us /\ NoDup us /\ forall u, In u us <-> nothing_fills g u.
Proof.
  intro R. destruct (scan_spec g R) as (us & fs & S & U & F). unfold unused_fills. rewrite S. eexists. split; [reflexivity|].
  split; [apply NoDup_nodup|]. intro u. rewrite nodup_In, filter_In, U. unfold nothing_fills.
  assert (N : negb (memZ u fs) = true <-> ~ In u fs).
  { rewrite <- memZ_spec. destruct (memZ u fs); cbn [negb]; intuition congruence. }
  rewrite N, F. split; intros [A B]; (split; [exact A|]); [intros x I V; apply B; eauto|intros (x & I & V); now apply (B x)].
Qed.

Lemma readable_filter p g : readable g -> readable (filter p g).
Proof. intros R x I. apply filter_In in I as [I _]. now apply R. Qed.

Lemma removed_spec us x : removed us x = true <-> exists u, in_universe x u /\ In u us /\ u <> 0.
Proof.
  unfold removed. rewrite andb_true_iff. split.
  - intros [C H]. apply is_cell_spec in C. destruct (universe_of x) as [u|] eqn:U; [|discriminate]. apply andb_true_iff in H as [M N].
    exists u. split; [now apply universe_spec|]. split; [now apply memZ_spec|]. apply negb_true_iff in N. now apply Z.eqb_neq in N.
  - intros (u & IU & I & N). assert (C := proj1 IU). split; [now apply is_cell_spec|]. rewrite (proj2 (universe_spec x u C) IU).
    apply andb_true_iff. split; [now apply memZ_spec|]. apply negb_true_iff. now apply Z.eqb_neq.
Qed.

Lemma in_universe_fun x u v : in_universe x u -> in_universe x v -> u = v.
Proof. intros (_ & t & E & P) (_ & t' & E' & P'). congruence. Qed.

(** What is reached stays reached when only cells of universes that are not reached are taken away. *)
Lemma reached_keep g p : (forall x u, In x g -> in_universe x u -> reached g u -> p x = true) -> forall u, reached g u -> reached (filter p g) u.
Proof.
  intros K u R. induction R as [|x u f I U R IH F]; [constructor|]. apply (reached_fill _ x u f); try assumption. apply filter_In. split; [exact I|].
  now apply (K x u).
Qed.
Lemma reached_less g p u : reached (filter p g) u -> reached g u.
Proof.
  induction 1 as [|x u f I U R IH F]; [constructor|]. apply filter_In in I as [I _]. now apply (reached_fill _ x u f).
Qed.

Lemma not_removed g us x u : (forall v, In v us -> nothing_fills g v) -> In x g -> in_universe x u -> reached g u -> negb (removed us x) = true.
Proof.
  intros US I U R. apply negb_true_iff. destruct (removed us x) eqn:E; [|reflexivity]. exfalso. apply removed_spec in E as (v & V & IV & N).
  assert (u = v) by (now apply (in_universe_fun x)). subst v. destruct R as [|y w f IY UY RY FY]; [tauto|]. destruct (US _ IV) as [_ H]. now apply (H y).
Qed.

Lemma filter_shorter {A} (p : A -> bool) l x : In x l -> p x = false -> (length (filter p l) < length l)%nat.
Proof.
  induction l as [|y l IH]; intros I P; [destruct I|]. cbn [filter length]. destruct I as [<-|I].
  - rewrite P. assert (H : (length (filter p l) <= length l)%nat); [|lia]. clear. induction l as [|y l IH]; [reflexivity|]. cbn. destruct (p y); cbn; lia.
  - specialize (IH I P). destruct (p y); cbn [length]; lia.
Qed.

Lemma two_different (us : list Z) : NoDup us -> (length us > 1)%nat -> exists u, In u us /\ u <> 0.
Proof.
  intros ND L. destruct us as [|a [|b us]]; cbn [length] in L; try lia. inversion ND as [|? ? NI _]; subst.
  destruct (Z.eq_dec a 0) as [->|N]; [|exists a; split; [now left|exact N]]. exists b. split; [now right; left|]. intros ->. apply NI. now left.
Qed.

Theorem C45_prune g : readable g ->
  exists keep, prune g = Pruned (filter keep g) /\
    (forall x, In x g -> ~ cell_element x -> keep x = true) /\
    (forall x u, In x g -> in_universe x u -> reached g u -> keep x = true) /\
    (forall u v, nothing_fills (filter keep g) u -> nothing_fills (filter keep g) v -> u = v).
Proof.
  unfold prune. assert (G : forall fuel g, (length g <= fuel)%nat -> readable g ->
    exists keep, prune_loop fuel g = Pruned (filter keep g) /\
    (forall x, In x g -> ~ cell_element x -> keep x = true) /\
    (forall x u, In x g -> in_universe x u -> reached g u -> keep x = true) /\
    (forall u v, nothing_fills (filter keep g) u -> nothing_fills (filter keep g) v -> u = v)).
  2: { intro R. now apply G. }
  clear g. induction fuel as [|fuel IH]; intros g L R; destruct (unused_spec g R) as (us & U & ND & S); cbn [prune_loop]; rewrite U.
  - destruct g as [|x g]; [|cbn in L; lia]. destruct (Nat.leb_spec (length us) 1) as [LU|LU].
    + exists (fun _ => true). cbn [filter]. repeat split; try (intros; contradiction). intros u v (( x & [] & _) & _).
    + exfalso. destruct (two_different us ND LU) as (u & I & _). apply S in I as [(x & [] & _) _].
  - destruct (Nat.leb_spec (length us) 1) as [LU|LU].
    + exists (fun _ => true). assert (E : filter (fun _ : element => true) g = g) by (clear; induction g as [|x g IH]; [reflexivity|cbn; now rewrite IH]).
      rewrite E. repeat split. intros u v A B. apply S in A, B. destruct us as [|a [|b us]]; cbn [length] in LU; try lia; [destruct A|].
      destruct A as [<-|[]], B as [<-|[]]. reflexivity.
    + destruct (two_different us ND LU) as (u & IU & NU). set (q := fun x => negb (removed us x)).
      assert (SH : (length (filter q g) < length g)%nat).
      { destruct (proj1 (S u) IU) as [(x & I & V) _]. apply (filter_shorter q g x I). unfold q. apply negb_false_iff. apply removed_spec. eauto. }
      destruct (IH (filter q g)) as (keep & E & K1 & K2 & K3); [lia|now apply readable_filter|].
      exists (fun x => q x && keep x).
      assert (FF : filter (fun x => q x && keep x) g = filter keep (filter q g)).
      { clear. induction g as [|x g IH]; [reflexivity|]. cbn [filter]. destruct (q x) eqn:Q; cbn [andb filter]; [|exact IH]. destruct (keep x); now rewrite IH. }
      rewrite FF. split; [exact E|]. assert (QK : forall x v, In x g -> in_universe x v -> reached g v -> q x = true).
      { intros x v I V RV. apply (not_removed g us x v); try assumption. intros w IW. now apply S. }
      split; [|split].
      * intros x I NC. assert (Q : q x = true).
        { unfold q. apply negb_true_iff. destruct (removed us x) eqn:RX; [|reflexivity]. apply removed_spec in RX as (v & [C _] & _). tauto. }
        rewrite Q. apply K1; [now apply filter_In|exact NC].
      * intros x v I V RV. assert (Q := QK x v I V RV). rewrite Q. apply (K2 x v); [now apply filter_In|exact V|]. now apply reached_keep.
      * exact K3.
Qed.

(** If no fills form a circle, nothing fills universe 0, and universe 0 has a cell, then exactly the cells of the reached
    universes remain. *)
Theorem C45_exact g (rank : Z -> nat) : readable g ->
  (forall x u f, In x g -> in_universe x u -> filled_with x f -> (rank u < rank f)%nat) ->
  (exists x, In x g /\ in_universe x 0) -> (forall x, In x g -> ~ filled_with x 0) ->
  exists keep, prune g = Pruned (filter keep g) /\ forall x u, In x g -> in_universe x u -> (keep x = true <-> reached g u).
Proof.
  intros R RK (x0 & I0 & U0) N0. destruct (C45_prune g R) as (keep & E & _ & K2 & K3). exists keep. split; [exact E|].
  intros x u I U. split; [|now apply (K2 x u)]. intro K.
  assert (Z0 : nothing_fills (filter keep g) 0).
  { split; [exists x0; split; [apply filter_In; split; [exact I0|]; apply (K2 x0 0 I0 U0); constructor|exact U0]|].
    intros y IY. apply filter_In in IY as [IY _]. now apply N0. }
  assert (D : forall l v, (exists y, In y l /\ filled_with y v) \/ (forall y, In y l -> ~ filled_with y v)).
  { clear. intros l v. induction l as [|y l [(z & I & F)|IH]]; [right; intros y []|left; exists z; split; [now right|exact F]|].
    assert (D1 : filled_with y v \/ ~ filled_with y v).
    { unfold filled_with. destruct (is_cell y) eqn:C; [|right; intros [C' _]; apply is_cell_spec in C'; congruence]. apply is_cell_spec in C.
      destruct (dget (T "fill") (x_attrs y)) as [t|]; [|right; intros (_ & t & E & _); discriminate].
      destruct (py_int t) as [n|] eqn:P; [|right; intros (_ & t' & E & P'); congruence].
      destruct (Z.eq_dec n v) as [<-|N]; [left; split; [exact C|eauto]|right; intros (_ & t' & E & P'); congruence]. }
    destruct D1 as [D1|D1]; [left; exists y; split; [now left|exact D1]|right]. intros z [<-|I]; [exact D1|now apply IH]. }
  assert (G : forall n x u, (rank u < n)%nat -> In x (filter keep g) -> in_universe x u -> reached g u).
  { intro n. induction n as [|n IH]; intros y v L IY V; [lia|]. destruct (D (filter keep g) v) as [(z & IZ & F)|NF].
    - assert (IZG := IZ). apply filter_In in IZG as [IZG _]. destruct (R z IZG (proj1 F)) as [[w W] _].
      apply (reached_fill g z w v); try assumption. apply (IH z w); try assumption. specialize (RK z w v IZG W F). lia.
    - assert (v = 0) as ->; [|constructor]. apply K3; [|exact Z0]. split; [eauto|exact NF]. }
  apply (G (S (rank u)) x u); [lia|now apply filter_In|exact U].
Qed.

(** Cells in a circle of fills remain although they cannot be reached. *)
Definition small (id : text) (u : option text) (f : option text) : element := openmc_cell (WCell id 1 (T "-1.0") [Str (T "-1")] u f None None (T "1.0")).
Theorem C45_circle_refuted : exists g x, readable g /\ prune g = Pruned g /\ In x g /\ forall u, in_universe x u -> ~ reached g u.
Proof.
  exists [small (T "1") None None; small (T "2") (Some (T "5")) (Some (T "6")); small (T "3") (Some (T "6")) (Some (T "5"))], (small (T "2") (Some (T "5")) (Some (T "6"))).
  assert (R : readable [small (T "1") None None; small (T "2") (Some (T "5")) (Some (T "6")); small (T "3") (Some (T "6")) (Some (T "5"))]).
  { intros x [<-|[<-|[<-|[]]]] _; (split; [eexists; split; [reflexivity|eexists; split; reflexivity]|]); cbn; intros t E; try discriminate; injection E as <-; vm_compute; discriminate. }
  split; [exact R|]. split; [vm_compute; reflexivity|]. split; [now right; left|].
  intros u U RU. assert (U5 : u = 5) by (apply (in_universe_fun _ _ _ U); split; [reflexivity|eexists; split; reflexivity]). subst u.
  assert (G : forall w, reached [small (T "1") None None; small (T "2") (Some (T "5")) (Some (T "6")); small (T "3") (Some (T "6")) (Some (T "5"))] w -> w = 0).
  { induction 1 as [|x u f I V RV IH F]; [reflexivity|]. subst u. exfalso. destruct I as [<-|[<-|[<-|[]]]].
    - destruct F as (_ & t & E & _). discriminate.
    - destruct V as (_ & t & E & P). vm_compute in E. injection E as <-. discriminate.
    - destruct V as (_ & t & E & P). vm_compute in E. injection E as <-. discriminate. }
  apply G in RU. discriminate.
Qed.

(** A universe given with a minus sign (in MCNP a promise that its cells are not cut by the cell they fill) is
    dropped although a cell of universe 0 is filled with it. *)
Theorem C70_openmc_refuted : exists g x y u, In x g /\ In y g /\ in_universe x 0 /\ filled_with x u /\
  dget (T "universe") (x_attrs y) = Some (T "-" ++ str_Z u) /\ readable g /\ exists g', prune g = Pruned g' /\ ~ In y g'.
Proof.
  exists [small (T "1") None (Some (T "5")); small (T "2") (Some (T "-5")) None], (small (T "1") None (Some (T "5"))), (small (T "2") (Some (T "-5")) None), 5.
  split; [now left|]. split; [now right; left|]. split; [split; [reflexivity|eexists; split; reflexivity]|]. split; [split; [reflexivity|eexists; split; reflexivity]|].
  split; [reflexivity|]. split.
  - intros x [<-|[<-|[]]] _; (split; [eexists; split; [reflexivity|eexists; split; reflexivity]|]); cbn; intros t E; try discriminate; injection E as <-; vm_compute; discriminate.
  - exists [small (T "1") None (Some (T "5"))]. split; [vm_compute; reflexivity|]. intros [E|[]]. discriminate.
Qed.

Example prune_ex :
  let g := [mkX (T "surface") []; small (T "1") None (Some (T "5")); small (T "2") (Some (T "5")) None; small (T "3") (Some (T "7")) (Some (T "8")); small (T "4") (Some (T "8")) None] in
  readable g /\ (forall x u f, In x g -> in_universe x u -> filled_with x f -> (Z.to_nat u < Z.to_nat f)%nat) /\
  (exists x, In x g /\ in_universe x 0) /\ (forall x, In x g -> ~ filled_with x 0) /\
  prune g = Pruned [mkX (T "surface") []; small (T "1") None (Some (T "5")); small (T "2") (Some (T "5")) None].
Proof.
  cbv zeta. split; [|split; [|split; [|split]]].
  - intros x [<-|[<-|[<-|[<-|[<-|[]]]]]] C; try discriminate C; (split; [eexists; split; [reflexivity|eexists; split; reflexivity]|]); cbn; intros t E; try discriminate; injection E as <-; vm_compute; discriminate.
  - intros x u f [<-|[<-|[<-|[<-|[<-|[]]]]]] (_ & t & E & P) (_ & t' & E' & P'); vm_compute in E, E'; try discriminate;
      injection E as <-; injection E' as <-; vm_compute in P, P'; injection P as <-; injection P' as <-; vm_compute; lia.
  - eexists. split; [now right; left|]. split; [reflexivity|]. eexists. split; reflexivity.
  - intros x [<-|[<-|[<-|[<-|[<-|[]]]]]] (_ & t' & E' & P'); vm_compute in E'; try discriminate; injection E' as <-; vm_compute in P'; discriminate.
  - vm_compute. reflexivity.
Qed.

Print Assumptions C45_prune.
Print Assumptions C45_exact.
Print Assumptions C45_circle_refuted.
Print Assumptions C70_openmc_refuted.
