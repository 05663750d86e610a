(** C82: the transformation of a universe (csg2csg/MCNPCellCard.py 337-374, csg2csg/MCNPInput.py 294-303). *)
From Coq Require Import QArith Reals Lra Lia.
From Verif Require Import PyStr PyStrFacts PyDict FortranNumber SurfModel GeomSpec SurfSpec PropSurf KeywordModel PropKeyword DeckScan PropRead MainModel.
Open Scope nat_scope.
Open Scope list_scope.

(** ** Specification *)

(** No motion. *)
Definition still : motion := Motion (Pt 0 0 0) (Pt 1 0 0) (Pt 0 1 0) (Pt 0 0 1).

(** MCNP manual, FILL: the transformation in parentheses is the number of a TR card, or its entries (angles in degrees if
    FILL has a star); without it the universe stays where it is. *)
Definition fill_means (trs : list (text * motion)) (star : bool) (tr : option (text * text)) (m : motion) : Prop :=
  match tr with
  | None => m = still
  | Some (_, inner) =>
      match words inner with
      | [id] => id <> T "0" /\ last_for id trs m
      | ws => exists vals, reads ws vals /\ tr_means star vals m
      end
  end.

(** The value of a number in memory. *)
Definition uval (u : unum) : option R :=
  match u with UText t => to_float t | UCos q => Some (cos (Q2R q / 180 * PI)) | UNum r => Some r end.
Definition values (l : list unum) (vs : list R) : Prop := Forall2 (fun u v => uval u = Some v) l vs.

(** The motion in memory: the offset, and the rows of the matrix one after the other. *)
Definition placing_means (p : placing) (m : motion) : Prop :=
  match p_offset p with None => mo m = Pt 0 0 0 | Some l => values l [px (mo m); py (mo m); pz (mo m)] end /\
  match p_rot p with
  | None => r1 m = Pt 1 0 0 /\ r2 m = Pt 0 1 0 /\ r3 m = Pt 0 0 1
  | Some l => values l [px (r1 m); py (r1 m); pz (r1 m); px (r2 m); py (r2 m); pz (r2 m); px (r3 m); py (r3 m); pz (r3 m)]
  end.

(** ** Proofs *)

Lemma values_text ws : forall vals, reads ws vals -> values (map UText ws) vals.
Proof. unfold reads, values. induction ws as [|w ws IH]; intros vals F; inversion F; subst; cbn [map]; constructor; auto. Qed.

Lemma values_cos ws : forall rot vals, Forall2 (fun t v => exists q, py_float t = Some q /\ v = RCos q) ws rot -> reads ws vals ->
  values (map of_rotval rot) (map (cosine_of true) vals).
Proof.
  unfold reads, values. induction ws as [|w ws IH]; intros rot vals F G; inversion F as [|? v ? rot' (q & E & ->)]; subst; inversion G as [|? x ? vals' HX]; subst;
    cbn [map]; constructor; auto.
  cbn [of_rotval uval cosine_of]. unfold to_float in HX. rewrite E in HX. injection HX as <-. do 2 f_equal. field.
Qed.

Lemma placed_by_card ts trs star tr k m :
  (forall id m, last_for id trs m -> exists t, dget id ts = Some t /\ motion_of t = m) ->
  transformation_read star tr k ->
  match tr with Some (_, inner) => length (words inner) = 1 \/ length (words inner) = 3 \/ length (words inner) = 12 | None => True end ->
  fill_means trs star tr m -> exists p, universe_placing ts k = Some p /\ placing_means p m.
Proof.
  intros TS RD LEN FM. unfold universe_placing, card_placing, placing_means. destruct tr as [[sep inner]|].
  - cbn [transformation_read fill_means] in *. destruct (words inner) as [|a [|b [|c r]]]; try destruct RD.
    + destruct FM as [N L]. rewrite H. destruct (text_eqb_spec a (T "0")) as [E|_]; [contradiction|]. destruct (TS _ _ L) as (t & -> & <-).
      cbn [option_map]. eexists. split; [reflexivity|]. unfold apply_universe_transform, motion_of. cbn [p_offset p_rot mo r1 r2 r3].
      destruct (t_shift t) as [[? ?] ?], (t_v1 t) as [[? ?] ?], (t_v2 t) as [[? ?] ?], (t_v3 t) as [[? ?] ?]. cbn [three pt_of app px py pz].
      split; repeat (constructor; [reflexivity|]); constructor.
    + rewrite H. change (text_eqb (T "0") (T "0")) with true. cbv iota. destruct H0 as [-> RR]. eexists. split; [reflexivity|]. cbn [option_map p_offset p_rot].
      destruct FM as (vals & RV & TM). cbn [length] in LEN.
      assert (LV : length vals = S (S (S (length r)))) by (clear - RV; change (length vals = length (a :: b :: c :: r)); induction RV; cbn [length]; congruence).
      assert (A3 : forall x y z vs, reads (a :: b :: c :: r) (x :: y :: z :: vs) -> values [UText a; UText b; UText c] [x; y; z] /\ reads r vs).
      { intros x y z vs F. inversion F as [|? ? ? ? H1 F1]; subst. inversion F1 as [|? ? ? ? H2 F2]; subst. inversion F2 as [|? ? ? ? H3 F3]; subst.
        split; [repeat constructor; assumption|exact F3]. }
      destruct TM as [x y z|x y z a1 b1 c1 d1 e1 f1|x y z a1 b1 c1 d1 e1 f1 g1 h1 j1|x y z a1 b1 c1 d1 e1 f1 g1 h1 j1|x y z a1 b1 c1 d1 e1 f1 g1 h1 j1 o Q];
        cbn [length] in LV; try (exfalso; lia); apply A3 in RV as [V1 V2]; cbn [mo r1 r2 r3 px py pz]; (split; [exact V1|]).
      * destruct r; [|discriminate]. rewrite RR. cbn [option_map]. auto.
      * destruct r as [|t r]; [discriminate|]. destruct RR as (rot & -> & RR). cbn [option_map]. destruct star.
        -- exact (values_cos _ _ _ RR V2).
        -- subst rot. rewrite map_map. exact (values_text _ _ V2).
  - destruct RD as (-> & -> & ->). cbn [fill_means] in FM. subst m. change (text_eqb (T "0") (T "0")) with true. cbv iota. eexists. split; [reflexivity|].
    cbn [option_map p_offset p_rot still mo r1 r2 r3]. auto.
Qed.

(** A filled cell is placed as the FILL keyword of its card and the TR cards of the file say; a cell without FILL is not
    moved.  (Missing: the entries of nine and thirteen numbers, see the refutations.) *)
Theorem C82_fill_transformation_partial geom es tail ds ts :
  geom <> [] -> forallb geometric geom = true -> es <> [] -> Forall good_entry es -> NoDup (map kind es) -> spaces tail -> trans_got ds ts ->
  exists k rest, detect_keywords no_keywords (kcard geom es tail) = Some (k, rest) /\
    (forall star v tr m, has_kw (KFill star v tr) es -> fill_means (trs_of ds) star tr m ->
       exists p, universe_placing ts k = Some p /\ placing_means p m) /\
    ((forall star v tr, ~ has_kw (KFill star v tr) es) -> exists p, universe_placing ts k = Some p /\ p_offset p = None /\ p_rot p = None).
Proof.
  intros GN GG EN GE ND TS [_ TG]. destruct (C53_keywords_partial geom es tail GN GG EN GE ND TS) as (k & w & D & _ & KR).
  exists k, (geom ++ w). split; [exact D|]. destruct KR as (_ & _ & F1 & F2 & _). split.
  - intros star v tr m H FM. destruct (F1 _ _ _ H) as [_ RD]. apply (placed_by_card ts (trs_of ds) star tr k m TG RD); [|exact FM].
    destruct tr as [[sep inner]|]; [|exact I]. apply in_map_iff in H as (e & KE & IE). rewrite Forall_forall in GE. destruct (GE e IE) as (_ & _ & _ & G).
    rewrite KE in G. apply G.
  - intro H. destruct (F2 H) as (_ & A & B & C). unfold universe_placing, card_placing. rewrite A, B, C. eexists. split; [reflexivity|]. auto.
Qed.
Print Assumptions C82_fill_transformation_partial.

(** Nine entries are the displacement and two rows; the rows are dropped. *)
Definition card9 : text := T "1 0 -1 fill=5 (0 0 0 0 1 0 -1 0 0)".
Theorem C82_nine_refuted : exists k rest p m,
  detect_keywords no_keywords card9 = Some (k, rest) /\
  fill_means [] false (Some (T " ", T "0 0 0 0 1 0 -1 0 0")) m /\ universe_placing [] k = Some p /\ ~ placing_means p m.
Proof.
  eexists _, _, _, (Motion (Pt 0 0 0) (row_of false 0 1 0) (row_of false (-1) 0 0) (cross_pt (row_of false 0 1 0) (row_of false (-1) 0 0))).
  split; [vm_compute; reflexivity|]. split; [|split; [vm_compute; reflexivity|]].
  - unfold fill_means. set (w := words _). vm_compute in w. subst w. cbv iota.
    exists [0; 0; 0; 0; 1; 0; -1; 0; 0]%R. split; [|constructor]. repeat (constructor; [now apply whole_float|]). constructor.
  - intros [_ H]. cbn [p_rot option_map card_placing k_rot] in H. destruct H as [H _]. cbn [r1 row_of cosine_of] in H. injection H. lra.
Qed.
Print Assumptions C82_nine_refuted.

(** A thirteenth entry -1, which turns the displacement around, is ignored. *)
Definition card13 : text := T "1 0 -1 fill=5 (1 0 0 1 0 0 0 1 0 0 0 1 -1)".
Theorem C82_thirteenth_refuted : exists k rest p m,
  detect_keywords no_keywords card13 = Some (k, rest) /\
  fill_means [] false (Some (T " ", T "1 0 0 1 0 0 0 1 0 0 0 1 -1")) m /\ universe_placing [] k = Some p /\ ~ placing_means p m.
Proof.
  eexists _, _, _, (Motion (Pt (-1) 0 0) (row_of false 1 0 0) (row_of false 0 1 0) (row_of false 0 0 1)).
  split; [vm_compute; reflexivity|]. split; [|split; [vm_compute; reflexivity|]].
  - unfold fill_means. set (w := words _). vm_compute in w. subst w. cbv iota.
    exists [1; 0; 0; 1; 0; 0; 0; 1; 0; 0; 0; 1; -1]%R. split; [repeat (constructor; [now apply whole_float|]); constructor|].
    apply tr13m. unfold to_aux, row_of, cosine_of, dot, sub_pt. cbn [mo r1 r2 r3 px py pz]. f_equal; lra.
  - intros [H _]. cbn [p_offset option_map card_placing k_offset] in H. inversion H as [|? ? ? ? E _]; subst. cbn [uval mo px] in E.
    change (to_float (T "1") = Some (-1)%R) in E. rewrite (whole_float (T "1") 1 eq_refl) in E. injection E. lra.
Qed.
Print Assumptions C82_thirteenth_refuted.

(** A transform card that does not exist is an exception (MCNPInput.py 302), unlike for a surface (MCNPInput.py 289). *)
Theorem C82_missing_transform ts k : k_trid k <> T "0" -> ~ In (k_trid k) (keys ts) -> universe_placing ts k = None.
Proof.
  intros N M. unfold universe_placing. destruct (text_eqb_spec (k_trid k) (T "0")) as [E|_]; [contradiction|].
  destruct (dget (k_trid k) ts) as [t|] eqn:E; [|reflexivity]. exfalso. apply M. exact (dget_keys _ _ _ E).
Qed.
Print Assumptions C82_missing_transform.

(** Cell cards that fill with a TR card, with a displacement, and with angles. *)
Example C82_example :
  let ds := [DTr (T "7") (Motion (Pt 0 0 5) (Pt 1 0 0) (Pt 0 1 0) (Pt 0 0 1))] in
  let ts := [(T "7", mkTr (0, 0, 5) (1, 0, 0) (0, 1, 0) (0, 0, 1))]%R in
  trans_got ds ts /\
  fill_means (trs_of ds) false (Some (T " ", T "7")) (Motion (Pt 0 0 5) (Pt 1 0 0) (Pt 0 1 0) (Pt 0 0 1)) /\
  option_map (fun x => universe_placing ts (fst x)) (detect_keywords no_keywords (T "1 0 -1 fill=5 (7) ")) =
    Some (Some (mkP (Some [UNum 0; UNum 0; UNum 5]) (Some [UNum 1; UNum 0; UNum 0; UNum 0; UNum 1; UNum 0; UNum 0; UNum 0; UNum 1])))%R /\
  option_map (fun x => universe_placing ts (fst x)) (detect_keywords no_keywords (T "1 0 -1 fill=5 (1 2 3) ")) =
    Some (Some (mkP (Some [UText (T "1"); UText (T "2"); UText (T "3")]) None)) /\
  option_map (fun x => universe_placing ts (fst x)) (detect_keywords no_keywords (T "1 0 -1 fill=5 ")) = Some (Some (mkP None None)).
Proof.
  cbv zeta. split; [|split; [|split; [|split]]].
  - split; [intro id; reflexivity|]. intros id m (a & b & E & _). destruct a as [|x [|y a]]; cbn [trs_of flat_map app] in E; [|discriminate|discriminate].
    injection E as <- <- _. eexists. split; reflexivity.
  - split; [discriminate|]. exists [], []. split; [reflexivity|intros []].
  - set (x := detect_keywords _ _). vm_compute in x. subst x. reflexivity.
  - set (x := detect_keywords _ _). vm_compute in x. subst x. reflexivity.
  - set (x := detect_keywords _ _). vm_compute in x. subst x. reflexivity.
Qed.
