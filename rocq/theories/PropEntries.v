(** C101: surface cards with too few or too many entries (csg2csg/MCNPSurfaceCard.py 319-919).  C25: the planes of an RPP. *)
From Coq Require Import Reals Lra String.
From Verif Require Import PyStr PyInt FortranNumber SurfModel MacroModel.
From Verif Require Import PropMacro.
From Verif Require PropSurf PropUnknown.
Open Scope R_scope.
Open Scope list_scope.

(** ** Specification *)

(** The number of entries of the cards of the MCNP manual that have a fixed number, apart from P. *)
Definition fixed : list (string * nat) :=
  [("px", 1); ("py", 1); ("pz", 1); ("so", 1); ("s", 4); ("sx", 2); ("sy", 2); ("sz", 2); ("c/x", 3); ("c/y", 3); ("c/z", 3); ("cx", 1); ("cy", 1); ("cz", 1);
   ("gq", 10); ("sq", 10); ("tx", 6); ("ty", 6); ("tz", 6); ("rpp", 6); ("box", 12); ("sph", 4); ("rcc", 7)]%string%nat.
(** Cones: this number, or one more for the sheet. *)
Definition cones : list (string * nat) := [("kx", 2); ("ky", 2); ("kz", 2); ("k/x", 4); ("k/y", 4); ("k/z", 4)]%string%nat.

(** ** Proof *)

Lemma floats_short : forall n l, (length l < n)%nat -> floats n l = None.
Proof.
  intros n l H. destruct (floats n l) as [x|] eqn:E; [|reflexivity]. exfalso. assert (K := proj1 (PropUnknown.floats_ok n l) (ex_intro _ x E)). lia.
Qed.
Lemma floats_more : forall n l e, (n <= length l)%nat -> floats n (l ++ e) = floats n l.
Proof.
  induction n as [|n IH]; intros [|w l] e H; try reflexivity; [cbn in H; lia|]. cbn [app floats]. rewrite IH by (cbn in H; lia). reflexivity.
Qed.

(** What is read depends on the first entries only. *)
Lemma fixed_shape m n id tr : In (m, n) fixed -> exists F : option (list R) -> option surface, F None = None /\ forall l, classify_card (mkCard id tr (T m) l) fresh = F (floats n l).
Proof.
  assert (RD : forall m n, (exists ty f, forall l, classify_card (mkCard id tr (T m) l) fresh = reading (mkCard id tr (T m) l) fresh n ty f) ->
    exists F : option (list R) -> option surface, F None = None /\ forall l, classify_card (mkCard id tr (T m) l) fresh = F (floats n l)).
  { clear. intros m n (ty & f & H). exists (fun o => match o with Some x => Some (set_type fresh id tr ty (f x)) | None => None end). split; [reflexivity|]. intro l. rewrite H. reflexivity. }
  intro I. repeat (destruct I as [E|I]; [injection E as <- <-; first [apply RD; do 2 eexists; intro l; reflexivity|idtac]|]); [|destruct I].
  exists (fun o => match o with Some [vx; vy; vz; a1x; a1y; a1z; a2x; a2y; a2z; a3x; a3y; a3z] =>
      if Reqb a1y 0 && Reqb a1z 0 && Reqb a2x 0 && Reqb a2z 0 && Reqb a3x 0 && Reqb a3y 0
      then Some (set_type fresh id tr MACRO_RPP [vx; vx + a1x; vy; vy + a2y; vz; vz + a3z])
      else Some (set_type fresh id tr MACRO_BOX [vx; vy; vz; a1x; a1y; a1z; a2x; a2y; a2z; a3x; a3y; a3z]) | _ => None end).
  split; [reflexivity|]. intro l. reflexivity.
Qed.
Lemma cone_shape m n id tr : In (m, n) cones -> exists F : option (list R) -> option surface, F None = None /\
  forall l, classify_card (mkCard id tr (T m) l) fresh = F (floats (if Nat.eqb (length l) (S n) then S n else n) l).
Proof.
  assert (RD : forall m n, (exists ty f, forall l, classify_card (mkCard id tr (T m) l) fresh = reading (mkCard id tr (T m) l) fresh (if Nat.eqb (length l) (S n) then S n else n) ty f) ->
    exists F : option (list R) -> option surface, F None = None /\ forall l, classify_card (mkCard id tr (T m) l) fresh = F (floats (if Nat.eqb (length l) (S n) then S n else n) l)).
  { clear. intros m n (ty & f & H). exists (fun o => match o with Some x => Some (set_type fresh id tr ty (f x)) | None => None end). split; [reflexivity|]. intro l. rewrite H. reflexivity. }
  intro I. repeat (destruct I as [E|I]; [injection E as <- <-; apply RD; do 2 eexists; intro l; reflexivity|]). destruct I.
Qed.

Lemma read_card t id tr m toks : PropSurf.card_text t id tr m toks -> py_float (T m) = None -> read_surface t = classify_card (mkCard id tr (T m) toks) fresh.
Proof. intros C NF. unfold read_surface. now rewrite (PropSurf.card_text_card t id tr m toks C NF). Qed.
Lemma no_number m n : In (m, n) (fixed ++ cones) -> py_float (T m) = None.
Proof. intro I. repeat (destruct I as [E|I]; [injection E as <- <-; reflexivity|]). destruct I. Qed.

(** C101: a card with fewer entries than its type has is an exception. *)
Theorem C101_few t id tr m n toks : In (m, n) (fixed ++ cones) -> PropSurf.card_text t id tr m toks -> (length toks < n)%nat -> read_surface t = None.
Proof.
  intros I C H. rewrite (read_card _ _ _ _ _ C (no_number m n I)). apply in_app_iff in I as [I|I].
  - destruct (fixed_shape m n id tr I) as (F & FN & E). now rewrite E, floats_short.
  - destruct (cone_shape m n id tr I) as (F & FN & E). rewrite E. destruct (Nat.eqb_spec (length toks) (S n)); [lia|]. now rewrite floats_short.
Qed.
Print Assumptions C101_few.

(** C101 for planes: with neither four nor nine entries it is an exception. *)
Theorem C101_plane t id tr toks : PropSurf.card_text t id tr "p" toks -> length toks <> 4%nat -> length toks <> 9%nat -> read_surface t = None.
Proof.
  intros C N4 N9. rewrite (read_card _ _ _ _ _ C eq_refl).
  change (classify_card (mkCard id tr (T "p") toks) fresh) with (classify_general_planes (mkCard id tr (T "p") toks) fresh). unfold classify_general_planes. cbn [k_coef].
  destruct (Nat.eqb_spec (length toks) 9); [contradiction|]. destruct (Nat.eqb_spec (length toks) 4); [contradiction|reflexivity].
Qed.
Print Assumptions C101_plane.

(** C101 is refuted for every other card with too many entries: what is read is what is read without the last ones, whatever they are
    (they need not be numbers). *)
Theorem C101_more t t' id tr m n toks extra : In (m, n) fixed -> length toks = n -> PropSurf.card_text t id tr m toks -> PropSurf.card_text t' id tr m (toks ++ extra) ->
  read_surface t' = read_surface t.
Proof.
  intros I L C C'. assert (NF := no_number m n (in_or_app _ _ _ (or_introl I))). rewrite (read_card _ _ _ _ _ C NF), (read_card _ _ _ _ _ C' NF).
  destruct (fixed_shape m n id tr I) as (F & _ & E). rewrite !E, floats_more by lia. reflexivity.
Qed.
Print Assumptions C101_more.

(** Of a cone with too many entries not even the sheet is read: it becomes the cone of both sheets. *)
Theorem C101_more_cone t t' id tr m n toks sheet e extra : In (m, n) cones -> length toks = n -> PropSurf.card_text t id tr m toks ->
  PropSurf.card_text t' id tr m (toks ++ sheet :: e :: extra) -> read_surface t' = read_surface t.
Proof.
  intros I L C C'. assert (NF := no_number m n (in_or_app _ _ _ (or_intror I))). rewrite (read_card _ _ _ _ _ C NF), (read_card _ _ _ _ _ C' NF).
  destruct (cone_shape m n id tr I) as (F & _ & E). rewrite !E. rewrite app_length. cbn [length].
  destruct (Nat.eqb_spec (length toks + S (S (length extra))) (S n)); [lia|]. destruct (Nat.eqb_spec (length toks) (S n)); [lia|]. now rewrite floats_more by lia.
Qed.
Print Assumptions C101_more_cone.

(** Of a card X, Y or Z with one entry, three, or more than four, a surface without a number and a type is made. *)
Theorem C101_points t id tr m toks : In m ["x"; "y"; "z"]%string -> PropSurf.card_text t id tr m toks -> length toks <> 2%nat -> length toks <> 4%nat ->
  read_surface t = Some fresh /\ s_id fresh = 0%Z /\ s_type fresh = UNSET.
Proof.
  intros I C N2 N4. split; [|now split]. assert (NF : py_float (T m) = None) by (repeat (destruct I as [<-|I]; [reflexivity|]); destruct I).
  rewrite (read_card _ _ _ _ _ C NF). replace (classify_card (mkCard id tr (T m) toks) fresh) with (classify_edp (mkCard id tr (T m) toks) fresh)
    by (repeat (destruct I as [<-|I]; [reflexivity|]); destruct I).
  unfold classify_edp. cbn [k_coef]. destruct (Nat.eqb_spec (length toks) 2); [contradiction|]. destruct (Nat.eqb_spec (length toks) 4); [contradiction|reflexivity].
Qed.
Print Assumptions C101_points.

Lemma card_of t id m toks : ~ In "$"%char t -> (exists w, words t = w :: T m :: toks /\ py_int w = Some id /\ ~ In "*"%char w) -> PropSurf.card_text t id None m toks.
Proof. intros D (w & W & P & S). split; [exact D|]. exists w. now repeat split. Qed.
Ltac card := apply card_of; [vm_compute; intuition discriminate|eexists; split; [reflexivity|]; split; [reflexivity|vm_compute; intuition discriminate]].

(** A sphere with two radii, and the upper sheet of a cone with one number too many. *)
Theorem C101_refuted : (exists s, read_surface (T "5 so 3 4") = Some s /\ s_id s = 5%Z /\ s_type s = SPHERE_GENERAL /\ s_coef s = [0; 0; 0; 3]) /\
  (exists s, read_surface (T "5 kz 2 1 1 7") = Some s /\ s_id s = 5%Z /\ s_type s = CONE_Z /\ s_coef s = [0; 0; 2; 1; 0]).
Proof.
  split.
  - rewrite (C101_more (T "5 so 3") (T "5 so 3 4") 5 None "so" 1 [T "3"] [T "4"]) by (solve [cbn; tauto] || card).
    assert (RD : PropSurf.reads [T "3"] [3]) by real_tokens. assert (C : PropSurf.card_text (T "5 so 3") 5 None "so" [T "3"]) by card.
    rewrite (read_card _ _ _ _ _ C eq_refl). apply PropSurf.reads_floats in RD. cbn [length] in RD.
    change (classify_card (mkCard 5 None (T "so") [T "3"]) fresh) with (reading (mkCard 5 None (T "so") [T "3"]) fresh 1 SPHERE_GENERAL (fun l => [0; 0; 0; c_ l 0])).
    unfold reading. cbn [k_coef]. rewrite RD. eexists. split; [reflexivity|]. now repeat split.
  - rewrite (C101_more_cone (T "5 kz 2 1") (T "5 kz 2 1 1 7") 5 None "kz" 2 [T "2"; T "1"] (T "1") (T "7") []) by (solve [cbn; tauto] || card).
    assert (RD : PropSurf.reads [T "2"; T "1"] [2; 1]) by real_tokens. assert (C : PropSurf.card_text (T "5 kz 2 1") 5 None "kz" [T "2"; T "1"]) by card.
    rewrite (read_card _ _ _ _ _ C eq_refl). apply PropSurf.reads_floats in RD. cbn [length] in RD.
    change (classify_card (mkCard 5 None (T "kz") [T "2"; T "1"]) fresh) with (reading (mkCard 5 None (T "kz") [T "2"; T "1"]) fresh 2 CONE_Z (fun l => [0; 0; c_ l 0; c_ l 1; c_ l 2])).
    unfold reading. cbn [k_coef]. rewrite RD. eexists. split; [reflexivity|]. now repeat split.
Qed.
Print Assumptions C101_refuted.

(** Cards that meet the hypotheses: one entry too few, five entries of a plane, one of a card of points. *)
Example C101_example : PropSurf.card_text (T "7 c/z 1 2") 7 None "c/z" [T "1"; T "2"] /\ read_surface (T "7 c/z 1 2") = None /\
  PropSurf.card_text (T "7 p 1 2 3 4 5") 7 None "p" [T "1"; T "2"; T "3"; T "4"; T "5"] /\ read_surface (T "7 p 1 2 3 4 5") = None /\
  PropSurf.card_text (T "7 x 1") 7 None "x" [T "1"] /\ read_surface (T "7 x 1") = Some fresh.
Proof.
  assert (C1 : PropSurf.card_text (T "7 c/z 1 2") 7 None "c/z" [T "1"; T "2"]) by card.
  assert (C2 : PropSurf.card_text (T "7 p 1 2 3 4 5") 7 None "p" [T "1"; T "2"; T "3"; T "4"; T "5"]) by card.
  assert (C3 : PropSurf.card_text (T "7 x 1") 7 None "x" [T "1"]) by card.
  split; [exact C1|]. split; [apply (C101_few _ 7 None "c/z" 3 [T "1"; T "2"]); [cbn; tauto|exact C1|cbn; lia]|].
  split; [exact C2|]. split; [apply (C101_plane _ 7 None _ C2); discriminate|].
  split; [exact C3|]. apply (C101_points _ 7 None "x" [T "1"]); [cbn; tauto|exact C3|discriminate|discriminate].
Qed.

(** ** The planes that an RPP is replaced by *)

(** C25: each of them is exactly what the reader makes of the card that the program builds for it. *)
Theorem C25_cards t n w d : PropSurf.reads [w] [d] ->
  (PropSurf.card_text t n None "px" [w] -> read_surface t = Some (new_px n d)) /\
  (PropSurf.card_text t n None "py" [w] -> read_surface t = Some (new_py n d)) /\
  (PropSurf.card_text t n None "pz" [w] -> read_surface t = Some (new_pz n d)).
Proof.
  intro RD. apply PropSurf.reads_floats in RD. cbn [length] in RD.
  assert (K : forall m ty f, py_float (T m) = None -> classify_card (mkCard n None (T m) [w]) fresh = reading (mkCard n None (T m) [w]) fresh 1 ty f ->
    PropSurf.card_text t n None m [w] -> read_surface t = Some (mkS n None ty (f [d]) TRANSMISSION)).
  { intros m ty f NF E C. rewrite (read_card _ _ _ _ _ C NF), E. unfold reading. cbn [k_coef]. rewrite RD. reflexivity. }
  split; [|split]; intro C; [apply (K "px"%string PLANE_X (fun l => [1; 0; 0; c_ l 0]))|apply (K "py"%string PLANE_Y (fun l => [0; 1; 0; c_ l 0]))|apply (K "pz"%string PLANE_Z (fun l => [0; 0; 1; c_ l 0]))];
    (reflexivity || exact C).
Qed.
Print Assumptions C25_cards.
Example C25_cards_example : PropSurf.reads [T "3"] [3] /\ PropSurf.card_text (T "11 py 3") 11 None "py" [T "3"] /\ read_surface (T "11 py 3") = Some (new_py 11 3).
Proof.
  assert (RD : PropSurf.reads [T "3"] [3]) by real_tokens. assert (C : PropSurf.card_text (T "11 py 3") 11 None "py" [T "3"]) by card.
  split; [exact RD|]. split; [exact C|]. now apply (C25_cards _ 11 (T "3") 3 RD).
Qed.
