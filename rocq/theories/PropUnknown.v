(** Property theorem C97: surface cards of a type that the program does not know (csg2csg/MCNPSurfaceCard.py 266-316, 922-1022,
    csg2csg/__main__.py 74-134). *)
From Coq Require Import QArith Reals List Lia.
From Verif Require Import PyStr PyStrFacts PyInt FortranNumber SurfModel SurfWriters CellWriters FileModel ProcessModel ConvertModel MainModel.
From Verif Require NotsModel.
Import ListNotations.
Open Scope nat_scope.
Open Scope list_scope.

(** The mnemonics that have a meaning in MCNP and that the program gives a type (the cards x, y and z are C21). *)
Definition known : list text :=
  [T "p"; T "px"; T "py"; T "pz"; T "s"; T "so"; T "sx"; T "sy"; T "sz"; T "cx"; T "cy"; T "cz";
   T "c/x"; T "c/y"; T "c/z"; T "kx"; T "ky"; T "kz"; T "k/x"; T "k/y"; T "k/z"; T "tx"; T "ty"; T "tz";
   T "gq"; T "sq"; T "rpp"; T "box"; T "sph"; T "rcc"].
Definition by_points : list text := [T "x"; T "y"; T "z"].

(** Mnemonics of MCNP that are not among them. *)
Definition unsupported : list text := [T "rhp"; T "hex"; T "rec"; T "trc"; T "ell"; T "wed"; T "arb"].

(** One word is a piece of another. *)
Definition piece (a b : text) : Prop := exists u v, b = u ++ a ++ v.

Lemma starts_piece a : forall b, starts_with a b = true -> exists v, b = a ++ v.
Proof.
  induction a as [|x a IH]; intros b H; [now exists b|]. destruct b as [|y b]; [discriminate|]. cbn [starts_with] in H.
  apply andb_true_iff in H as [E H]. apply Ascii.eqb_eq in E. subst y. destruct (IH b H) as (v & ->). now exists v.
Qed.
Lemma sub_piece a b : sub_in a b = true <-> piece a b.
Proof.
  split.
  - induction b as [|y b IH]; intro H; cbn [sub_in] in H.
    + rewrite orb_false_r in H. apply starts_piece in H as (v & E). now exists [], v.
    + apply orb_true_iff in H as [H|H]; [apply starts_piece in H as (v & E); now exists [], v|]. destruct (IH H) as (u & v & ->). now exists (y :: u), v.
  - intros (u & v & ->). induction u as [|y u IH].
    + assert (S : starts_with a (a ++ v) = true).
      { induction a as [|x a IH]; [reflexivity|]. cbn [app starts_with]. now rewrite Ascii.eqb_refl, IH. }
      cbn [app]. destruct (a ++ v) eqn:E; cbn [sub_in]; rewrite S; reflexivity.
    + cbn [app sub_in]. rewrite IH. apply orb_true_r.
Qed.

(** The pieces of a word, as a list. *)
Fixpoint fronts (b : text) : list text := [] :: match b with [] => [] | y :: b' => map (cons y) (fronts b') end.
Fixpoint pieces (b : text) : list text := fronts b ++ match b with [] => [] | _ :: b' => pieces b' end.
Lemma fronts_in a : forall b, starts_with a b = true -> In a (fronts b).
Proof.
  induction a as [|x a IH]; intros b H; [destruct b; now left|]. destruct b as [|y b]; [discriminate|]. cbn [starts_with] in H. apply andb_true_iff in H as [E H].
  apply Ascii.eqb_eq in E. subst y. cbn [fronts]. right. apply in_map. now apply IH.
Qed.
Lemma pieces_in a b : sub_in a b = true -> In a (pieces b).
Proof.
  induction b as [|y b IH]; intro H; cbn [sub_in pieces] in *.
  - rewrite orb_false_r in H. apply in_or_app. left. now apply fronts_in.
  - apply in_or_app. apply orb_true_iff in H as [H|H]; [left; now apply fronts_in|right; auto].
Qed.

(** A card that has been given a type. *)
Definition typed (k : scard) (s : surface) : Prop := s_id s = k_id k /\ s_tr s = k_tr k /\ s_type s <> UNSET.

Lemma reading_typed k n t f s : t <> UNSET -> reading k fresh n t f = Some s -> typed k s.
Proof. intros N H. unfold reading in H. destruct (floats n (k_coef k)); [|discriminate]. injection H as <-. repeat split. exact N. Qed.

(** C97 for the mnemonics that are known: the card is refused (an exception), or the surface has its number, its transform and a
    type. *)
Theorem C97_known k s : In (k_type k) known -> classify_card k fresh = Some s -> typed k s.
Proof.
  destruct k as [id tr ty l]. cbn [k_type]. intros I H.
  assert (B : forall s, classify_box (mkCard id tr (T "box") l) fresh = Some s -> typed (mkCard id tr (T "box") l) s).
  { clear. intros s H. unfold classify_box in H. cbn [k_coef] in H. destruct (floats 12 l) as [x|]; [|discriminate].
    do 12 (destruct x as [|? x]; try discriminate). destruct x; [|discriminate]. destruct (_ && _); injection H as <-; repeat split; discriminate. }
  assert (P : forall s, classify_general_planes (mkCard id tr (T "p") l) fresh = Some s -> typed (mkCard id tr (T "p") l) s).
  { clear. intros s H. unfold classify_general_planes in H. destruct (Nat.eqb _ 9); [|destruct (Nat.eqb _ 4); [|discriminate]]; revert H; apply reading_typed; discriminate. }
  repeat (destruct I as [<-|I]; [
    first [exact (P s H) | exact (B s H) | (apply reading_typed in H; [exact H|discriminate])]|]).
  destruct I.
Qed.
Print Assumptions C97_known.

Lemma known_in l m : forallb (fun x => existsb (text_eqb x) (known ++ by_points)) l = true -> In m l -> In m (known ++ by_points).
Proof.
  intros F I. rewrite forallb_forall in F. specialize (F m I). apply existsb_exists in F as (x & IX & E). destruct (text_eqb_spec m x) as [->|]; [exact IX|discriminate].
Qed.

(** C97 for the mnemonics that are not: a card whose mnemonic is no piece of one that is known is never refused, and what is read is
    a surface with the number 0 and without a type. *)
Theorem C97_unknown k : (forall m, In m (known ++ by_points) -> ~ piece (k_type k) m) -> classify_card k fresh = Some fresh.
Proof.
  intro H. unfold classify_card.
  assert (X : forall l, (forall m, In m l -> In m (known ++ by_points)) -> existsb (sub_in (k_type k)) l = false).
  { induction l as [|m l IH]; intro S; [reflexivity|]. cbn [existsb]. rewrite IH by (intros; apply S; now right).
    destruct (sub_in (k_type k) m) eqn:E; [|reflexivity]. apply sub_piece in E. elim (H m); [apply S; now left|exact E]. }
  rewrite !X; [reflexivity| |]; [intros m I; apply known_in with (l := mcnp_macro_types)|intros m I; apply known_in with (l := mcnp_surface_types)]; try exact I; vm_compute; reflexivity.
Qed.
Print Assumptions C97_unknown.

(** The pieces of the words of a list that are not known themselves. *)
Definition only_pieces (l : list text) : list text := filter (fun w => negb (existsb (text_eqb w) (known ++ by_points))) (nodup (list_eq_dec Ascii.ascii_dec) (flat_map pieces l)).
Lemma only_pieces_in w l m : ~ In w (known ++ by_points) -> In m l -> sub_in w m = true -> In w (only_pieces l).
Proof.
  intros N I S. apply filter_In. split; [apply nodup_In, in_flat_map; exists m; split; [exact I|now apply pieces_in]|].
  apply negb_true_iff. destruct (existsb _ _) eqn:E; [|reflexivity]. apply existsb_exists in E as (x & IX & E). destruct (text_eqb_spec w x) as [->|]; [tauto|discriminate].
Qed.

(** C97, every card: it is refused, or the mnemonic is known and the surface has its number and a type, or what is read is the
    surface with the number 0 and without a type. *)
Theorem C97_cards k : ~ In (k_type k) (known ++ by_points) -> classify_card k fresh = None \/ classify_card k fresh = Some fresh.
Proof.
  intro NK. unfold classify_card. destruct (existsb (sub_in (k_type k)) mcnp_surface_types) eqn:E.
  - apply existsb_exists in E as (m & IM & S). assert (I := only_pieces_in _ _ _ NK IM S). clear m IM S.
    destruct k as [id tr ty l]. cbn [k_type] in *.
    assert (ED : forall ty, ~ In ty by_points -> classify_edp (mkCard id tr ty l) fresh = None \/ classify_edp (mkCard id tr ty l) fresh = Some fresh).
    { clear. intros ty N. unfold classify_edp. cbn [k_type k_coef]. destruct (text_eqb_spec ty (T "x")) as [->|_]; [elim N; now left|]. destruct (text_eqb_spec ty (T "y")) as [->|_]; [elim N; right; now left|].
      destruct (text_eqb_spec ty (T "z")) as [->|_]; [elim N; right; right; now left|]. cbn [orb].
      destruct (Nat.eqb (length l) 2); [destruct (floats 2 l); auto|]. destruct (Nat.eqb (length l) 4); [|auto]. destruct (floats 4 l) as [[|? [|? [|? [|? [|]]]]]|]; auto. }
    vm_compute in I.
    repeat (destruct I as [<-|I]; [
      first [ right; reflexivity
            | (match goal with |- context [classify_surface_types ?k fresh] => change (classify_surface_types k fresh) with (classify_edp k fresh) end; apply ED; vm_compute; intuition discriminate)
            | (match goal with |- context [classify_surface_types ?k fresh] => change (classify_surface_types k fresh) with (classify_cone_parallel k fresh) end;
               unfold classify_cone_parallel; cbn [k_coef]; cbv zeta; match goal with |- context [floats ?n l] => destruct (floats n l) as [?|]; [right|left]; reflexivity end) ]|]).
    destruct I.
  - destruct (existsb (sub_in (k_type k)) mcnp_macro_types) eqn:E2; [|now right].
    apply existsb_exists in E2 as (m & IM & S). assert (I := only_pieces_in _ _ _ NK IM S). clear m IM S.
    destruct k as [id tr ty l]. cbn [k_type] in *. vm_compute in I.
    repeat (destruct I as [<-|I]; [first [left; reflexivity | discriminate E]|]). destruct I.
Qed.
Print Assumptions C97_cards.

(** The macrobodies of MCNP that the program does not support are among the cards of C97_unknown. *)
Corollary C97_macrobodies k : In (k_type k) unsupported -> classify_card k fresh = Some fresh.
Proof.
  intro I. apply C97_unknown. intros m IM P. apply sub_piece in P.
  assert (H : existsb (fun w => existsb (sub_in w) (known ++ by_points)) unsupported = false) by (vm_compute; reflexivity).
  apply Bool.not_true_iff_false in H. apply H. apply existsb_exists. exists (k_type k). split; [exact I|]. apply existsb_exists. now exists m.
Qed.
Print Assumptions C97_macrobodies.

(** What is left of a cone card whose mnemonic lost its letter: it is refused exactly when an entry is not a number. *)
Lemma floats_ok n : forall l, (exists x, floats n l = Some x) <-> n <= length l /\ Forall (fun w => py_float w <> None) (firstn n l).
Proof.
  induction n as [|n IH]; intro l; cbn [floats firstn]; [split; [split; [lia|constructor]|eauto]|]. destruct l as [|w l]; [split; [intros (x & E); discriminate|cbn [length]; lia]|].
  unfold to_float. destruct (py_float w) as [q|] eqn:E; [|split; [intros (x & H); discriminate|intros (_ & H); inversion H; tauto]].
  cbn [length]. split.
  - intros (x & H). destruct (floats n l) as [y|] eqn:F; [|discriminate]. destruct (proj1 (IH l)) as [A B]; [eauto|]. split; [lia|]. constructor; [congruence|exact B].
  - intros (A & B). inversion B as [|? ? _ B']; subst. destruct (proj2 (IH l)) as (y & ->); [split; [lia|exact B']|eauto].
Qed.
Theorem C97_cut id tr l : let n := if Nat.eqb (length l) 5 then 5 else 4 in
  (classify_card (mkCard id tr (T "k/") l) fresh = Some fresh <-> n <= length l /\ Forall (fun w => py_float w <> None) (firstn n l)) /\
  (classify_card (mkCard id tr (T "k/") l) fresh = None <-> ~ (n <= length l /\ Forall (fun w => py_float w <> None) (firstn n l))).
Proof.
  intro n. change (classify_card (mkCard id tr (T "k/") l) fresh) with (match floats n l with Some _ => Some fresh | None => None end).
  assert (H := floats_ok n l). destruct (floats n l) as [x|].
  - split; [split; [intros _; apply H; eauto|reflexivity]|]. split; [discriminate|]. intro C. elim C. apply H. eauto.
  - assert (N : ~ (n <= length l /\ Forall (fun w => py_float w <> None) (firstn n l))) by (intro B; destruct (proj2 H B) as (x & E); discriminate).
    split; [split; [discriminate|tauto]|split; [intros _; exact N|reflexivity]].
Qed.
Print Assumptions C97_cut.

(** ** The whole program *)

Definition uline (s : String.string) : text := T s ++ [newline].
(** The inside and the outside of an ellipsoid. *)
Definition file97 : text :=
  uline "title" ++ uline "1 0 -5 imp:n=1" ++ uline "2 0 5 imp:n=1" ++ uline "" ++ uline "5 ell 1 0 0 2 0 0 3" ++ uline "" ++ uline "nps 10".
Definition written97 : text :=
  uline "C cell definitions" ++ uline "1 0 -5 IMP:N=1.0" ++ uline "2 0 5 IMP:N=1.0" ++ uline "" ++ uline "C surface definitions" ++ uline "0 Unknown surface type" ++
  uline "C material definitions".

(** C97 is refuted: the ellipsoid is read without an exception, and the file that is written has no surface 5, a line that is no
    card and no blank line between the surfaces and the rest, whatever the mode. *)
Theorem C97_refuted : exists s d, forall str quick, program str (fun _ => T "1.0") 100 (fun _ => []) (fun _ => []) quick [MCNP] s = NotsModel.Done ([(MCNP, File written97)], Some d) /\
  map fst (d_surfs d) = [fresh] /\ map g_text (d_cells d) = [[T "-5"]; [T "5"]].
Proof. exists file97. eexists. intros str [|]; vm_compute; repeat split; reflexivity. Qed.
Print Assumptions C97_refuted.

(** The same card with a cell of importance 0 outside: then the surface is missed, and the program ends with an exception. *)
Definition grave97 : text :=
  uline "title" ++ uline "1 0 -5 imp:n=1" ++ uline "2 0 5 imp:n=0" ++ uline "" ++ uline "5 ell 1 0 0 2 0 0 3" ++ uline "" ++ uline "nps 10".
Theorem C97_graveyard str quick : program str (fun _ => T "1.0") 100 (fun _ => []) (fun _ => []) quick [MCNP] grave97 = NotsModel.Raised.
Proof. destruct quick; vm_compute; reflexivity. Qed.
Print Assumptions C97_graveyard.

(** The cards of the theorems above. *)
Example C97_examples : classify_card (mkCard 7 None (T "ell") (map T ["1"; "2"]%string)) fresh = Some fresh /\
  (exists s, classify_card (mkCard 7 None (T "so") [T "2"]) fresh = Some s /\ s_id s = 7%Z) /\ classify_card (mkCard 7 None (T "rp") []) fresh = None /\
  classify_card (mkCard 7 None (T "k/") (map T ["1"; "2"; "3"; "4"]%string)) fresh = Some fresh /\ classify_card (mkCard 7 None (T "k/") (map T ["1"; "2"; "3"]%string)) fresh = None.
Proof.
  split; [apply C97_macrobodies; cbn; tauto|]. split; [eexists; split; reflexivity|]. split; [reflexivity|]. split.
  - apply C97_cut. split; [cbn; lia|]. cbn [length Nat.eqb firstn map]. repeat constructor; vm_compute; discriminate.
  - apply C97_cut. cbn [length Nat.eqb map]. lia.
Qed.
