(** Property theorem C99: surface cards that name a transform which the file does not have (csg2csg/MCNPInput.py 281-291,
    csg2csg/MCNPSurfaceCard.py 50-61, 990-1022, csg2csg/__main__.py 74-134). *)
From Coq Require Import QArith Reals List Lia Lra.
From Verif Require Import PyStr PyInt FortranNumber GeomSpec SurfModel SurfSpec SurfProofs SurfWriters CellWriters FileModel ProcessModel ConvertModel MainModel.
From Verif Require NotsModel.
Import ListNotations.
Open Scope R_scope.
Open Scope list_scope.

(** C99 is false of every surface, except for macrobodies and cones cut to one sheet: with a transform that is not in the file
    there is no exception, and what is kept is the surface without the transform, with its number and its boundary condition. *)
Theorem C99_missing cards s sn id : surf_sense s = Some sn -> ~ sheeted s -> is_macrobody s = false -> s_tr s = Some id -> cards id = None ->
  exists s', apply_transform cards s = Some s' /\ s_id s' = s_id s /\ s_bc s' = s_bc s /\ denotes s' sn.
Proof.
  intros S N M E C. destruct (generalise_sense s sn S N) as (s' & G & A & _ & B & D & _). exists s'. unfold apply_transform. rewrite E, M, G, C. auto.
Qed.
Print Assumptions C99_missing.

(** ** The whole program *)

Definition uline (s : String.string) : text := T s ++ [newline].
(** A slab between two planes. *)
Definition file99 (a b c : String.string) : text :=
  uline "title" ++ uline "1 0 5 -6 imp:n=1" ++ uline "2 0 -5 : 6 imp:n=1" ++ uline "" ++ uline a ++ uline b ++ uline "" ++ uline c ++ uline "nps 10".

(** The half spaces of the plane x = a. *)
Definition plane_x (a : R) : sense := of_fun (fun p => px p - a).

(** The surfaces of a deck are the planes x = -1 and x = 1, both without a boundary condition. *)
Definition two_planes (o : NotsModel.outcome deck) : Prop :=
  exists d s s', o = NotsModel.Done d /\ map fst (d_surfs d) = [s; s'] /\ s_id s = 5%Z /\ s_id s' = 6%Z /\
    s_bc s = TRANSMISSION /\ s_bc s' = TRANSMISSION /\ denotes s (plane_x (-1)) /\ denotes s' (plane_x 1).

Lemma denotes_x id tr bc a b : (b = - a) -> denotes (mkS id tr GENERAL_QUADRATIC [0; 0; 0; 0; 0; 0; 1; 0; 0; b] bc) (plane_x a).
Proof.
  intros ->. eexists. split; [reflexivity|]. intros p. unfold plane_x, of_fun, quadric. cbn [neg pos]. split; split; intro H; lra.
Qed.
Lemma denotes_px id tr bc a b : (b = a) -> denotes (mkS id tr PLANE_X [1; 0; 0; b] bc) (plane_x a).
Proof.
  intros ->. eexists. split; [reflexivity|]. intros p. unfold plane_x, of_fun, plane. cbn [neg pos]. split; split; intro H; lra.
Qed.
Ltac planes := do 3 eexists; split; [vm_compute; reflexivity|]; split; [reflexivity|]; do 4 (split; [reflexivity|]);
  split; first [apply denotes_x | apply denotes_px]; lra.

(** C99 is refuted, in whole files: the plane 5 names the transform 7, and there is no TR7; *)
Theorem C99_refuted : exists s, forall str show, two_planes (load str show 100 true s).
Proof. exists (file99 "5 7 px -1" "6 px 1" "tr1 5 0 0"). intros. planes. Qed.
Print Assumptions C99_refuted.

(** the plane 5 names the transform 01, and TR1 is there, which would move it to x = 4, but numbers are compared as texts; *)
Theorem C99_spelling_refuted : exists s, forall str show, two_planes (load str show 100 true s).
Proof. exists (file99 "5 01 px -1" "6 px 1" "tr1 5 0 0"). intros. planes. Qed.
Print Assumptions C99_spelling_refuted.

(** and the planes 5 and 6 are declared periodic to each other, which is written with a negative number in the place of the
    transform, and are not. *)
Theorem C99_periodic_refuted : exists s, forall str show, two_planes (load str show 100 true s).
Proof. exists (file99 "5 -6 px -1" "6 -5 px 1" "tr1 5 0 0"). intros. planes. Qed.
Print Assumptions C99_periodic_refuted.

(** One sheet of a cone with a transform that is missing becomes both. *)
Theorem C99_sheet_refuted : exists s s' id sn, surf_sense s = Some sn /\ s_tr s = Some id /\ apply_transform (fun _ => None) s = Some s' /\ ~ denotes s' sn.
Proof.
  exists (mkS 1 (Some (T "7")) CONE_Z [0; 0; 0; 1; 1] TRANSMISSION). do 3 eexists. split; [reflexivity|]. split; [reflexivity|]. split; [reflexivity|].
  intros (sn' & E & H). unfold surf_sense in E. cbn [s_type s_coef set_tc sem] in E. injection E as <-.
  destruct (H (Pt 0 0 (-1))) as [H1 _]. cbn [neg of_fun one_sheet] in H1.
  destruct H1 as [H1 _]. unfold quadric, cone_z in H1. cbn [px py pz] in H1.
  destruct H1 as [_ H1]; [lra|]. specialize (H1 ltac:(lra)). lra.
Qed.
Print Assumptions C99_sheet_refuted.

(** A sphere that names a missing transform. *)
Example C99_missing_example : exists s', apply_transform (fun _ => None) (mkS 3 (Some (T "8")) SPHERE_GENERAL [1; 2; 3; 4] TRANSMISSION) = Some s' /\
  s_id s' = 3%Z /\ denotes s' (of_fun (sphere 1 2 3 4)).
Proof.
  destruct (C99_missing (fun _ => None) (mkS 3 (Some (T "8")) SPHERE_GENERAL [1; 2; 3; 4] TRANSMISSION) (of_fun (sphere 1 2 3 4)) (T "8")) as (s' & A & B & _ & D);
    [reflexivity|now cbn|reflexivity..|eauto].
Qed.
