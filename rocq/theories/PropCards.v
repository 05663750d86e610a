(** C83 with what is asked of the surfaces stated on the cards (csg2csg/MCNPSurfaceCard.py 1025-1095, SurfaceCard.py 322-341). *)
From Coq Require Import QArith Reals Lra Lia Psatz.
From Verif Require Import PyStr PyStrFacts PyInt PyDict FortranNumber SurfModel GeomSpec SurfSpec SurfProofs PropSurf PropTransform
  FlattenModel NotsModel MacroModel MacroSpec KeywordModel DeckScan FileModel PropKeyword PropDeck ProcessModel PropProcess PropRead ConvertModel MainModel PropMain.
Open Scope nat_scope.
Open Scope list_scope.

(** ** What is asked of the surface cards *)

(** The words of a surface card: mnemonic and entries. *)
Definition spells (ws : list text) (tr : option text) (m : string) (vals : list R) : Prop :=
  exists idtok toks, match tr with None => ws = idtok :: T m :: toks | Some n => ws = idtok :: n :: T m :: toks end /\ reads toks vals.

(** A cone cut to one sheet; a torus without a radius. *)
Inductive cut : string -> list R -> Prop :=
| cut_kpx x y z t s : cut "k/x" [x; y; z; t; s]
| cut_kpy x y z t s : cut "k/y" [x; y; z; t; s]
| cut_kpz x y z t s : cut "k/z" [x; y; z; t; s]
| cut_kx x t s : cut "kx" [x; t; s]
| cut_ky x t s : cut "ky" [x; t; s]
| cut_kz x t s : cut "kz" [x; t; s].
Definition torus_card (m : string) : Prop := m = "tx"%string \/ m = "ty"%string \/ m = "tz"%string.

(** The determinants of a motion and of the second-order part of a quadric. *)
Definition det3 (a1 a2 a3 b1 b2 b3 c1 c2 c3 : R) : R := (a1 * (b2 * c3 - b3 * c2) - a2 * (b1 * c3 - b3 * c1) + a3 * (b1 * c2 - b2 * c1))%R.
Definition det_of (m : motion) : R := dot (r1 m) (cross_pt (r2 m) (r3 m)).

(** Surfaces that may be moved: planes, spheres, cylinders and macrobodies; cones with both sheets and quadrics if neither
    they nor the motion are degenerate. *)
Inductive movable (m : motion) : string -> list R -> Prop :=
| mv_plain n vals : In n ["px"; "py"; "pz"; "p"; "so"; "s"; "sx"; "sy"; "sz"; "sph"; "c/x"; "c/y"; "c/z"; "cx"; "cy"; "cz"; "rpp"; "box"; "rcc"]%string -> movable m n vals
| mv_cone n x y z t : In n ["k/x"; "k/y"; "k/z"]%string -> det_of m <> 0%R -> movable m n [x; y; z; t]
| mv_cone0 n x t : In n ["kx"; "ky"; "kz"]%string -> det_of m <> 0%R -> movable m n [x; t]
| mv_sq0 a b c rest : (0 <= a)%R -> (0 <= b)%R -> (0 <= c)%R -> movable m "sq" (a :: b :: c :: rest)
| mv_sq a b c rest : det_of m <> 0%R -> (a * b * c <> 0)%R -> movable m "sq" (a :: b :: c :: rest)
| mv_gq a b c d e f rest : det_of m <> 0%R -> (det3 a (d / 2) (f / 2) (d / 2) b (e / 2) (f / 2) (e / 2) c <> 0)%R -> movable m "gq" (a :: b :: c :: d :: e :: f :: rest).

(** What is asked of a surface card with transform [tr] and these words: nothing that is handled wrongly may happen to it.
    Cones cut to one sheet and tori must not be moved (C22, C24) nor, when duplicates are removed, be there (C16), except
    tori with a radius. *)
Definition fine_words (quick : bool) (trs : list (text * motion)) (tr : option text) (ws : list text) : Prop :=
  forall m vals, spells ws tr m vals ->
    (forall id mo, tr = Some id -> last_for id trs mo -> movable mo m vals) /\
    (quick = true \/ (~ cut m vals /\ (torus_card m -> 0 < nth 5 vals 1)%R)).

(** ** How a card is stored *)

Inductive stored : string -> list R -> stype -> list R -> Prop :=
| st_px d : stored "px" [d] PLANE_X [1; 0; 0; d]%R
| st_py d : stored "py" [d] PLANE_Y [0; 1; 0; d]%R
| st_pz d : stored "pz" [d] PLANE_Z [0; 0; 1; d]%R
| st_p a b c d : stored "p" [a; b; c; d] PLANE_GENERAL [a; b; c; d]
| st_so r : stored "so" [r] SPHERE_GENERAL [0; 0; 0; r]%R
| st_s x y z r : stored "s" [x; y; z; r] SPHERE_GENERAL [x; y; z; r]
| st_sx x r : stored "sx" [x; r] SPHERE_GENERAL [x; 0; 0; r]%R
| st_sy x r : stored "sy" [x; r] SPHERE_GENERAL [0; x; 0; r]%R
| st_sz x r : stored "sz" [x; r] SPHERE_GENERAL [0; 0; x; r]%R
| st_cpx y z r : stored "c/x" [y; z; r] CYLINDER_X [y; z; r]
| st_cpy y z r : stored "c/y" [y; z; r] CYLINDER_Y [y; z; r]
| st_cpz y z r : stored "c/z" [y; z; r] CYLINDER_Z [y; z; r]
| st_cx r : stored "cx" [r] CYLINDER_X [0; 0; r]%R
| st_cy r : stored "cy" [r] CYLINDER_Y [0; 0; r]%R
| st_cz r : stored "cz" [r] CYLINDER_Z [0; 0; r]%R
| st_kpx x y z t : stored "k/x" [x; y; z; t] CONE_X [x; y; z; t; 0]%R
| st_kpy x y z t : stored "k/y" [x; y; z; t] CONE_Y [x; y; z; t; 0]%R
| st_kpz x y z t : stored "k/z" [x; y; z; t] CONE_Z [x; y; z; t; 0]%R
| st_kpx1 x y z t s : stored "k/x" [x; y; z; t; s] CONE_X [x; y; z; t; s]
| st_kpy1 x y z t s : stored "k/y" [x; y; z; t; s] CONE_Y [x; y; z; t; s]
| st_kpz1 x y z t s : stored "k/z" [x; y; z; t; s] CONE_Z [x; y; z; t; s]
| st_kx x t : stored "kx" [x; t] CONE_X [x; 0; 0; t; 0]%R
| st_ky x t : stored "ky" [x; t] CONE_Y [0; x; 0; t; 0]%R
| st_kz x t : stored "kz" [x; t] CONE_Z [0; 0; x; t; 0]%R
| st_kx1 x t s : stored "kx" [x; t; s] CONE_X [x; 0; 0; t; s]%R
| st_ky1 x t s : stored "ky" [x; t; s] CONE_Y [0; x; 0; t; s]%R
| st_kz1 x t s : stored "kz" [x; t; s] CONE_Z [0; 0; x; t; s]%R
| st_gq a b c d e f g h j k : stored "gq" [a; b; c; d; e; f; g; h; j; k] GENERAL_QUADRATIC [a; b; c; d; e; f; g; h; j; k]
| st_sq l a b c g h j k : length l = 7 -> stored "sq" (a :: b :: c :: l) GENERAL_QUADRATIC [a; b; c; 0; 0; 0; g; h; j; k]%R
| st_tx x y z A B C : stored "tx" [x; y; z; A; B; C] TORUS_X [x; y; z; A; B; C]
| st_ty x y z A B C : stored "ty" [x; y; z; A; B; C] TORUS_Y [x; y; z; A; B; C]
| st_tz x y z A B C : stored "tz" [x; y; z; A; B; C] TORUS_Z [x; y; z; A; B; C]
| st_sph x y z r : stored "sph" [x; y; z; r] SPHERE_GENERAL [x; y; z; r].

Lemma card_stored t id tr m toks vals sn : PropSurf.card_text t id tr m toks -> reads toks vals -> mcnp_means m vals sn ->
  exists s, read_surface t = Some s /\ stored m vals (s_type s) (s_coef s).
Proof.
  intros C RD M. assert (NF : py_float (T m) = None) by (destruct M; reflexivity).
  unfold read_surface. rewrite (card_text_card t id tr m toks C NF). reads_in RD. clear C NF.
  assert (P : forall n ty f l, floats n toks = Some l -> stored m vals ty (f l) ->
            exists s, reading (mkCard id tr (T m) toks) fresh n ty f = Some s /\ stored m vals (s_type s) (s_coef s)).
  { intros n ty f l E S. exists (mkS id tr ty (f l) TRANSMISSION). split; [|exact S]. unfold reading. cbn [k_coef k_id k_tr]. now rewrite E. }
  destruct M; cbn [length] in F, L; dl toks;
  [ refine (P 1%nat PLANE_X (fun l => [1; 0; 0; c_ l 0])%R _ F _)
  | refine (P 1%nat PLANE_Y (fun l => [0; 1; 0; c_ l 0])%R _ F _)
  | refine (P 1%nat PLANE_Z (fun l => [0; 0; 1; c_ l 0])%R _ F _)
  | refine (P 4%nat PLANE_GENERAL (fun l => l) _ F _)
  | refine (P 1%nat SPHERE_GENERAL (fun l => [0; 0; 0; c_ l 0])%R _ F _)
  | refine (P 4%nat SPHERE_GENERAL (fun l => l) _ F _)
  | refine (P 2%nat SPHERE_GENERAL (fun l => [c_ l 0; 0; 0; c_ l 1])%R _ F _)
  | refine (P 2%nat SPHERE_GENERAL (fun l => [0; c_ l 0; 0; c_ l 1])%R _ F _)
  | refine (P 2%nat SPHERE_GENERAL (fun l => [0; 0; c_ l 0; c_ l 1])%R _ F _)
  | refine (P 3%nat CYLINDER_X (fun l => l) _ F _)
  | refine (P 3%nat CYLINDER_Y (fun l => l) _ F _)
  | refine (P 3%nat CYLINDER_Z (fun l => l) _ F _)
  | refine (P 1%nat CYLINDER_X (fun l => [0; 0; c_ l 0])%R _ F _)
  | refine (P 1%nat CYLINDER_Y (fun l => [0; 0; c_ l 0])%R _ F _)
  | refine (P 1%nat CYLINDER_Z (fun l => [0; 0; c_ l 0])%R _ F _)
  | refine (P 4%nat CONE_X (fun l => [c_ l 0; c_ l 1; c_ l 2; c_ l 3; c_ l 4]) _ F _)
  | refine (P 4%nat CONE_Y (fun l => [c_ l 0; c_ l 1; c_ l 2; c_ l 3; c_ l 4]) _ F _)
  | refine (P 4%nat CONE_Z (fun l => [c_ l 0; c_ l 1; c_ l 2; c_ l 3; c_ l 4]) _ F _)
  | refine (P 5%nat CONE_X (fun l => [c_ l 0; c_ l 1; c_ l 2; c_ l 3; c_ l 4]) _ F _)
  | refine (P 5%nat CONE_Y (fun l => [c_ l 0; c_ l 1; c_ l 2; c_ l 3; c_ l 4]) _ F _)
  | refine (P 5%nat CONE_Z (fun l => [c_ l 0; c_ l 1; c_ l 2; c_ l 3; c_ l 4]) _ F _)
  | refine (P 2%nat CONE_X (fun l => [c_ l 0; 0; 0; c_ l 1; c_ l 2])%R _ F _)
  | refine (P 2%nat CONE_Y (fun l => [0; c_ l 0; 0; c_ l 1; c_ l 2])%R _ F _)
  | refine (P 2%nat CONE_Z (fun l => [0; 0; c_ l 0; c_ l 1; c_ l 2])%R _ F _)
  | refine (P 3%nat CONE_X (fun l => [c_ l 0; 0; 0; c_ l 1; c_ l 2])%R _ F _)
  | refine (P 3%nat CONE_Y (fun l => [0; c_ l 0; 0; c_ l 1; c_ l 2])%R _ F _)
  | refine (P 3%nat CONE_Z (fun l => [0; 0; c_ l 0; c_ l 1; c_ l 2])%R _ F _)
  | refine (P 10%nat GENERAL_QUADRATIC (fun l => l) _ F _)
  | refine (P 10%nat GENERAL_QUADRATIC sq_coords _ F _)
  | refine (P 6%nat TORUS_X (fun l => l) _ F _)
  | refine (P 6%nat TORUS_Y (fun l => l) _ F _)
  | refine (P 6%nat TORUS_Z (fun l => l) _ F _)
  | refine (P 4%nat SPHERE_GENERAL (fun l => l) _ F _) ];
  unfold sq_coords, c_; cbn [nth]; now constructor.
Qed.

(** ** Moving a form *)

(** A form with squares only and no negative one does not become a multiple of zx. *)
Lemma squares_not_zx (a b c b1 b3 b4 b6 b7 b9 : R) : (0 <= a)%R -> (0 <= b)%R -> (0 <= c)%R ->
  (a * b1 ^ 2 + b * b4 ^ 2 + c * b7 ^ 2 = 0)%R -> (a * b1 * b3 + b * b4 * b6 + c * b7 * b9 = 0)%R.
Proof.
  intros A B C E.
  assert (H : forall k x y, (0 <= k)%R -> (k * x ^ 2 = 0)%R -> (k * x * y = 0)%R).
  { intros k x y K Q. destruct (Req_dec k 0) as [-> |N]; [ring|]. assert (X : (x = 0)%R); [|rewrite X; ring].
    apply Rmult_integral in Q as [Q|Q]; [contradiction|]. nra. }
  assert (P : forall k x, (0 <= k)%R -> (0 <= k * x ^ 2)%R) by (intros; apply Rmult_le_pos; [assumption|nra]).
  assert (P1 := P a b1 A). assert (P2 := P b b4 B). assert (P3 := P c b7 C).
  rewrite (H a b1 b3), (H b b4 b6), (H c b7 b9); lra.
Qed.

(** A form that is not degenerate does not become degenerate. *)
Lemma det_moved a b c d e f b1 b2 b3 b4 b5 b6 b7 b8 b9 :
  let q u1 u2 u3 v1 v2 v3 := (u1 * (a * v1 + d * v2 + f * v3) + u2 * (d * v1 + b * v2 + e * v3) + u3 * (f * v1 + e * v2 + c * v3))%R in
  (det3 (q b1 b4 b7 b1 b4 b7) (q b1 b4 b7 b2 b5 b8) (q b1 b4 b7 b3 b6 b9)
        (q b2 b5 b8 b1 b4 b7) (q b2 b5 b8 b2 b5 b8) (q b2 b5 b8 b3 b6 b9)
        (q b3 b6 b9 b1 b4 b7) (q b3 b6 b9 b2 b5 b8) (q b3 b6 b9 b3 b6 b9)
   = det3 a d f d b e f e c * det3 b1 b2 b3 b4 b5 b6 b7 b8 b9 ^ 2)%R.
Proof. cbv zeta. unfold det3. ring. Qed.

Definition nonneg_form (a b c d e f : R) : Prop := (0 <= a /\ 0 <= b /\ 0 <= c /\ d = 0 /\ e = 0 /\ f = 0)%R.
Lemma not_zx s t m a b c d e f rest : s_type s = GENERAL_QUADRATIC -> s_tr s <> None -> s_coef s = a :: b :: c :: d :: e :: f :: rest -> length rest = 4 ->
  nonneg_form a b c d e f \/ (det_of (motion_of t) <> 0 /\ det3 a (d / 2) (f / 2) (d / 2) b (e / 2) (f / 2) (e / 2) c <> 0)%R ->
  transform s t = Some m -> ~ only_zx m.
Proof.
  intros TY TR EC LR H E Z. unfold transform in E. destruct (s_tr s); [|congruence]. rewrite EC in E.
  destruct rest as [|g [|h [|j [|k [|]]]]]; try discriminate LR. unfold det_of, motion_of in H. cbn [r1 r2 r3] in H.
  destruct (t_shift t) as [[sx sy] sz], (t_v1 t) as [[b1 b2] b3], (t_v2 t) as [[b4 b5] b6], (t_v3 t) as [[b7 b8] b9].
  unfold pt_of, dot, cross_pt in H. cbn [px py pz] in H.
  injection E as <-. unfold only_zx, set_tc in Z. cbn [s_type s_coef app] in Z. rewrite TY in Z.
  unfold matmul, transpose, mk_mat in Z. cbn [nth] in Z. destruct Z as (Z1 & Z2 & Z3 & Z4 & Z5 & Z6).
  destruct H as [(A & B & C & -> & -> & ->)|[D1 D2]].
  - apply Z6. assert (Q := squares_not_zx a b c b1 b3 b4 b6 b7 b9 A B C). ring_simplify in Z1. ring_simplify.
    assert (Q1 : (a * b1 ^ 2 + b * b4 ^ 2 + c * b7 ^ 2 = 0)%R) by (rewrite <- Z1; field). specialize (Q Q1).
    transitivity (2 * (a * b1 * b3 + b * b4 * b6 + c * b7 * b9))%R; [field|rewrite Q; ring].
  - clear Z6.
    set (q := fun u1 u2 u3 v1 v2 v3 : R => (u1 * (a * v1 + d / 2 * v2 + f / 2 * v3) + u2 * (d / 2 * v1 + b * v2 + e / 2 * v3) + u3 * (f / 2 * v1 + e / 2 * v2 + c * v3))%R).
    assert (Q1 : q b1 b4 b7 b1 b4 b7 = 0%R) by (unfold q; rewrite <- Z1; field).
    assert (Q2 : q b2 b5 b8 b2 b5 b8 = 0%R) by (unfold q; rewrite <- Z2; field).
    assert (Q3 : q b3 b6 b9 b3 b6 b9 = 0%R) by (unfold q; rewrite <- Z3; field).
    assert (Q4 : q b1 b4 b7 b2 b5 b8 = 0%R) by (apply (Rmult_eq_reg_l 2); [|lra]; unfold q; rewrite Rmult_0_r, <- Z4; field).
    assert (Q4' : q b2 b5 b8 b1 b4 b7 = 0%R) by (rewrite <- Q4; unfold q; ring).
    assert (Q5 : q b2 b5 b8 b3 b6 b9 = 0%R) by (apply (Rmult_eq_reg_l 2); [|lra]; unfold q; rewrite Rmult_0_r, <- Z5; field).
    assert (Q5' : q b3 b6 b9 b2 b5 b8 = 0%R) by (rewrite <- Q5; unfold q; ring).
    assert (M : det3 (q b1 b4 b7 b1 b4 b7) (q b1 b4 b7 b2 b5 b8) (q b1 b4 b7 b3 b6 b9)
        (q b2 b5 b8 b1 b4 b7) (q b2 b5 b8 b2 b5 b8) (q b2 b5 b8 b3 b6 b9)
        (q b3 b6 b9 b1 b4 b7) (q b3 b6 b9 b2 b5 b8) (q b3 b6 b9 b3 b6 b9)
      = (det3 a (d / 2) (f / 2) (d / 2) b (e / 2) (f / 2) (e / 2) c * det3 b1 b2 b3 b4 b5 b6 b7 b8 b9 ^ 2)%R)
      by exact (det_moved a b c (d / 2) (e / 2) (f / 2) b1 b2 b3 b4 b5 b6 b7 b8 b9).
    rewrite Q1, Q2, Q3, Q4, Q4', Q5, Q5' in M.
    clearbody q. clear - M D1 D2. match type of M with ?l = _ => assert (M0 : l = 0%R) by (unfold det3; ring); rewrite M0 in M; clear M0 end.
    symmetry in M. apply Rmult_integral in M as [M|M]; [contradiction|].
    apply D1. apply Rsqr_0_uniq. unfold Rsqr. rewrite <- M. unfold det3. ring.
Qed.

Lemma movable_plain mo n vals : movable mo n vals -> ~ cut n vals /\ ~ torus_card n.
Proof.
  intros MV. unfold torus_card. split.
  - intro C. destruct C; inversion MV as [? ? IN|? ? ? ? ? IN D|? ? ? IN D|? ? ? ? P1 P2 P3|? ? ? ? D P|? ? ? ? ? ? ? D P]; subst;
      cbn [In] in IN; repeat (destruct IN as [IN|IN]; [discriminate IN|]); exact IN.
  - destruct MV as [n vals IN|n x y z t IN D|n x t IN D| | |]; try (intros [E|[E|E]]; discriminate E);
      cbn [In] in IN; intros [-> |[-> | ->]]; repeat (destruct IN as [IN|IN]; [discriminate IN|]); exact IN.
Qed.

(** The quadric a surface becomes. *)
Lemma stored_form mo n vals x g : movable mo n vals -> stored n vals (s_type x) (s_coef x) -> SurfModel.generalise x = Some g ->
  s_type g = GENERAL_QUADRATIC /\ s_tr g = s_tr x /\ exists a b c d e f rest, s_coef g = a :: b :: c :: d :: e :: f :: rest /\ length rest = 4 /\
    (nonneg_form a b c d e f \/ (det_of mo <> 0 /\ det3 a (d / 2) (f / 2) (d / 2) b (e / 2) (f / 2) (e / 2) c <> 0))%R.
Proof.
  intros MV ST EG. unfold SurfModel.generalise in EG.
  assert (CONE : forall u v w t, (u = -1 * t /\ v = 1 /\ w = 1 \/ u = 1 /\ v = -1 * t /\ w = 1 \/ u = 1 /\ v = 1 /\ w = -1 * t)%R -> det_of mo <> 0%R ->
    (nonneg_form u v w 0 0 0 \/ (det_of mo <> 0 /\ det3 u (0 / 2) (0 / 2) (0 / 2) v (0 / 2) (0 / 2) (0 / 2) w <> 0))%R).
  { intros u v w t H D. destruct (Rle_dec t 0) as [T0|T0].
    - left. unfold nonneg_form. destruct H as [(-> & -> & ->)|[(-> & -> & ->)|(-> & -> & ->)]]; repeat split; lra.
    - right. split; [exact D|]. intro E. apply T0. right.
      assert (E' : (- t = 0)%R); [|lra]. rewrite <- E. unfold det3. destruct H as [(-> & -> & ->)|[(-> & -> & ->)|(-> & -> & ->)]]; field. }
  destruct (movable_plain _ _ _ MV) as [_ NT]. unfold torus_card in NT.
  destruct ST; try (exfalso; tauto); clear NT; injection EG as <-; unfold set_tc; cbn [s_type s_coef s_tr];
    (split; [reflexivity|]; split; [reflexivity|]);
    inversion MV as [? ? IN|? ? ? ? ? IN D|? ? ? IN D|? ? ? ? P1 P2 P3|? ? ? ? D P|? ? ? ? ? ? ? D P]; subst;
    try (exfalso; cbn [In] in IN; repeat (destruct IN as [IN|IN]; [discriminate IN|]); exact IN);
    (eexists _, _, _, _, _, _, _; split; [reflexivity|]; split; [reflexivity|]);
    try (left; unfold nonneg_form; repeat split; lra);
    try (right; split; assumption);
    try (eapply CONE; [|exact D]; first [left; repeat split; reflexivity|right; left; repeat split; reflexivity|right; right; repeat split; reflexivity]).
  right. split; [exact D|]. intro E. apply P. rewrite <- E. unfold det3. field.
Qed.

Lemma stored_sheet n vals x : stored n vals (s_type x) (s_coef x) -> ~ cut n vals -> ~ sheeted x.
Proof. intros ST NC. unfold sheeted. destruct ST; try tauto; intros _; apply NC; constructor. Qed.
Lemma stored_torus n vals x : stored n vals (s_type x) (s_coef x) -> (torus_card n -> 0 < nth 5 vals 1)%R -> torus_ok x.
Proof. intros ST H. unfold torus_ok. destruct ST; cbn [is_torus]; try discriminate; intros _; apply H; unfold torus_card; auto. Qed.
Lemma stored_is_torus n vals x : stored n vals (s_type x) (s_coef x) -> ~ torus_card n -> is_torus (s_type x) = false.
Proof. intros ST H. destruct ST; cbn [is_torus]; try reflexivity; elim H; unfold torus_card; auto. Qed.

(** ** What is in memory *)

Definition fine_cards (quick : bool) (trs : list (text * motion)) (ss : list (card * surf_says)) : Prop :=
  Forall (fun x => fine_words quick trs (ss_tr (snd x)) (card_words (fst x))) ss.
Definition uncut_cards (ss : list (card * surf_says)) : Prop :=
  Forall (fun x => forall m vals, spells (card_words (fst x)) (ss_tr (snd x)) m vals -> ~ cut m vals) ss.

(** A surface that is not a macrobody is stored as its card says. *)
Lemma got_stored (x : card * surf_says) y : good_card (fst x) -> says_surf (card_words (fst x)) (snd x) ->
  surf_got (snd x) y -> read_surface (PropDeck.card_text (fst x)) = Some y ->
  exists m vals, spells (card_words (fst x)) (ss_tr (snd x)) m vals /\ (is_macrobody y = true \/ stored m vals (s_type y) (s_coef y)).
Proof.
  intros GC (idtok & m & toks & vals & EI & NS & W & RD & SH) SG RS. exists m, vals. split.
  { exists idtok, toks. split; [|exact RD]. destruct (ss_tr (snd x)); tauto. }
  destruct SG as (_ & _ & SG). destruct SH as [m vals sn M| | |].
  - right. assert (C : PropSurf.card_text (PropDeck.card_text (fst x)) (ss_id (snd x)) (ss_tr (snd x)) m toks).
    { split; [now apply card_no_dollar|]. exists idtok. rewrite words_card by exact GC. destruct (ss_tr (snd x)); auto. }
    destruct (card_stored _ _ _ _ _ _ _ C RD M) as (s & E & ST). rewrite RS in E. injection E as <-. exact ST.
  - left. destruct SG as (f & i & B & _). now apply body_macro in B.
  - left. destruct SG as (f & i & B & _). now apply body_macro in B.
  - left. destruct SG as (f & i & B & _). now apply body_macro in B.
Qed.

(** With the cards as asked, nothing in memory is handled wrongly. *)
Lemma cards_memory quick ss ds p : says_surfs ss -> fine_cards quick (trs_of ds) ss ->
  Forall2 (fun x y => surf_got (snd x) y /\ read_surface (PropDeck.card_text (fst x)) = Some y) ss (f_surfs p) -> trans_got ds (f_trans p) ->
  memory_fine quick p.
Proof.
  intros SS FW FS [TK TM]. unfold says_surfs in SS. unfold fine_cards in FW. rewrite Forall_forall in SS, FW.
  assert (P : forall y, In y (f_surfs p) -> exists x m vals, In x ss /\ s_tr y = ss_tr (snd x) /\ spells (card_words (fst x)) (ss_tr (snd x)) m vals /\
    (is_macrobody y = true \/ stored m vals (s_type y) (s_coef y))).
  { intros y I. destruct (forall2_pick _ _ _ _ FS I) as (x & IX & SG & RS). destruct (SS x IX) as [GC SY].
    destruct (got_stored x y GC SY SG RS) as (m & vals & SP & H). exists x, m, vals. split; [exact IX|]. split; [apply SG|]. now split. }
  assert (MB : forall y, is_macrobody y = true -> ~ sheeted y /\ torus_ok y).
  { intros y. unfold is_macrobody, sheeted, torus_ok. destruct (s_type y); cbn [is_torus]; try discriminate; intros _; (split; [tauto|discriminate]). }
  split.
  - intros y id t I ET EG NM. destruct (P y I) as (x & m & vals & IX & E & SP & [H|ST]); [congruence|].
    assert (IT : In id (map fst (trs_of ds))) by (apply TK; now apply dget_keys in EG).
    destruct (last_exists id _ IT) as (mo & L). destruct (TM id mo L) as (t' & ET' & EM). rewrite EG in ET'. injection ET' as <-.
    rewrite ET in E. symmetry in E. pose proof (proj1 (FW x IX m vals SP) id mo E L) as MV. destruct (movable_plain _ _ _ MV) as [NC NT].
    split; [now apply (stored_sheet m vals)|]. split; [now apply (stored_is_torus m vals)|]. intros g z GE TE.
    destruct (stored_form mo m vals y g MV ST GE) as (TY & TR & a & b & c & d & e & f & rest & EC & LR & H). rewrite <- EM in H.
    apply (not_zx g t z a b c d e f rest TY); auto. rewrite TR, ET. discriminate.
  - destruct quick; [now left|]. right. intros y I. destruct (P y I) as (x & m & vals & IX & E & SP & [H|ST]); [now apply MB|].
    destruct (proj2 (FW x IX m vals SP)) as [Q|[NC TO]]; [discriminate|]. split; [now apply (stored_sheet m vals)|now apply (stored_torus m vals)].
Qed.

Lemma cards_uncut ss fs : says_surfs ss -> uncut_cards ss ->
  Forall2 (fun x y => surf_got (snd x) y /\ read_surface (PropDeck.card_text (fst x)) = Some y) ss fs -> Forall (fun y => ~ sheeted y) fs.
Proof.
  intros SS UC FS. unfold says_surfs in SS. unfold uncut_cards in UC. rewrite Forall_forall in SS, UC. apply Forall_forall. intros y I.
  destruct (forall2_pick _ _ _ _ FS I) as (x & IX & SG & RS). destruct (SS x IX) as [GC SY].
  destruct (got_stored x y GC SY SG RS) as (m & vals & SP & [H|ST]).
  - unfold is_macrobody, sheeted in *. destruct (s_type y); tauto || discriminate.
  - apply (stored_sheet m vals); [exact ST|]. now apply (UC x IX).
Qed.

(** C83 with every condition on the cards: a file of a title, cell cards, surface cards and data cards, with comments and
    continuation lines, is read and processed, and the deck that the writers are given is what the file means.  (Missing,
    because false or not modelled: what C81 leaves out and what [good_cards] and [fine_cards] exclude.) *)
Theorem C83_cards_partial str show quick s title noisy cells b1 surfs b2 data rank :
  file_of s (title :: noisy) -> sub_in (T "message") title = false ->
  with_comments (flat_map (fun x => card_lines (fst x)) cells ++ b1 :: flat_map (fun x => card_lines (fst x)) surfs ++ b2 ::
                 flat_map (fun x => card_lines (fst x)) data) noisy ->
  b1 <> [] -> spaces b1 -> b2 <> [] -> spaces b2 ->
  says_cells cells -> says_surfs surfs -> says_datas data ->
  good_cards (map snd cells) (map snd surfs) (map snd data) rank -> fine_cards quick (trs_of (map snd data)) surfs ->
  exists N d, (forall fuel, N <= fuel -> load str show fuel quick s = Done d) /\
    deck_means str show (map snd cells) (map snd surfs) (map snd data) d.
Proof.
  intros H1 H2 H3 H4 H5 H6 H7 SC SS SD G FW.
  destruct (file_read s title noisy cells b1 surfs b2 data H1 H2 H3 H4 H5 H6 H7 SC SS SD) as (p & R & _ & _ & FS & _ & TG & _).
  apply (C83_file_to_deck_partial str show quick s title noisy cells b1 surfs b2 data rank); auto.
  intros q E. rewrite (R 0) in E. injection E as <-. now apply (cards_memory quick surfs (map snd data)).
Qed.
Print Assumptions C83_cards_partial.

Lemma mnemonic_inj a b : T a = T b -> a = b.
Proof. intro E. apply (f_equal string_of_list_ascii) in E. unfold T in E. now rewrite !string_of_list_ascii_of_string in E. Qed.

(** A cone turned by a quarter about the x axis and shifted, and an ellipsoid, may be moved. *)
Definition motion_turn : motion := Motion (Pt 1 0 2) (Pt 1 0 0) (Pt 0 0 1) (Pt 0 (-1) 0).
Example movable_example : movable motion_turn "kz" [5; 1 / 4]%R /\ movable motion_turn "gq" [1; 2; 3; 1; 0; 0; 0; 0; 0; -9]%R /\
  ~ movable motion_turn "kz" [5; 1 / 4; 1]%R /\ ~ movable motion_turn "tx" [0; 0; 0; 5; 1; 1]%R.
Proof.
  assert (D : det_of motion_turn <> 0%R).
  { unfold det_of, dot, cross_pt, motion_turn. cbn [r1 r2 r3 GeomSpec.px GeomSpec.py GeomSpec.pz]. lra. }
  split; [apply mv_cone0; [cbn; auto|exact D]|]. split; [apply mv_gq; [exact D|unfold det3; lra]|]. split; intro M.
  - apply (proj1 (movable_plain _ _ _ M)). constructor.
  - apply (proj2 (movable_plain _ _ _ M)). now left.
Qed.

(** The file of the example of C83, with and without removing duplicates. *)
Lemma spells83 x m vals : In x surfs83 -> spells (card_words (fst x)) (ss_tr (snd x)) m vals ->
  m = "so"%string /\ ss_tr (snd x) = None \/ m = "rpp"%string.
Proof.
  intros [<-|[<-|[]]] (idtok & toks & E & _); cbn [fst snd ss_tr] in *; match type of E with ?w = _ => let v := eval vm_compute in w in change w with v in E end;
    injection E; intros; [left; split; [|reflexivity]|right]; apply mnemonic_inj; symmetry; assumption.
Qed.
Lemma fine_cards83 quick : fine_cards quick (trs_of (map snd data83)) surfs83.
Proof.
  apply Forall_forall. intros x I m vals S. destruct (spells83 x m vals I S) as [[-> E]| ->]; split.
  - rewrite E. discriminate.
  - right. split; [intro C; inversion C|intros [H|[H|H]]; discriminate H].
  - intros id mo _ _. apply mv_plain. cbn. tauto.
  - right. split; [intro C; inversion C|intros [H|[H|H]]; discriminate H].
Qed.
Lemma uncut_cards83 : uncut_cards surfs83.
Proof. apply Forall_forall. intros x I m vals S C. destruct (spells83 x m vals I S) as [[-> _]| ->]; inversion C. Qed.

Example C83_cards_example str show quick : exists N d, (forall fuel, N <= fuel -> load str show fuel quick file83 = Done d) /\
  deck_means str show (map snd cells83) (map snd surfs83) (map snd data83) d.
Proof.
  eapply (C83_cards_partial str show quick file83 _ _ cells83 [newline] surfs83 [newline] data83 Z.to_nat file83_read);
    [vm_compute; reflexivity|exact comments83|discriminate|reflexivity|discriminate|reflexivity|exact says_cells83|exact says_surfs83|exact says_datas83|
     exact good_cards83|exact (fine_cards83 quick)].
Qed.
