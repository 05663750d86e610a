(** The words written by the surface writers for Serpent, OpenMC and SCONE. *)
From Coq Require Import Reals Ratan R_Ifp Lra Lia QArith Qreals ZifyBool.
From Verif Require Import PyStr PyStrFacts FortranNumber FortranNumberProofs PyInt PyIntFacts Formatter FormatterProofs
  SurfModel GeomSpec SurfSpec SurfProofs CellText FlattenModel CellWritersProofs CellWritersOut PropSurf SurfWriters TargetSpec SurfWritersProofs PropSurfOut.
Open Scope nat_scope.
Open Scope list_scope.

(** * C58: Serpent *)

(** Types whose coefficients are printed in fixed point. *)
Definition fixed_point (t : stype) : bool :=
  match t with CONE_X | CONE_Y | CONE_Z | TORUS_X | TORUS_Y | TORUS_Z => true | _ => false end.

Lemma words_spread_fmt l : words (spread (map fmt_f l)) = map fmt_f l.
Proof. rewrite words_spread. apply words_words. apply Forall_map_all. intro x. apply fmt_f_word. Qed.

Lemma words_spread_cons w l : word w -> Forall word l -> words (spread (w :: l)) = w :: l.
Proof. intros H F. rewrite words_spread. apply words_words. now constructor. Qed.

Ltac finish := split; [constructor|]; split; [first [apply same_refl | apply same_of_fun; intro p; unfold plane, quadric; ring]|];
  split; [unfold incl; cbn [In]; intuition|reflexivity].
Ltac go ty vals H :=
  exists ty, vals; eexists; split; [reflexivity|]; split;
  [ match goal with H6 : forall id ty t l, word (T ty) -> _ |- _ => apply (H6 _ ty); [split; [discriminate|reflexivity]|apply (H vals)] end | finish ].
Ltac go5 ty vals :=
  exists ty, vals; eexists; split; [reflexivity|]; split;
  [ match goal with H1 : forall id t, words (T "surf " ++ _) = _, H5 : forall w l, word w -> _ |- _ =>
      refine (eq_trans (H1 _ _) _); f_equal; f_equal; apply (H5 (T ty) vals); split; [discriminate|reflexivity] end | finish ].

(** The names of those types in Serpent. *)
Definition fixed_name (ty : string) : bool :=
  match ty with
  | String "c" (String "k" _) | String "t" (String "o" _) => true
  | _ => false
  end.

(** The words written for a surface of a known sense. *)
Lemma serpent_form str s sn : (forall x, word (str x)) -> surf_sense s = Some sn ->
  exists t ty vals sn', write_serpent_surface str s = Some t /\
    words t = T "surf" :: str_Z (s_id s) :: T ty :: map (if fixed_point (s_type s) then fmt_f else str) vals /\
    serpent_means ty vals sn' /\ same_sense sn' sn /\ incl vals (s_coef s) /\ fixed_name ty = fixed_point (s_type s).
Proof.
  intros WS E. unfold write_serpent_surface, serpent_body.
  assert (H1 : forall id t, words (T "surf " ++ str_Z id ++ (" "%char :: t)) = T "surf" :: str_Z id :: words t).
  { intros id t. rewrite words_sep by reflexivity. rewrite words_sep by (rewrite orb_true_iff; right; reflexivity).
    rewrite (words_word _ (word_str_Z id)). reflexivity. }
  assert (H2 : forall l, words (numbers str l ++ nl) = map str l).
  { intro l. rewrite words_sep by (rewrite orb_true_iff; right; reflexivity). rewrite words_numbers by assumption. cbn. apply app_nil_r. }
  assert (H3 : forall l, words (numbers str l ++ T " " ++ nl) = map str l).
  { intro l. rewrite words_sep by (rewrite orb_true_iff; right; reflexivity). rewrite words_numbers by assumption. cbn. apply app_nil_r. }
  assert (H4 : forall l, words (flat_map (fun c : R => T " " ++ str c ++ T " ") l ++ nl) = map str l).
  { intro l. rewrite words_sep by (rewrite orb_true_iff; right; reflexivity). rewrite words_padded by assumption. cbn. apply app_nil_r. }
  assert (H5 : forall w l, word w -> words (spread (w :: map fmt_f l) ++ nl) = w :: map fmt_f l).
  { intros w l W. rewrite words_sep by (rewrite orb_true_iff; right; reflexivity). rewrite words_spread_cons; [cbn; now rewrite app_nil_r|assumption|].
    apply Forall_map_all. intro x. apply fmt_f_word. }
  assert (H6 : forall id ty t l, word (T ty) -> words t = l ->
      words (T "surf " ++ str_Z id ++ (" "%char :: (T ty ++ " "%char :: t))) = T "surf" :: str_Z id :: T ty :: l).
  { intros id ty t l W H. rewrite H1. change (T ty ++ " "%char :: t) with (T ty ++ T " " ++ t). rewrite words_head by apply W. now rewrite H. }
  coefs s E; cbn [option_map fixed_point]; unfold serpent_cone, serpent_torus; cbn [option_map].
  all: match goal with |- context [Some ?u] => lazymatch u with T "surf " ++ _ => exists u end end.
  all: match goal with |- context [serpent_means _ _ _] => idtac end.
  all: first
    [ go "plane"%string [r; r0; r1; r2] H2 | go "px"%string [r2] H2 | go "py"%string [r2] H2 | go "pz"%string [r2] H2
    | go "cylx"%string [r; r0; r1] H3 | go "cyly"%string [r; r0; r1] H3 | go "cylz"%string [r; r0; r1] H3 | go "sph"%string [r; r0; r1; r2] H2
    | go "quadratic"%string [r; r0; r1; r2; r3; r4; r5; r6; r7; r8] H4
    | go5 "ckx"%string [r; r0; r1; r2; r3] | go5 "cky"%string [r; r0; r1; r2; r3] | go5 "ckz"%string [r; r0; r1; r2; r3]
    | go5 "torx"%string [r; r0; r1; r2; r3; r4] | go5 "tory"%string [r; r0; r1; r2; r3; r4] | go5 "torz"%string [r; r0; r1; r2; r3; r4] ].
Qed.

(** * OpenMC *)

Lemma openmc_form str s sn : (forall x, word (str x)) -> surf_sense s = Some sn -> ~ sheeted s ->
  exists ty t vals sn', openmc_surface_info str s = Some (T ty, t) /\ words t = map str vals /\
    openmc_means ty vals sn' /\ same_sense sn' sn /\ incl vals (s_coef s).
Proof.
  intros WS E NS. unfold openmc_surface_info. unfold sheeted in NS.
  assert (H1 : forall x, words (str x) = map str [x]) by (intro x; apply words_word; apply WS).
  assert (H2 := fun l => words_numbers str l WS).
  coefs s E; cbn [firstn]; eexists _, _, _, _; (split; [reflexivity|]); (split; [first [apply H1 | apply H2]|]); (split; [once constructor|]);
  (split; [first [apply same_refl | apply (sheetless_eq _ _ _ NS) | apply same_of_fun; intro p; unfold plane, quadric; ring]|]);
  unfold incl; cbn [In]; intuition.
Qed.
