(** The words written by the surface writer for SCONE. *)
From Coq Require Import Reals Ratan R_Ifp Lra Lia QArith Qreals ZifyBool.
From Verif Require Import PyStr PyStrFacts FortranNumber FortranNumberProofs PyInt PyIntFacts Formatter FormatterProofs
  SurfModel GeomSpec SurfSpec SurfProofs CellText FlattenModel CellWritersProofs CellWritersOut PropSurf SurfWriters TargetSpec SurfWritersProofs PropSurfOut.
Open Scope nat_scope.
Open Scope list_scope.

Definition unsep (t : text) : text := map (fun c => if scone_sep c then " "%char else c) t.
Definition nosep (t : text) : Prop := forallb (fun c => negb (scone_sep c)) t = true.

Lemma unsep_id t : nosep t -> unsep t = t.
Proof.
  unfold nosep, unsep. induction t as [|c t IH]; intro H; [reflexivity|]. cbn [forallb map] in *. apply andb_prop in H as [A B].
  destruct (scone_sep c); [discriminate|]. now rewrite IH.
Qed.
Lemma unsep_app a b : unsep (a ++ b) = unsep a ++ unsep b.
Proof. apply map_app. Qed.
Lemma nosep_app a b : nosep a -> nosep b -> nosep (a ++ b).
Proof. unfold nosep. intros H K. now rewrite forallb_app, H, K. Qed.

Lemma digit_nosep c : is_digit c = true -> scone_sep c = false.
Proof.
  unfold scone_sep. intro H.
  repeat match goal with |- context [Ascii.eqb c ?d] => destruct (Ascii.eqb_spec c d); [subst; discriminate H|] end. reflexivity.
Qed.
Lemma nosep_str_Z z : nosep (str_Z z).
Proof.
  assert (D : forall d, all_digits d -> nosep d).
  { intros d. unfold all_digits, nosep. rewrite !forallb_forall. intros H x I. now rewrite (digit_nosep x (H x I)). }
  destruct (str_Z_shape z) as (d & N & H & [->| ->]); auto. apply D in H. unfold nosep in *. cbn [forallb]. exact H.
Qed.
Lemma nosep_fmt x : nosep (fmt_f x).
Proof.
  unfold nosep. apply forallb_forall. intros c I. destruct (fmt_f_word x) as [_ H].
  destruct (H c I) as [D|[->| ->]]; [now rewrite (digit_nosep c D)|reflexivity|reflexivity].
Qed.
Lemma nosep_spread l : Forall nosep l -> nosep (spread l).
Proof.
  induction 1 as [|w [|v l] H F IH]; [reflexivity|exact H|].
  change (spread (w :: v :: l)) with (w ++ [blank] ++ spread (v :: l)). apply nosep_app; [exact H|]. apply nosep_app; [reflexivity|exact IH].
Qed.
Lemma nosep_padded str l : (forall x, nosep (str x)) -> nosep (flat_map (fun c : R => T " " ++ str c ++ T " ") l).
Proof.
  intro H. induction l as [|x l IH]; [reflexivity|]. cbn [flat_map]. apply nosep_app; [|exact IH].
  apply nosep_app; [reflexivity|]. apply nosep_app; [apply H|reflexivity].
Qed.

(** What a word of the dictionary stands for. *)
Definition entry_shown (str : R -> text) (t : text) (e : entry) : Prop :=
  match e with Key k => t = T k | Num x => shows str t x end.

(** The same, the printed numbers being among [l]. *)
Definition entry_shown_in (str : R -> text) (l : list R) (t : text) (e : entry) : Prop :=
  match e with Key k => t = T k | Num x => t = str x /\ In x l \/ to_float t = Some x end.

(** Distance along the axis of a cone from its apex. *)
Definition cone_height (s : surface) (p : pt) : R :=
  (match s_type s, s_coef s with
   | CONE_X, x :: _ => px p - x
   | CONE_Y, _ :: y :: _ => py p - y
   | CONE_Z, _ :: _ :: z :: _ => pz p - z
   | _, _ => 0
   end)%R.

Definition is_cone (t : stype) : bool := match t with CONE_X | CONE_Y | CONE_Z => true | _ => false end.

Lemma tan2_angle t : (0 <= t)%R -> tan2 (atan (sqrt t) * (180 / PI)) = t.
Proof.
  intro P. unfold tan2. replace (atan (sqrt t) * (180 / PI) * PI / 180)%R with (atan (sqrt t)) by (field; apply PI_neq0).
  rewrite tan_atan. cbn [pow]. rewrite Rmult_1_r. now apply sqrt_sqrt.
Qed.

Open Scope R_scope.
Definition lo_of (sh : R) : R := if Rlt_dec sh 0 then -10000000000 else if Rlt_dec 0 sh then 0 else -10000000000.
Definition hi_of (sh : R) : R := if Rlt_dec sh 0 then 0 else if Rlt_dec 0 sh then 10000000000 else 10000000000.

(** Near the apex the cut cone is the sheet asked for. *)
Lemma scone_cut_near f ax sh p : Rabs (ax p) < 10000000000 ->
  (neg (scone_cut f ax (lo_of sh) (hi_of sh)) p <-> neg (one_sheet f ax sh) p) /\
  (pos (scone_cut f ax (lo_of sh) (hi_of sh)) p <-> pos (one_sheet f ax sh) p).
Proof.
  intro B. apply Rabs_def2 in B as [B1 B2]. cbn [neg pos scone_cut one_sheet]. unfold lo_of, hi_of.
  destruct (Rlt_dec sh 0) as [L|L]; [|destruct (Rlt_dec 0 sh) as [G|G]].
  - assert (sh <> 0) by lra. split; split.
    + intros (F & _ & A). split; [exact F|intros _; nra].
    + intros (F & A). specialize (A H). split; [exact F|]. split; [lra|nra].
    + intros [F|[F|F]]; [now left|lra|right; split; [exact H|nra]].
    + intros [F|[_ F]]; [now left|right; right; nra].
  - assert (sh <> 0) by lra. split; split.
    + intros (F & A & _). split; [exact F|intros _; nra].
    + intros (F & A). specialize (A H). split; [exact F|]. split; [nra|lra].
    + intros [F|[F|F]]; [now left|right; split; [exact H|nra]|lra].
    + intros [F|[_ F]]; [now left|right; left; nra].
  - assert (sh = 0) by lra. split; split.
    + intros (F & _). split; [exact F|intro; contradiction].
    + intros (F & _). split; [exact F|lra].
    + intros [F|[F|F]]; [now left|lra|lra].
    + intros [F|[F _]]; [now left|contradiction].
Qed.
Close Scope R_scope.

Lemma to_float_0 : to_float (T "0") = Some 0%R.
Proof. cbv -[IZR Rmult Rinv Q2R]. f_equal. unfold Q2R. cbn [Qnum Qden]. lra. Qed.

Lemma some_eq {A} (a b : A) : Some a = Some b -> a = b.
Proof. congruence. Qed.

Section Form.
Context (str : R -> text) (WS : forall x, word (str x)) (NS : forall x, nosep (str x)).

Lemma unsep_numbers l : unsep (numbers str l) = numbers str l.
Proof. apply unsep_id. unfold numbers. apply nosep_spread. now apply Forall_map_all. Qed.
Lemma unsep_padded l : unsep (flat_map (fun c : R => T " " ++ str c ++ T " ") l) = flat_map (fun c : R => T " " ++ str c ++ T " ") l.
Proof. apply unsep_id. now apply nosep_padded. Qed.
Lemma unsep_fmts l : unsep (spread (map fmt_f l)) = spread (map fmt_f l).
Proof. apply unsep_id. apply nosep_spread. apply Forall_map_all. apply nosep_fmt. Qed.
Lemma unsep_str x : unsep (str x) = str x.
Proof. apply unsep_id. apply NS. Qed.
Lemma words_fmts l : words (spread (map fmt_f l)) = map fmt_f l.
Proof. rewrite words_spread. apply words_words. apply Forall_map_all. intro x. apply fmt_f_word. Qed.

Lemma scone_header id t : starts_space (unsep t) = true ->
  scone_words (str_Z id ++ T " { id " ++ str_Z id ++ T "; type " ++ t) = str_Z id :: T "id" :: str_Z id :: T "type" :: scone_words t.
Proof.
  intro H. unfold scone_words. fold (unsep t). fold (unsep (str_Z id ++ T " { id " ++ str_Z id ++ T "; type " ++ t)).
  rewrite !unsep_app, !(unsep_id (str_Z id)) by apply nosep_str_Z.
  change (unsep (T " { id ")) with (T "   id "). change (unsep (T "; type ")) with (T "  type ").
  rewrite words_sep by (rewrite orb_true_iff; right; reflexivity). rewrite words_sep by reflexivity.
  rewrite words_sep by (rewrite orb_true_iff; right; reflexivity). rewrite words_sep by reflexivity.
  rewrite !(words_word _ (word_str_Z id)). reflexivity.
Qed.

Ltac shown := repeat apply Forall2_cons; [..|apply Forall2_nil]; cbn [entry_shown];
  first [reflexivity | left; reflexivity | right; apply to_float_0 | right; apply to_float_00 | idtac].
Ltac body_words :=
  rewrite scone_header by reflexivity; do 4 f_equal;
  unfold scone_words; match goal with |- words (map _ ?t) = _ => fold (unsep t) end;
  rewrite ?unsep_app, ?unsep_numbers, ?unsep_padded, ?unsep_fmts, ?unsep_str;
  repeat match goal with |- context [unsep ?t] => let u := eval cbv in (unsep t) in change (unsep t) with u end;
  repeat match goal with
    | |- context [words ((?c :: ?a) ++ ?b)] => rewrite (words_sep (c :: a) b) by reflexivity
    | |- context [words (?a ++ (?c :: ?d) ++ ?b)] => rewrite (words_sep a ((c :: d) ++ b)) by (rewrite orb_true_iff; right; reflexivity)
    | |- context [words (?a ++ (?c :: ?d))] => rewrite (words_sep a (c :: d)) by (rewrite orb_true_iff; right; reflexivity)
    end;
  rewrite ?words_numbers, ?words_padded, ?words_fmts by assumption;
  repeat match goal with |- context [words (str ?x)] => rewrite (words_word (str x)) by apply WS end;
  repeat match goal with |- context [words ?t] => let u := eval cbv in (words t) in change (words t) with u end; cbn [app map]; try reflexivity.

Ltac shown_in := repeat apply Forall2_cons; [..|apply Forall2_nil]; cbn [entry_shown_in];
  first [reflexivity | left; split; [reflexivity|cbn [In s_coef]; tauto] | right; apply to_float_0 | right; apply to_float_00].
Lemma scone_form_plain s sn : surf_sense s = Some sn -> is_torus (s_type s) = false -> is_cone (s_type s) = false ->
  exists t ty toks ents sn', write_scone_surface str s = Some t /\
    scone_words t = str_Z (s_id s) :: T "id" :: str_Z (s_id s) :: T "type" :: T ty :: toks /\
    Forall2 (entry_shown_in str (s_coef s)) toks ents /\ scone_means ty ents sn' /\ same_sense sn' sn.
Proof.
  intros E NT NC. unfold write_scone_surface, scone_body.
  coefs s E; try discriminate NT; try discriminate NC; cbn [option_map]; clear NT NC.
  - eexists _, "plane"%string, _, _, _. split; [reflexivity|]. split; [body_words|]. split; [|split; [apply c_plane|apply same_refl]]. shown_in.
  - eexists _, "xPlane"%string, _, _, _. split; [reflexivity|]. split; [body_words|]. split; [|split; [apply c_px|]]. shown_in.
    apply same_of_fun. intro p. unfold plane. ring.
  - eexists _, "yPlane"%string, _, _, _. split; [reflexivity|]. split; [body_words|]. split; [|split; [apply c_py|]]. shown_in.
    apply same_of_fun. intro p. unfold plane. ring.
  - eexists _, "zPlane"%string, _, _, _. split; [reflexivity|]. split; [body_words|]. split; [|split; [apply c_pz|]]. shown_in.
    apply same_of_fun. intro p. unfold plane. ring.
  - eexists _, "xCylinder"%string, _, _, _. split; [reflexivity|]. split; [body_words|]. split; [|split; [apply (c_cylx 0%R r r0 r1)|apply same_refl]]. shown_in.
  - eexists _, "yCylinder"%string, _, _, _. split; [reflexivity|]. split; [body_words|]. split; [|split; [apply (c_cyly r 0%R r0 r1)|apply same_refl]]. shown_in.
  - eexists _, "zCylinder"%string, _, _, _. split; [reflexivity|]. split; [body_words|]. split; [|split; [apply (c_cylz r r0 0%R r1)|apply same_refl]]. shown_in.
  - eexists _, "sphere"%string, _, _, _. split; [reflexivity|]. split; [body_words|]. split; [|split; [apply c_sph|apply same_refl]]. shown_in.
  - eexists _, "quadric"%string, _, _, _. split; [reflexivity|]. split; [body_words|]. split; [|split; [apply c_quadric|]]. shown_in.
    apply same_of_fun. intro p. unfold quadric. ring.
Qed.

(** The entries of a cone. *)
Definition cone_ents (x y z t2 sh : R) : list entry :=
  scone_nums "vertex" [x; y; z] ++ scone_nums "angle" [(atan (sqrt t2) * (180 / PI))%R] ++ scone_nums "hMin" [lo_of sh] ++ scone_nums "hMax" [hi_of sh].

Lemma scone_form_cone name id x y z t2 sh body : (exists nm, name = T nm /\ (nm = "xCone" \/ nm = "yCone" \/ nm = "zCone")%string) ->
  (0 <= t2)%R -> fine6 x -> fine6 y -> fine6 z ->
  scone_cone str name [x; y; z; t2; sh] = Some body ->
  exists toks, scone_words (str_Z id ++ T " { id " ++ str_Z id ++ T "; type " ++ body) =
      str_Z id :: T "id" :: str_Z id :: T "type" :: name :: toks /\
    Forall2 (entry_shown str) toks (cone_ents x y z t2 sh).
Proof.
  intros (nm & -> & NM) P FX FY FZ E. unfold scone_cone in E. unfold cone_ents, lo_of, hi_of.
  destruct (Rlt_dec t2 0) as [L|_]; [lra|].
  assert (S : forall v, fine6 v -> shows str (fmt_f v) v) by (intros v F; right; rewrite to_float_fmt_f, round6_fine by assumption; reflexivity).
  destruct (Rlt_dec sh 0) as [L|L]; [|destruct (Rlt_dec 0 sh) as [G|G]]; apply some_eq in E; rewrite <- E; clear E body;
  destruct NM as [->|[->| ->]]; eexists; (split; [body_words|]); shown; apply S; assumption.
Qed.

Lemma scone_form s sn : surf_sense s = Some sn -> is_torus (s_type s) = false ->
  (is_cone (s_type s) = true -> match s_coef s with x :: y :: z :: t2 :: _ => (0 <= t2)%R /\ fine6 x /\ fine6 y /\ fine6 z | _ => False end) ->
  exists t ty toks ents sn', write_scone_surface str s = Some t /\
    scone_words t = str_Z (s_id s) :: T "id" :: str_Z (s_id s) :: T "type" :: T ty :: toks /\
    Forall2 (entry_shown str) toks ents /\ scone_means ty ents sn' /\
    forall p, (Rabs (cone_height s p) < 10000000000)%R -> (neg sn' p <-> neg sn p) /\ (pos sn' p <-> pos sn p).
Proof.
  intros E NT C. destruct (is_cone (s_type s)) eqn:IC.
  - specialize (C eq_refl). unfold write_scone_surface, scone_body.
    coefs s E; try discriminate IC; destruct C as (P & FX & FY & FZ); unfold cone_height; cbn [s_type s_coef s_id];
    match goal with |- context [scone_cone str ?nm ?l] => destruct (scone_cone str nm l) as [body|] eqn:EB end;
    try (exfalso; unfold scone_cone in EB; destruct (Rlt_dec r2 0); [lra|];
         destruct (Rlt_dec r3 0); [discriminate|]; destruct (Rlt_dec 0 r3); discriminate).
    + destruct (scone_form_cone (T "xCone") id r r0 r1 r2 r3 body) as (toks & W & S); try assumption; [now exists "xCone"%string; auto|].
      eexists _, "xCone"%string, toks, _, _. split; [reflexivity|]. split; [exact W|]. split; [exact S|]. split; [apply c_conex|].
      intros p B. rewrite tan2_angle by assumption. exact (scone_cut_near (cone_x r r0 r1 r2) (fun p => px p - r)%R r3 p B).
    + destruct (scone_form_cone (T "yCone") id r r0 r1 r2 r3 body) as (toks & W & S); try assumption; [now exists "yCone"%string; auto|].
      eexists _, "yCone"%string, toks, _, _. split; [reflexivity|]. split; [exact W|]. split; [exact S|]. split; [apply c_coney|].
      intros p B. rewrite tan2_angle by assumption. exact (scone_cut_near (cone_y r r0 r1 r2) (fun p => py p - r0)%R r3 p B).
    + destruct (scone_form_cone (T "zCone") id r r0 r1 r2 r3 body) as (toks & W & S); try assumption; [now exists "zCone"%string; auto|].
      eexists _, "zCone"%string, toks, _, _. split; [reflexivity|]. split; [exact W|]. split; [exact S|]. split; [apply c_conez|].
      intros p B. rewrite tan2_angle by assumption. exact (scone_cut_near (cone_z r r0 r1 r2) (fun p => pz p - r1)%R r3 p B).
  - destruct (scone_form_plain s sn E NT IC) as (t & ty & toks & ents & sn' & A & B & D & F & G).
    exists t, ty, toks, ents, sn'. split; [exact A|]. split; [exact B|]. split; [|split; [exact F|intros p _; apply G]].
    clear - D. induction D as [|w e l l' H K IH]; constructor; [|exact IH]. destruct e; cbn in *; [exact H|]. unfold shows. tauto.
Qed.
End Form.
