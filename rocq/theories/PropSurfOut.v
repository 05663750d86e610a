(** Property theorems: the surface writers (C50). *)
From Coq Require Import Reals Ratan R_Ifp Lra Lia QArith Qreals ZifyBool.
From Verif Require Import PyStr PyStrFacts FortranNumber FortranNumberProofs PyInt PyIntFacts Formatter FormatterProofs
  SurfModel GeomSpec SurfSpec SurfProofs CellText FlattenModel CellWritersProofs CellWritersOut PropSurf SurfWriters TargetSpec SurfWritersProofs.
Open Scope nat_scope.
Open Scope list_scope.

(** * C50: MCNP *)

(** The surface types whose sense is known have the right number of coefficients. *)
Ltac coefs s E :=
  destruct s as [id tr ty l b]; unfold surf_sense, sem in E; cbn [s_type s_coef s_id s_bc s_tr] in *; destruct ty; try discriminate E;
  repeat match type of E with match ?x with [] => _ | _ :: _ => _ end = _ => is_var x; destruct x; try discriminate E end;
  injection E as <-.

Lemma same_sheetless f ax : same_sense (of_fun f) (one_sheet f ax 0).
Proof. intro p. cbn [neg pos of_fun one_sheet]. split; split; intros; intuition. Qed.

Lemma sheetless_eq f ax sh : ~ sh <> 0%R -> same_sense (of_fun f) (one_sheet f ax sh).
Proof. intro H. destruct (Req_dec sh 0) as [->|N]; [apply same_sheetless|contradiction]. Qed.

(** The mnemonic and the entries of the card of a surface (MCNPSurfaceCard.py 65-210 and 219-250). *)
Definition card_parts (s : surface) : option (string * list R) :=
  match s_type s, s_coef s with
  | PLANE_GENERAL, a :: b :: c :: d :: _ => Some ("p"%string, [a; b; c; d])
  | PLANE_X, _ :: _ :: _ :: d :: _ => Some ("px"%string, [d])
  | PLANE_Y, _ :: _ :: _ :: d :: _ => Some ("py"%string, [d])
  | PLANE_Z, _ :: _ :: _ :: d :: _ => Some ("pz"%string, [d])
  | CYLINDER_X, a :: b :: c :: _ => Some ("c/x"%string, [a; b; c])
  | CYLINDER_Y, a :: b :: c :: _ => Some ("c/y"%string, [a; b; c])
  | CYLINDER_Z, a :: b :: c :: _ => Some ("c/z"%string, [a; b; c])
  | CONE_X, a :: b :: c :: d :: _ => Some ("k/x"%string, [a; b; c; d])
  | CONE_Y, a :: b :: c :: d :: _ => Some ("k/y"%string, [a; b; c; d])
  | CONE_Z, a :: b :: c :: d :: _ => Some ("k/z"%string, [a; b; c; d])
  | SPHERE_GENERAL, a :: b :: c :: d :: _ => Some ("s"%string, [a; b; c; d])
  | GENERAL_QUADRATIC, a :: b :: c :: d :: e :: f :: g :: h :: j :: k :: _ => Some ("gq"%string, [a; b; c; d; e; f; g; h; j; k])
  | TORUS_X, a :: b :: c :: d :: e :: f :: _ => Some ("tx"%string, [a; b; c; d; e; f])
  | TORUS_Y, a :: b :: c :: d :: e :: f :: _ => Some ("ty"%string, [a; b; c; d; e; f])
  | TORUS_Z, a :: b :: c :: d :: e :: f :: _ => Some ("tz"%string, [a; b; c; d; e; f])
  | _, _ => None
  end.

Ltac parts s H :=
  destruct s as [id0 tr0 ty l bc0]; unfold card_parts in H; cbn [s_type s_coef] in H; destruct ty; try discriminate H;
  repeat match type of H with match ?x with [] => _ | _ :: _ => _ end = _ => is_var x; destruct x; try discriminate H end;
  injection H as <- <-.

Lemma parts_body str s m vals : card_parts s = Some (m, vals) -> mcnp_body str s = Some (T m ++ T " " ++ numbers str vals ++ nl).
Proof. intro H. parts s H; reflexivity. Qed.

(** The card that is written is read as a surface with the same card. *)
Lemma parts_read s m vals id ws : card_parts s = Some (m, vals) -> reads ws vals ->
  exists s', classify_card (mkCard id None (T m) ws) fresh = Some s' /\ s_bc s' = TRANSMISSION /\ s_type s' = s_type s /\ card_parts s' = Some (m, vals).
Proof.
  intros H RD. unfold reads in RD. parts s H;
    repeat (match goal with H : Forall2 _ _ (_ :: _) |- _ => inversion H; clear H; subst | H : Forall2 _ _ [] |- _ => inversion H; clear H; subst end);
    unfold classify_card; cbn -[to_float floats]; try unfold classify_general_sphere; unfold reading; cbn [k_coef k_id k_tr floats length Nat.eqb];
    repeat match goal with H : to_float _ = Some _ |- _ => rewrite H; clear H end;
    eexists; (split; [reflexivity|]); repeat split.
Qed.

Lemma mcnp_form str s sn : surf_sense s = Some sn -> ~ sheeted s ->
  exists m vals sn', mcnp_body str s = Some (T m ++ T " " ++ numbers str vals ++ nl) /\ mcnp_means m vals sn' /\
    same_sense sn' sn /\ incl vals (s_coef s) /\ vals <> [] /\ length (T m) <= 3 /\ word (T m) /\ ~ In "$"%char (T m) /\ py_float (T m) = None /\
    (In m ["k/x"; "k/y"; "k/z"]%string -> length vals = 4) /\ ~ In m ["kx"; "ky"; "kz"]%string /\
    (In m ["tx"; "ty"; "tz"]%string -> is_torus (s_type s) = true /\ vals = s_coef s) /\ card_parts s = Some (m, vals).
Proof.
  intros E S. unfold mcnp_body. unfold sheeted in S.
  coefs s E;
  match goal with
  | |- context [Some (T (String ?a (String ?b (String ?c (String " " EmptyString)))) ++ numbers _ ?l ++ _)] => exists (String a (String b (String c EmptyString))), l
  | |- context [Some (T (String ?a (String ?b (String " " EmptyString))) ++ numbers _ ?l ++ _)] => exists (String a (String b EmptyString)), l
  | |- context [Some (T (String ?a (String " " EmptyString)) ++ numbers _ ?l ++ _)] => exists (String a EmptyString), l
  end; eexists; (split; [reflexivity|]); (split; [constructor|]);
  (split; [first [apply same_refl | apply (sheetless_eq _ _ _ S) | idtac]|]);
  try (split; [unfold incl; cbn [In]; intuition|]); try (split; [discriminate|]); try (split; [cbn; lia|]);
  try (split; [split; [discriminate|reflexivity]|]); try (split; [cbn; intuition discriminate|]); (split; [reflexivity|]);
  cbn [In s_type s_coef is_torus length]; (split; [intros [H|[H|[H|[]]]]; first [reflexivity | discriminate H]|]);
  (split; [intros [H|[H|[H|[]]]]; discriminate H|]); (split; [|reflexivity]); intros [H|[H|[H|[]]]]; first [discriminate H | split; reflexivity].
Qed.

Lemma in_some_word c r : In c r -> is_space c = false -> exists w, In w (words r) /\ In c w.
Proof.
  intros I N. apply in_split in I as (a & b & ->). clear - N. revert a. induction a as [|d a (w & Iw & Ic)].
  - cbn [app words]. rewrite N. destruct b as [|d b]; [exists [c]; split; now left|].
    destruct (is_space d); [exists [c]; split; now left|]. destruct (words (d :: b)) as [|w ws]; eexists; (split; [left; reflexivity|now left]).
  - cbn [app words]. destruct (is_space d); [now exists w|]. destruct (a ++ c :: b) as [|e r] eqn:E; [destruct a; discriminate|].
    destruct (is_space e); [exists w; split; [now right|assumption]|].
    destruct (words (e :: r)) as [|v vs]; [destruct Iw|]. destruct Iw as [<-|Iw].
    + exists (d :: v). split; [now left|now right].
    + exists w. split; [now right|assumption].
Qed.

Lemma same_sense_trans a b c : same_sense a b -> same_sense b c -> same_sense a c.
Proof. intros H K p. destruct (H p), (K p). tauto. Qed.

(** What is asked of the printing of a coefficient: a short word that reads back as the coefficient. *)
Definition printed (str : R -> text) (x : R) : Prop :=
  to_float (str x) = Some x /\ word_upto 40 (str x) /\ ~ In "$"%char (str x).

Lemma maxrun_spread l : Forall (fun w => length w <= 40) l -> maxrun (spread l ++ nl) <= 41.
Proof.
  induction 1 as [|w [|v l] H F IH]; [cbn; lia|..].
  - unfold spread. cbn [join_sp]. pose proof (maxrun_noblank (w ++ nl)) as M. rewrite app_length in M. cbn [length nl] in M. lia.
  - change (spread (w :: v :: l)) with (w ++ blank :: spread (v :: l)). rewrite <- app_assoc. cbn [app].
    rewrite maxrun_app_blank. pose proof (maxrun_noblank w). lia.
Qed.

Lemma digits_nonstar d c : all_digits d -> is_digit c = false -> ~ In c d.
Proof. unfold all_digits. rewrite forallb_forall. intros H N I. rewrite (H c I) in N. discriminate. Qed.

Lemma str_Z_notin z c : is_digit c = false -> c <> "-"%char -> ~ In c (str_Z z).
Proof.
  intros N M. destruct (str_Z_shape z) as (d & _ & D & [->| ->]); [now apply digits_nonstar|].
  intros [<-|I]; [congruence|]. revert I. now apply digits_nonstar.
Qed.

Lemma py_int_plus z : (0 <= z)%Z -> py_int ("+"%char :: str_Z z) = Some z.
Proof.
  intro P. unfold str_Z. destruct (Z.ltb_spec z 0) as [L|_]; [lia|]. destruct (str_N_ok (Z.to_N z)) as (N & D & V).
  unfold py_int. destruct (str_N (Z.to_N z)) as [|c d] eqn:E; [contradiction|].
  change (take_sign ("+"%char :: c :: d)) with (false, c :: d). cbv iota beta zeta.
  unfold all_digits in D. rewrite D, V. unfold signed. f_equal. lia.
Qed.

Lemma replace_none c t s : ~ In c s -> replace_char c t s = s.
Proof.
  unfold replace_char. induction s as [|d s IH]; intro N; [reflexivity|]. cbn [flat_map].
  destruct (Ascii.eqb_spec c d) as [E|_]; [exfalso; apply N; left; congruence|]. rewrite IH; [reflexivity|]. intro I. apply N. now right.
Qed.

(** C50: the card written for a surface that is not a cone cut to one sheet reads back as the same surface.
    Missing from the full property: the sheets of cones, which are not written ([C50_sheet_refuted]), and the
    boundary PERIODIC, for which nothing is written ([C50_periodic_refuted]). *)
Theorem C50_reads_back_partial str s sn :
  surf_sense s = Some sn -> ~ sheeted s -> s_bc s <> PERIODIC -> (0 <= s_id s)%Z -> length (str_Z (s_id s)) <= 60 ->
  Forall (printed str) (s_coef s) ->
  (exists r, writes_mcnp_surface str s r) /\
  forall r, writes_mcnp_surface str s r ->
    exists s', read_surface r = Some s' /\ s_id s' = s_id s /\ s_tr s' = None /\ denotes s' sn /\
      s_bc s' = TRANSMISSION /\ s_type s' = s_type s /\ card_parts s' = card_parts s.
Proof.
  intros E NS NP PI LI P.
  destruct (mcnp_form str s sn E NS) as (m & vals & sn' & B & M & SS & IN & NE & LM & WM & DM & FM & _ & _ & _ & CP).
  assert (PV : Forall (printed str) vals) by (apply Forall_forall; intros x I; rewrite Forall_forall in P; auto).
  assert (BB : exists bt, mcnp_boundary (s_bc s) = Some bt /\ (bt = [] \/ bt = T "*" \/ bt = T "+"))
    by (destruct (s_bc s); try contradiction; eexists; (split; [reflexivity|auto])).
  destruct BB as (bt & EB & CB).
  set (t := bt ++ str_Z (s_id s) ++ T " " ++ T m ++ T " " ++ numbers str vals ++ nl).
  assert (ET : mcnp_surface_text str s = Some t) by (unfold mcnp_surface_text; rewrite EB, B; reflexivity).
  destruct (word_str_Z (s_id s)) as [NI SI].
  assert (WI : word (bt ++ str_Z (s_id s))).
  { split; [intro F; apply app_eq_nil in F as [_ F]; contradiction|]. unfold nonspace in *. rewrite forallb_app, SI.
    destruct CB as [-> |[-> | ->]]; reflexivity. }
  assert (WN : words (numbers str vals ++ nl) = map str vals).
  { rewrite words_sep by (rewrite orb_true_iff; right; reflexivity). unfold numbers. rewrite words_spread, words_words; [cbn; apply app_nil_r|].
    apply Forall_forall. intros w I. apply in_map_iff in I as (x & <- & I). rewrite Forall_forall in PV.
    destruct (PV x I) as (_ & (W1 & W2 & _) & _). split; assumption. }
  assert (WT : words t = (bt ++ str_Z (s_id s)) :: T m :: map str vals).
  { unfold t. rewrite app_assoc, words_head by apply WI. rewrite words_head by apply WM. now rewrite WN. }
  assert (R : runs_at_most 70 t).
  { apply runs_maxrun. unfold t. rewrite app_assoc. change (T " ") with [blank]. cbn [app]. rewrite !maxrun_app_blank.
    pose proof (maxrun_noblank (bt ++ str_Z (s_id s))) as M1. rewrite app_length in M1.
    assert (length bt <= 1) by (destruct CB as [-> |[-> | ->]]; cbn; lia).
    pose proof (maxrun_noblank (T m)). assert (M3 : maxrun (numbers str vals ++ nl) <= 41).
    { apply maxrun_spread. apply Forall_forall. intros w I. apply in_map_iff in I as (x & <- & I).
      rewrite Forall_forall in PV. now destruct (PV x I) as (_ & (_ & _ & L) & _). }
    lia. }
  destruct (formatter_words t R) as (r0 & F0 & W0). split; [now exists r0, t|].
  intros r (t' & E' & F). rewrite ET in E'. injection E' as <-. assert (r = r0) by (eapply formatter_deterministic; eassumption). subst r0. rewrite WT in W0.
  assert (ND : ~ In "$"%char r).
  { intro I. destruct (in_some_word _ _ I eq_refl) as (w & Iw & Ic). rewrite W0 in Iw. destruct Iw as [<-|[<-|Iw]]; [|contradiction|].
    - apply in_app_iff in Ic as [Ic|Ic]; [destruct CB as [-> |[-> | ->]]; cbn in Ic; intuition discriminate|].
      revert Ic. apply str_Z_notin; [reflexivity|discriminate].
    - apply in_map_iff in Iw as (x & <- & Iw). rewrite Forall_forall in PV. now destruct (PV x Iw) as (_ & _ & D). }
  set (k := mkCard (s_id s) None (T m) (map str vals)).
  assert (K : card_of_text r = Some k).
  { unfold card_of_text, before_dollar. rewrite (existsb_notin _ _ ND), W0. unfold surface_has_transform. rewrite FM.
    assert (NSt : ~ In "*"%char (str_Z (s_id s))) by (apply str_Z_notin; [reflexivity|discriminate]).
    destruct CB as [-> |[-> | ->]].
    - cbn [app]. rewrite (existsb_notin _ _ NSt), py_int_str_Z. reflexivity.
    - change (T "*" ++ str_Z (s_id s)) with ("*"%char :: str_Z (s_id s)).
      change (existsb (Ascii.eqb "*") ("*"%char :: str_Z (s_id s))) with true. cbn iota.
      change (replace_char "*" [] ("*"%char :: str_Z (s_id s))) with (replace_char "*" [] (str_Z (s_id s))).
      rewrite (replace_none _ _ _ NSt), py_int_str_Z. reflexivity.
    - change (T "+" ++ str_Z (s_id s)) with ("+"%char :: str_Z (s_id s)).
      change (existsb (Ascii.eqb "*") ("+"%char :: str_Z (s_id s))) with (existsb (Ascii.eqb "*") (str_Z (s_id s))).
      rewrite (existsb_notin _ _ NSt), (py_int_plus _ PI). reflexivity. }
  assert (RD : reads (map str vals) vals).
  { clear - PV. induction PV as [|x l (Hx & _) F IH]; [constructor|]. constructor; assumption. }
  set (u := spread (str_Z (s_id s) :: T m :: map str vals)).
  assert (WU : words u = str_Z (s_id s) :: T m :: map str vals).
  { unfold u. rewrite words_spread. apply words_words. constructor; [now apply word_str_Z|]. constructor; [assumption|].
    apply Forall_forall. intros w I. apply in_map_iff in I as (x & <- & I). rewrite Forall_forall in PV.
    destruct (PV x I) as (_ & (W1 & W2 & _) & _). split; assumption. }
  assert (CT : card_text u (s_id s) None m (map str vals)).
  { split.
    - intro I. destruct (in_some_word _ _ I eq_refl) as (w & Iw & Ic). rewrite WU in Iw. destruct Iw as [<-|[<-|Iw]]; [|contradiction|].
      + revert Ic. apply str_Z_notin; [reflexivity|discriminate].
      + apply in_map_iff in Iw as (x & <- & Iw). rewrite Forall_forall in PV. now destruct (PV x Iw) as (_ & _ & D).
    - exists (str_Z (s_id s)). split; [apply py_int_str_Z|]. split; [apply str_Z_notin; [reflexivity|discriminate]|exact WU]. }
  destruct (C19_surface_card_meaning u (s_id s) None m (map str vals) vals sn' CT RD M) as (s' & RS & ID & TR & D).
  assert (RK : read_surface u = classify_card k fresh) by (unfold read_surface; now rewrite (card_text_card u (s_id s) None m (map str vals) CT FM)).
  exists s'. split; [|split; [exact ID|split; [exact TR|split]]].
  - rewrite <- RS, RK. unfold read_surface. now rewrite K.
  - destruct D as (sn2 & E2 & S2). exists sn2. split; [exact E2|]. eapply same_sense_trans; eassumption.
  - destruct (parts_read s m vals (s_id s) (map str vals) CP RD) as (s2 & R2 & BC & TY & CP2). rewrite RK in RS. fold k in R2. rewrite RS in R2. injection R2 as <-.
    split; [exact BC|]. split; [exact TY|]. now rewrite CP.
Qed.
Print Assumptions C50_reads_back_partial.

(** A printing of a few numbers, for the examples. *)
Definition str01 (x : R) : text := if Req_EM_T x 0 then T "0.0" else if Req_EM_T x 1 then T "1.0" else T "2.5".
Lemma str01_0 : str01 0 = T "0.0".
Proof. unfold str01. destruct (Req_EM_T 0 0); [reflexivity|lra]. Qed.
Lemma str01_1 : str01 1 = T "1.0".
Proof. unfold str01. destruct (Req_EM_T 1 0); [lra|]. destruct (Req_EM_T 1 1); [reflexivity|lra]. Qed.
Lemma str01_word x : word (str01 x).
Proof. unfold str01. destruct (Req_EM_T x 0), (Req_EM_T x 1); split; try discriminate; reflexivity. Qed.
Lemma to_float_00 : to_float (T "0.0") = Some 0%R.
Proof. cbv -[IZR Rmult Rinv Q2R]. f_equal. unfold Q2R. cbn [Qnum Qden]. lra. Qed.
Lemma to_float_10 : to_float (T "1.0") = Some 1%R.
Proof. cbv -[IZR Rmult Rinv Q2R]. f_equal. unfold Q2R. cbn [Qnum Qden]. lra. Qed.
Lemma printed_0 : printed str01 0.
Proof. unfold printed. rewrite str01_0. split; [apply to_float_00|]. split; [split; [discriminate|split; [reflexivity|cbn; lia]]|cbn; intuition discriminate]. Qed.
Lemma printed_1 : printed str01 1.
Proof. unfold printed. rewrite str01_1. split; [apply to_float_10|]. split; [split; [discriminate|split; [reflexivity|cbn; lia]]|cbn; intuition discriminate]. Qed.

Definition white_sphere : surface := mkS 12 None SPHERE_GENERAL [0; 1; 0; 1]%R WHITE.
Example reads_back_ex : exists sn r, surf_sense white_sphere = Some sn /\ ~ sheeted white_sphere /\ s_bc white_sphere <> PERIODIC /\
  (0 <= s_id white_sphere)%Z /\ length (str_Z (s_id white_sphere)) <= 60 /\ Forall (printed str01) (s_coef white_sphere) /\
  writes_mcnp_surface str01 white_sphere r /\ r = T "+12 s 0.0 1.0 0.0 1.0" ++ nl.
Proof.
  eexists _, _. split; [reflexivity|]. split; [intros []|]. split; [discriminate|]. split; [vm_compute; discriminate|]. split; [apply Nat.leb_le; reflexivity|].
  split; [repeat (apply Forall_cons; [apply printed_0 || apply printed_1|]); apply Forall_nil|]. split; [|reflexivity].
  exists (T "+12 s 0.0 1.0 0.0 1.0" ++ nl). split.
  - unfold mcnp_surface_text, mcnp_body, numbers. cbn [white_sphere s_type s_coef s_bc s_id mcnp_boundary map].
    rewrite str01_0, str01_1. reflexivity.
  - exists 1. reflexivity.
Qed.

(** The sheet of a cone is not written, whatever the cone. *)
Theorem C50_sheet_not_written str id tr ty x y z t2 sh sh' b :
  ty = CONE_X \/ ty = CONE_Y \/ ty = CONE_Z ->
  mcnp_surface_text str (mkS id tr ty [x; y; z; t2; sh] b) = mcnp_surface_text str (mkS id tr ty [x; y; z; t2; sh'] b).
Proof. intros [-> |[-> | ->]]; reflexivity. Qed.
Print Assumptions C50_sheet_not_written.

(** C50 is false of cones cut to one sheet: the card written reads back as the whole cone. *)
Theorem C50_sheet_refuted : exists str s sn r s' sn',
  surf_sense s = Some sn /\ s_bc s <> PERIODIC /\ (0 <= s_id s)%Z /\ Forall (printed str) (s_coef s) /\ writes_mcnp_surface str s r /\
  read_surface r = Some s' /\ surf_sense s' = Some sn' /\ ~ same_sense sn' sn.
Proof.
  pose (s := mkS 7 None CONE_Z [0; 0; 0; 1; 1]%R TRANSMISSION).
  pose (s0 := mkS 7 None CONE_Z [0; 0; 0; 1; 0]%R TRANSMISSION).
  destruct (C50_reads_back_partial str01 s0 _ eq_refl) as ((r & W) & F).
  { cbn. intuition. } { discriminate. } { vm_compute. discriminate. } { apply Nat.leb_le. reflexivity. }
  { repeat (apply Forall_cons; [apply printed_0 || apply printed_1|]); apply Forall_nil. }
  destruct (F r W) as (s' & RS & _ & _ & (sn' & E' & S') & _).
  exists str01, s, (one_sheet (cone_z 0 0 0 1) (fun p => pz p - 0)%R 1), r, s', sn'.
  split; [reflexivity|]. split; [discriminate|]. split; [vm_compute; discriminate|].
  split; [repeat (apply Forall_cons; [apply printed_0 || apply printed_1|]); apply Forall_nil|].
  split; [exact W|]. split; [exact RS|]. split; [exact E'|].
  intro SS. assert (SS2 := S' (Pt 0 0 (-1)%R)). specialize (SS (Pt 0 0 (-1)%R)).
  cbn [neg pos one_sheet px py pz] in SS, SS2. unfold cone_z in SS, SS2. cbn [px py pz] in SS, SS2.
  assert (N : neg sn' (Pt 0 0 (-1)%R)) by (apply SS2; split; [lra|intros; lra]).
  apply SS in N as [_ N]. assert (1 <> 0)%R by lra. specialize (N H). lra.
Qed.
Print Assumptions C50_sheet_refuted.

(** C50 is false of surfaces with the boundary PERIODIC: nothing is written for them. *)
Theorem C50_periodic_refuted : exists str s sn, surf_sense s = Some sn /\ Forall (printed str) (s_coef s) /\ forall r, ~ writes_mcnp_surface str s r.
Proof.
  exists str01, (mkS 7 None SPHERE_GENERAL [0; 0; 0; 1]%R PERIODIC). eexists. split; [reflexivity|].
  split; [repeat (apply Forall_cons; [apply printed_0 || apply printed_1|]); apply Forall_nil|]. intros r (t & E & _). discriminate E.
Qed.
Print Assumptions C50_periodic_refuted.
