(** Facts about the region specification: unambiguity, renaming of atoms. *)
From Verif Require Import PyStr PyStrFacts RegionSpec.

(** A deterministic one-pass reader for the grammar, used to prove that the grammar
    is unambiguous.  A frame holds the finished union operands, the current
    intersection and a pending complement. *)
Record frame := Frame { f_or : option region; f_and : option region; f_neg : bool }.

Definition join_or (o : option region) (r : region) : region :=
  match o with None => r | Some a => ROr a r end.
Definition join_and (o : option region) (r : region) : region :=
  match o with None => r | Some a => RAnd a r end.

Definition add_factor (f : frame) (r : region) : frame :=
  Frame (f_or f) (Some (join_and (f_and f) (if f_neg f then RNot r else r))) false.

Definition finish (f : frame) : option region :=
  if f_neg f then None else option_map (join_or (f_or f)) (f_and f).

Fixpoint run (ts : list rtok) (f : frame) (stk : list frame) : option region :=
  match ts with
  | [] => match stk with [] => finish f | _ => None end
  | TAtom w :: r => if f_neg f then None else run r (add_factor f (RAtom w)) stk
  | TUnion :: r =>
      match finish f with
      | Some a => run r (Frame (Some a) None false) stk
      | None => None
      end
  | TNot :: r =>
      match r with
      | TOpen :: _ => if f_neg f then None else run r (Frame (f_or f) (f_and f) true) stk
      | _ => None
      end
  | TOpen :: r => run r (Frame None None false) (f :: stk)
  | TClose :: r =>
      match finish f, stk with
      | Some a, g :: stk' => run r (add_factor g a) stk'
      | _, _ => None
      end
  end.

Definition parse (ts : list rtok) : option region := run ts (Frame None None false) [].

Lemma run_complete :
  (forall ts r, expr ts r -> forall rest stk, exists f,
     run (ts ++ rest) (Frame None None false) stk = run rest f stk /\ finish f = Some r) /\
  (forall ts r, term ts r -> forall rest stk o,
     run (ts ++ rest) (Frame o None false) stk = run rest (Frame o (Some r) false) stk) /\
  (forall ts r, factor ts r -> forall rest stk o a,
     run (ts ++ rest) (Frame o a false) stk = run rest (Frame o (Some (join_and a r)) false) stk).
Proof.
  apply region_mutind.
  - intros ts r _ IH rest stk. eexists. split; [apply IH|reflexivity].
  - intros ts1 r1 ts2 r2 _ IH1 _ IH2 rest stk.
    rewrite <- app_assoc. destruct (IH1 ((TUnion :: ts2) ++ rest) stk) as (f & -> & Hf).
    cbn [app run]. rewrite Hf. rewrite IH2. eexists; split; reflexivity.
  - intros ts r _ IH rest stk o. apply IH.
  - intros ts1 r1 ts2 r2 _ IH1 _ IH2 rest stk o.
    rewrite <- app_assoc, IH1, IH2. reflexivity.
  - reflexivity.
  - intros ts r _ IH rest stk o a. cbn [app run]. rewrite <- app_assoc.
    destruct (IH ([TClose] ++ rest) (Frame o a false :: stk)) as (f & -> & Hf).
    cbn [app run]. rewrite Hf. reflexivity.
  - intros ts r _ IH rest stk o a. cbn [app run f_neg f_or f_and]. rewrite <- app_assoc.
    destruct (IH ([TClose] ++ rest) (Frame o a true :: stk)) as (f & -> & Hf).
    cbn [app run]. rewrite Hf. reflexivity.
Qed.

Lemma parse_complete ts r : expr ts r -> parse ts = Some r.
Proof.
  intro H. unfold parse. rewrite <- (app_nil_r ts).
  destruct (proj1 run_complete ts r H [] []) as (f & -> & Hf). exact Hf.
Qed.

(** The grammar is unambiguous. *)
Lemma expr_unique ts r1 r2 : expr ts r1 -> expr ts r2 -> r1 = r2.
Proof. intros H1 H2. apply parse_complete in H1, H2. congruence. Qed.

(** ** Soundness of the reader *)

(** [fr f ts]: the tokens [ts] consumed since frame [f] was opened. *)
Inductive in_frame : frame -> list rtok -> Prop :=
| if_start : in_frame (Frame None None false) []
| if_term ts a : term ts a -> in_frame (Frame None (Some a) false) ts
| if_or ts o : expr ts o -> in_frame (Frame (Some o) None false) (ts ++ [TUnion])
| if_or_term ts1 o ts2 a : expr ts1 o -> term ts2 a ->
    in_frame (Frame (Some o) (Some a) false) (ts1 ++ TUnion :: ts2)
| if_neg o a ts : in_frame (Frame o a false) ts -> in_frame (Frame o a true) (ts ++ [TNot]).

Inductive in_stack : list frame -> list rtok -> Prop :=
| is_nil : in_stack [] []
| is_cons g stk ts1 ts2 : in_frame g ts2 -> in_stack stk ts1 -> in_stack (g :: stk) (ts1 ++ ts2 ++ [TOpen]).

Lemma finish_expr f ts r : in_frame f ts -> finish f = Some r -> expr ts r.
Proof.
  intros H. destruct H; unfold finish; cbn; intro E; try discriminate.
  - injection E as <-. now constructor.
  - injection E as <-. now constructor.
Qed.

Lemma in_frame_factor f ts tsf r :
  in_frame f ts -> f_neg f = false -> factor tsf r -> in_frame (add_factor f r) (ts ++ tsf).
Proof.
  intros H N F. destruct H; cbn in *; try discriminate; unfold add_factor; cbn.
  - apply if_term. now constructor.
  - apply if_term. now apply term_and.
  - rewrite <- app_assoc. cbn [app]. apply if_or_term; [assumption|now constructor].
  - rewrite <- app_assoc. cbn [app]. apply if_or_term; [assumption|now apply term_and].
Qed.

Lemma in_frame_paren f ts tsf r :
  in_frame f ts -> expr tsf r -> in_frame (add_factor f r) (ts ++ TOpen :: tsf ++ [TClose]).
Proof.
  intros H E. destruct f as [o a n]. destruct n.
  - inversion H; subst. rewrite <- app_assoc. cbn [app].
    change (add_factor (Frame o a true) r) with (add_factor (Frame o a false) (RNot r)).
    apply in_frame_factor; [assumption|reflexivity|now constructor].
  - apply in_frame_factor; [assumption|reflexivity|now constructor].
Qed.

Lemma run_sound ts : forall f stk ts1 ts2 r,
  in_frame f ts2 -> in_stack stk ts1 -> run ts f stk = Some r -> expr (ts1 ++ ts2 ++ ts) r.
Proof.
  induction ts as [|t ts IH]; intros f stk ts1 ts2 r F S H.
  - cbn [run] in H. destruct stk; [|discriminate]. inversion S; subst. cbn [app].
    rewrite app_nil_r. eapply finish_expr; eassumption.
  - destruct t as [| | | |w].
    + cbn [run] in H. destruct (finish f) as [a|] eqn:E; [|discriminate].
      pose proof (finish_expr _ _ _ F E) as X.
      replace (ts1 ++ ts2 ++ TUnion :: ts) with (ts1 ++ (ts2 ++ [TUnion]) ++ ts)
        by (rewrite <- (app_assoc ts2); reflexivity).
      eapply IH; [|eassumption|eassumption]. now constructor.
    + cbn [run] in H. destruct ts as [|[| | | |] ts']; try discriminate.
      destruct f as [o a n]. cbn [f_neg f_or f_and] in H. destruct n; [discriminate|].
      replace (ts1 ++ ts2 ++ TNot :: TOpen :: ts') with (ts1 ++ (ts2 ++ [TNot]) ++ TOpen :: ts')
        by (rewrite <- (app_assoc ts2); reflexivity).
      eapply IH; [|eassumption|eassumption]. now constructor.
    + cbn [run] in H.
      replace (ts1 ++ ts2 ++ TOpen :: ts) with ((ts1 ++ ts2 ++ [TOpen]) ++ [] ++ ts)
        by (rewrite <- !app_assoc; reflexivity).
      eapply IH; [constructor| |eassumption]. now constructor.
    + cbn [run] in H. destruct (finish f) as [a|] eqn:E; [|discriminate].
      destruct stk as [|g stk']; [discriminate|].
      pose proof (finish_expr _ _ _ F E) as X.
      inversion S as [|g' stk'' u1 u2 Hg Hs]; subst.
      replace ((u1 ++ u2 ++ [TOpen]) ++ ts2 ++ TClose :: ts)
        with (u1 ++ (u2 ++ TOpen :: ts2 ++ [TClose]) ++ ts)
        by (rewrite <- !app_assoc; cbn [app]; rewrite <- !app_assoc; reflexivity).
      eapply IH; [|eassumption|eassumption].
      now apply in_frame_paren.
    + cbn [run] in H. destruct (f_neg f) eqn:N; [discriminate|].
      replace (ts1 ++ ts2 ++ TAtom w :: ts) with (ts1 ++ (ts2 ++ [TAtom w]) ++ ts)
        by (rewrite <- (app_assoc ts2); reflexivity).
      eapply IH; [|eassumption|eassumption].
      apply in_frame_factor; [assumption|assumption|constructor].
Qed.

Lemma parse_sound ts r : parse ts = Some r -> expr ts r.
Proof.
  intro H. apply (run_sound ts (Frame None None false) [] [] []); [constructor|constructor|exact H].
Qed.

Lemma expr_iff_parse ts r : expr ts r <-> parse ts = Some r.
Proof. split; [apply parse_complete|apply parse_sound]. Qed.

(** ** Renaming atoms *)

Definition map_tok (f : text -> text) (t : rtok) : rtok :=
  match t with TAtom w => TAtom (f w) | _ => t end.

Fixpoint map_region (f : text -> text) (r : region) : region :=
  match r with
  | RAtom w => RAtom (f w)
  | RAnd a b => RAnd (map_region f a) (map_region f b)
  | ROr a b => ROr (map_region f a) (map_region f b)
  | RNot a => RNot (map_region f a)
  end.

Lemma map_tok_expr f :
  (forall ts r, expr ts r -> expr (map (map_tok f) ts) (map_region f r)) /\
  (forall ts r, term ts r -> term (map (map_tok f) ts) (map_region f r)) /\
  (forall ts r, factor ts r -> factor (map (map_tok f) ts) (map_region f r)).
Proof.
  apply region_mutind; intros; cbn [map_region map map_tok] in *;
    rewrite ?map_app; cbn [map map_tok]; try (constructor; assumption).
Qed.

Lemma holds_map f env r : holds env (map_region f r) = holds (fun w => env (f w)) r.
Proof. induction r; cbn; congruence. Qed.

Lemma holds_ext env1 env2 r : (forall w, env1 w = env2 w) -> holds env1 r = holds env2 r.
Proof. intro H. induction r; cbn; congruence. Qed.

(** Atoms of a region. *)
Fixpoint atoms (r : region) : list text :=
  match r with
  | RAtom w => [w]
  | RAnd a b | ROr a b => atoms a ++ atoms b
  | RNot a => atoms a
  end.

Definition tok_atoms (ts : list rtok) : list text :=
  flat_map (fun t => match t with TAtom w => [w] | _ => [] end) ts.

Lemma expr_atoms :
  (forall ts r, expr ts r -> tok_atoms ts = atoms r) /\
  (forall ts r, term ts r -> tok_atoms ts = atoms r) /\
  (forall ts r, factor ts r -> tok_atoms ts = atoms r).
Proof.
  unfold tok_atoms.
  apply region_mutind; intros; cbn [atoms flat_map app] in *; rewrite ?flat_map_app; cbn [flat_map app];
    rewrite ?app_nil_r; congruence.
Qed.

Lemma holds_ext_atoms env1 env2 r :
  (forall w, In w (atoms r) -> env1 w = env2 w) -> holds env1 r = holds env2 r.
Proof.
  induction r; cbn; intro H; auto.
  - rewrite IHr1, IHr2; [reflexivity| |]; intros; apply H; apply in_app_iff; auto.
  - rewrite IHr1, IHr2; [reflexivity| |]; intros; apply H; apply in_app_iff; auto.
  - now rewrite IHr.
Qed.

(** ** Substituting expressions for atoms *)

(** Replace every atom by a token list that denotes [g w]. *)
Definition subst_tok (f : text -> list rtok) (t : rtok) : list rtok :=
  match t with TAtom w => f w | _ => [t] end.

Fixpoint subst_region (g : text -> region) (r : region) : region :=
  match r with
  | RAtom w => g w
  | RAnd a b => RAnd (subst_region g a) (subst_region g b)
  | ROr a b => ROr (subst_region g a) (subst_region g b)
  | RNot a => RNot (subst_region g a)
  end.

Lemma subst_tok_expr f g :
  (forall ts r, expr ts r -> (forall w, In w (atoms r) -> factor (f w) (g w)) ->
     expr (flat_map (subst_tok f) ts) (subst_region g r)) /\
  (forall ts r, term ts r -> (forall w, In w (atoms r) -> factor (f w) (g w)) ->
     term (flat_map (subst_tok f) ts) (subst_region g r)) /\
  (forall ts r, factor ts r -> (forall w, In w (atoms r) -> factor (f w) (g w)) ->
     factor (flat_map (subst_tok f) ts) (subst_region g r)).
Proof.
  apply region_mutind; intros; cbn [subst_region flat_map subst_tok atoms] in *;
    rewrite ?flat_map_app; cbn [flat_map subst_tok app]; rewrite ?app_nil_r.
  - apply expr_term. auto.
  - apply expr_or; [apply H|apply H0]; intros; apply H1, in_app_iff; auto.
  - apply term_factor. auto.
  - apply term_and; [apply H|apply H0]; intros; apply H1, in_app_iff; auto.
  - apply H. now left.
  - apply factor_paren. auto.
  - apply factor_not. auto.
Qed.

Lemma holds_subst g env r : holds env (subst_region g r) = holds (fun w => holds env (g w)) r.
Proof. induction r; cbn; congruence. Qed.

(** Parenthesised or complemented expressions are factors. *)
Lemma same_region_refl ts : same_region ts ts.
Proof. split; intros r H; exists r; auto. Qed.
