(** Property theorems C05, C06, C12, C61: reading cells, substituting surfaces. *)
From Coq Require Import QArith.
From Verif Require Import PyStr PyStrFacts FortranNumber FortranNumberProofs PyInt PyIntFacts
  RegionSpec RegionFacts CellModel CellProofs CellText.
Open Scope nat_scope.
Open Scope list_scope.

(** C05 for a card with material: the generic description denotes the region written
    on the card, whatever is true of the surfaces and cells mentioned.
    Restriction (see the refutation below): hashes are set off by blanks,
    parentheses or colons. *)
Theorem C05_reading_keeps_region_partial :
  forall wid wm wd geom id m d r f,
  plain wid -> plain wm -> plain wd -> ~ In "$"%char geom -> hash_ok true geom = true ->
  py_int wid = Some id -> py_int wm = Some m -> (0 < m)%Z ->
  get_fortran_formatted_number wd = Some d ->
  expr (mcnp_lex geom) r ->
  exists c r',
    interpret (S f) (wid ++ blank :: wm ++ blank :: wd ++ blank :: geom) = Some c /\
    c_id c = id /\ c_mat c = m /\ c_dens c = d /\
    expr (toks (c_items c)) r' /\ forall env, holds env r' = holds env r.
Proof.
  intros wid wm wd geom id m d r f H0 H1 H2 H3 H4 H5 H6 H7 H8 H9.
  destruct (interpret_material wid wm wd geom id m d r f H0 H1 H2 H3 H4 H5 H6 H7 H8 H9)
    as (c & E & Ei & Em & Ed & Et & _).
  exists c, r. repeat split; auto. now rewrite Et.
Qed.
Print Assumptions C05_reading_keeps_region_partial.

(** The same for a void cell. *)
Theorem C05_reading_void_keeps_region_partial :
  forall wid wm geom id m r f,
  plain wid -> plain wm -> ~ In "$"%char geom -> hash_ok true geom = true ->
  py_int wid = Some id -> py_int wm = Some m -> (m <= 0)%Z ->
  expr (mcnp_lex geom) r ->
  exists c r',
    interpret (S f) (wid ++ blank :: wm ++ blank :: geom) = Some c /\
    c_id c = id /\ c_mat c = 0%Z /\
    expr (toks (c_items c)) r' /\ forall env, holds env r' = holds env r.
Proof.
  intros wid wm geom id m r f H0 H1 H3 H4 H5 H6 H7 H9.
  destruct (interpret_void wid wm geom id m r f H0 H1 H3 H4 H5 H6 H7 H9)
    as (c & E & Ei & Em & Et & _).
  exists c, r. repeat split; auto. now rewrite Et.
Qed.
Print Assumptions C05_reading_void_keeps_region_partial.

Example C05_example :
  let geom := T "-1 +2 (3:-4)#(5 6) #7" in
  plain (T "12") /\ plain (T "3") /\ plain (T "-1.5e-3") /\ ~ In "$"%char geom /\
  hash_ok true geom = true /\ (exists d, get_fortran_formatted_number (T "-1.5e-3") = Some d) /\
  expr (mcnp_lex geom)
    (RAnd (RAnd (RAnd (RAnd (RAtom (T "-1")) (RAtom (T "2"))) (ROr (RAtom (T "3")) (RAtom (T "-4"))))
       (RNot (RAnd (RAtom (T "5")) (RAtom (T "6"))))) (RAtom (T "#7"))).
Proof.
  repeat split; try discriminate.
  - vm_compute. intuition discriminate.
  - eexists. reflexivity.
  - apply parse_sound. vm_compute. reflexivity.
Qed.

(** C05 fails for a hash written directly after a number, which MCNP allows since
    operators are delimiters: the complement is lost. *)
Theorem C05_hash_after_number_refuted :
  exists geom r c r',
    expr (mcnp_lex geom) r /\
    interpret 9 (T "10 0 " ++ geom) = Some c /\ expr (toks (c_items c)) r' /\
    exists env, holds env r' <> holds env r.
Proof.
  exists (T "-3#(4)"). do 3 eexists.
  split; [apply parse_sound; vm_compute; reflexivity|].
  split; [vm_compute; reflexivity|].
  split; [apply parse_sound; vm_compute; reflexivity|].
  exists (fun _ => true). vm_compute. discriminate.
Qed.
Print Assumptions C05_hash_after_number_refuted.

(** C05 fails for a card that ends in a dollar comment without a final newline: the
    last character of the comment becomes part of the geometry. *)
Theorem C05_trailing_comment_refuted :
  exists c, interpret 9 (T "10 0 -3 $ box") = Some c /\
    c_text c = [T "-3"; T "x"] /\ toks (c_items c) <> mcnp_lex (T "-3").
Proof. eexists. split; [vm_compute; reflexivity|]. split; [reflexivity|vm_compute; discriminate]. Qed.
Print Assumptions C05_trailing_comment_refuted.

(** C06 is false: a surface right after an opening parenthesis is not recorded. *)
Theorem C06_surface_list_complete_refuted :
  exists desc o z r, expr (map word_tok desc) r /\ generalise desc = Some (o, z) /\
    exists s n, In s desc /\ py_int s = Some n /\ ~ In (Z.abs n) z.
Proof.
  exists [T "("; T "1"; T "2"; T ")"]. do 3 eexists.
  split; [apply parse_sound; vm_compute; reflexivity|].
  split; [vm_compute; reflexivity|].
  exists (T "1"), 1%Z. split; [right; left; reflexivity|]. split; [reflexivity|].
  vm_compute. intuition discriminate.
Qed.
Print Assumptions C06_surface_list_complete_refuted.

(** C06, what is true: every surface that does not follow an opening parenthesis is
    recorded (the first word counts as not following one), and nothing else is. *)
Theorem C06_surface_list_partial :
  forall desc o z r, expr (map word_tok desc) r -> generalise desc = Some (o, z) ->
  (forall a p s b n, desc = a ++ p :: s :: b -> p <> T "(" -> py_int s = Some n -> In (Z.abs n) z) /\
  (forall s b n, desc = s :: b -> py_int s = Some n -> In (Z.abs n) z) /\
  (forall n, In n z -> exists s k, In s desc /\ py_int s = Some k /\ Z.abs k = n).
Proof.
  intros desc o z r E G. unfold generalise in G. apply gen_loop_surfs in G. subst z.
  split; [|split].
  - intros. eapply recorded_in; eauto.
  - intros s b n -> Hn.
    assert (Q : item_is (T "(") (Str (last (s :: b) [])) = false).
    { destruct (proj1 wf_ends _ _ E) as (t' & t & Et & En).
      destruct (exists_last (l := s :: b)) as (l' & x & El); [discriminate|].
      rewrite El in *. rewrite last_last. rewrite map_app in Et. cbn [map] in Et.
      apply app_inj_tail in Et as [_ Et]. cbn [item_is].
      destruct (text_eqb_spec x (T "(")); [|reflexivity]. subst x. rewrite <- Et in En. discriminate. }
    rewrite Q. cbn [recorded].
    destruct (text_eqb_spec s (T "(")); [subst; discriminate|].
    apply in_app_iff. left. unfold surf_of. rewrite Hn. now left.
  - intros n. apply recorded_sound.
Qed.
Print Assumptions C06_surface_list_partial.

Example C06_example : exists o z r,
  expr (map word_tok [T "1"; T "("; T "2"; T ":"; T "-3"; T ")"; T "4"]) r /\
  generalise [T "1"; T "("; T "2"; T ":"; T "-3"; T ")"; T "4"] = Some (o, z) /\ z = [1; 3; 4]%Z.
Proof.
  do 3 eexists. split; [apply parse_sound; vm_compute; reflexivity|].
  split; vm_compute; reflexivity.
Qed.

(** C12 *)
Theorem C12_replace_surface_keeps_region :
  forall ref old reverse l r,
  (0 < ref)%Z -> (0 < old)%Z -> all_ints l -> expr (toks l) r ->
  exists l' r', replace_surface ref old reverse l = Some l' /\ expr (toks l') r' /\
    (forall sense, sense old = xorb reverse (sense ref) ->
       holds (zenv sense) r' = holds (zenv sense) r) /\
    (ref <> old -> ~ mentions l' old) /\
    (forall n, mentions l' n -> mentions l n \/ n = ref).
Proof.
  intros ref old rev l r Pr Po A E.
  destruct (replace_surface_region ref old rev l r Pr Po A E) as (l' & r' & H1 & H2 & H3).
  exists l', r'. repeat split; auto.
  - intros N M. rewrite replace_surface_eq in H1 by assumption. injection H1 as <-.
    apply mentions_rep in M; try assumption. destruct M as [[M _]|[_ M]]; congruence.
  - intros n M. rewrite replace_surface_eq in H1 by assumption. injection H1 as <-.
    apply mentions_rep in M; try assumption. tauto.
Qed.
Print Assumptions C12_replace_surface_keeps_region.

Example C12_example :
  let l := [Op AND; Str (T "-5"); Str (T "("); Str (T "6"); Op UNION; Op AND; Str (T "5"); Str (T ")")] in
  all_ints l /\ (exists r, expr (toks l) r) /\
  replace_surface 7 5 true l =
    Some [Op AND; Str (T "7"); Str (T "("); Str (T "6"); Op UNION; Op AND; Str (T "-7"); Str (T ")")].
Proof.
  cbn zeta. split; [|split].
  - intros s I W. cbn in I.
    repeat (destruct I as [I|I]; [try discriminate; injection I as <-; try discriminate; eexists; reflexivity|]).
    destruct I.
  - eexists. apply parse_sound. vm_compute. reflexivity.
  - reflexivity.
Qed.

(** C61 is false: a density written in Fortran style with a plus exponent, 1.0+3
    (1000), is read as 1.03 because plus signs are purged from the whole card. *)
Theorem C61_density_value_refuted :
  exists wd c q, get_fortran_formatted_number wd = Some q /\ (q == 1000)%Q /\
    interpret 9 (T "10 1 " ++ wd ++ T " -3") = Some c /\ (c_dens c == 103 # 100)%Q.
Proof.
  exists (T "1.0+3"). do 2 eexists. split; [vm_compute; reflexivity|]. split; [reflexivity|].
  split; [vm_compute; reflexivity|reflexivity].
Qed.
Print Assumptions C61_density_value_refuted.

(** C61, what is true: a density without plus sign is read with its value. *)
Theorem C61_density_value_partial :
  forall wid wm s ip fp e geom id m r f,
  plain wid -> plain wm -> ~ In "$"%char geom -> hash_ok true geom = true ->
  py_int wid = Some id -> py_int wm = Some m -> (0 < m)%Z ->
  all_digits ip -> all_digits fp -> ip ++ fp <> [] -> exp_ok e ->
  ~ In "+"%char (spelled s ip fp e) ->
  expr (mcnp_lex geom) r ->
  exists c, interpret (S f) (wid ++ blank :: wm ++ blank :: spelled s ip fp e ++ blank :: geom) = Some c /\
    (c_dens c == worth s ip fp e)%Q.
Proof.
  intros wid wm s ip fp e geom id m r f H0 H1 H3 H4 H5 H6 H7 Hi Hf Hn He Np E.
  destruct (fortran_number_ok s ip fp e Hi Hf Hn He) as (q & Hq & Eq).
  assert (P : plain (spelled s ip fp e)).
  { split.
    - unfold spelled. destruct s; cbn; try discriminate; destruct ip; discriminate.
    - apply forallb_forall. intros c I.
      assert (C : is_digit c = true \/ c = "-"%char \/ c = "+"%char \/ c = "."%char \/ c = "e"%char \/ c = "E"%char).
      { unfold all_digits in *. rewrite forallb_forall in *. unfold spelled in I.
        apply in_app_iff in I as [I|I]; [destruct s; cbn in I; intuition|].
        apply in_app_iff in I as [I|I]; [left; auto|].
        destruct I as [I|I]; [intuition|].
        apply in_app_iff in I as [I|I]; [left; auto|].
        destruct e as [|u g d|mi d]; [destruct I| |].
        - destruct He as [_ He]. unfold all_digits in He. rewrite forallb_forall in He. cbn [exp_text] in I.
          apply in_app_iff in I as [I|I]; [destruct u; cbn in I; intuition|].
          apply in_app_iff in I as [I|I]; [destruct g; cbn in I; intuition|]. left; auto.
        - destruct He as [_ He]. unfold all_digits in He. rewrite forallb_forall in He. cbn [exp_text] in I.
          apply in_app_iff in I as [I|I]; [destruct mi; cbn in I; intuition|]. left; auto. }
      destruct C as [C|[->|[->|[->|[->| ->]]]]]; try reflexivity.
      + unfold plain_char, is_delim. 
        assert (Sp : is_space c = false).
        { destruct (is_space c) eqn:S; [|reflexivity]. apply space_not_digit in S. congruence. }
        rewrite Sp, !(digit_not c) by (assumption || reflexivity). reflexivity.
      + contradiction. }
  destruct (interpret_material wid wm (spelled s ip fp e) geom id m q r f H0 H1 P H3 H4 H5 H6 H7 Hq E)
    as (c & Ec & _ & _ & Ed & _).
  exists c. split; [exact Ec|]. now rewrite Ed.
Qed.
Print Assumptions C61_density_value_partial.

Example C61_example : exists c, interpret 9 (T "10 1 -7.8-2 -3") = Some c /\ (c_dens c == -78 # 1000)%Q.
Proof. eexists. split; [vm_compute; reflexivity|reflexivity]. Qed.
