(** Property theorems C07-C11 and C62: cells as written for the five codes. *)
From Coq Require Import QArith.
From Verif Require Import PyStr PyStrFacts Formatter FormatterProofs FortranNumber FortranNumberProofs PyInt PyIntFacts
  RegionSpec RegionFacts LexSpec CellModel CellProofs CellText CellWriters CellWritersProofs CellWritersOut.
Open Scope nat_scope.
Open Scope list_scope.

(** C07: the words of the MCNP card are the number, the material, the density (if
    any), the words of the geometry and the keywords; the geometry denotes the
    region of the cell in memory.  [spaced]: every word of the description is
    directly preceded by AND or an opening parenthesis, as [generalise] leaves it. *)
Theorem C07_mcnp_cell_keeps_region :
  forall print_importances c r,
  word_upto 60 (w_id c) -> length (str_Z (w_mat c)) <= 60 ->
  (w_mat c <> 0%Z -> word_upto 60 (w_dens c)) ->
  spaced false (w_items c) = true -> expr (toks (w_items c)) r ->
  Forall (one_atom mcnp_lex) (words_of (w_items c)) ->
  Forall (fun w => length w <= 60) (words_of (w_items c)) ->
  runs_at_most 60 (mcnp_keywords print_importances c) ->
  exists out ws r', (exists fuel, write_mcnp_cell fuel print_importances c = Some out) /\
    words out = w_id c :: str_Z (w_mat c) :: (if (w_mat c =? 0)%Z then [] else [w_dens c]) ++
                ws ++ words (mcnp_keywords print_importances c) /\
    expr (flat_map mcnp_lex ws) r' /\ forall env, holds env r' = holds env r.
Proof.
  intros b c r H1 H2 H3 H4 E H5 H6 H7.
  destruct (mcnp_out b c false H1 H2 H3 H4 H5 H6 H7) as (out & ws & F & W & L).
  exists out, ws, r. split; [exact F|]. split; [exact W|]. split; [now rewrite L|reflexivity].
Qed.
Print Assumptions C07_mcnp_cell_keeps_region.

Definition example_items : list item :=
  [Op AND; Str (T "-5"); Str (T "("); Str (T "6"); Op UNION; Op AND; Str (T "7"); Str (T ")");
   Op NOT; Str (T "("); Str (T "8"); Op AND; Str (T "-9"); Str (T ")")].
Definition example_region : region :=
  RAnd (RAnd (RAtom (T "-5")) (ROr (RAtom (T "6")) (RAtom (T "7")))) (RNot (RAnd (RAtom (T "8")) (RAtom (T "-9")))).
Definition example_cell : wcell :=
  WCell (T "12") 3 (T "-1.5") example_items (Some (T "2")) (Some (T "4")) (Some [T "1.0"; T "0.0"; T "0.0"]) None (T "1.0").

Example example_region_ok : expr (toks example_items) example_region.
Proof. apply parse_sound. vm_compute. reflexivity. Qed.

Example example_words_ok : Forall int_word (words_of example_items) /\
  Forall (fun w => length w <= 60) (words_of example_items) /\ spaced false example_items = true /\ tight example_items = true.
Proof.
  split; [|split; [|split; reflexivity]].
  - repeat (constructor; [eapply py_int_int_word; [vm_compute; reflexivity|vm_compute; intuition discriminate]|]).
    constructor.
  - repeat constructor; cbn; lia.
Qed.

Example C07_example :
  word_upto 60 (w_id example_cell) /\ runs_at_most 60 (mcnp_keywords true example_cell) /\
  Forall (one_atom mcnp_lex) (words_of (w_items example_cell)) /\
  write_mcnp_cell 9 true example_cell =
    Some (T "12 3 -1.5 -5 ( 6 : 7 ) # ( 8 -9 ) u=2 fill=4 (1.0 0.0 0.0 ) IMP:N=1.0" ++ [newline]).
Proof.
  split; [split; [discriminate|split; [reflexivity|cbn; lia]]|].
  split; [apply runs_maxrun; vm_compute; lia|].
  split; [|vm_compute; reflexivity].
  apply (Forall_impl _) with (2 := proj1 example_words_ok). intros w H. now apply plain_one_atom, int_word_plain.
Qed.

(** C08 *)
Theorem C08_serpent_cell_keeps_region :
  forall c r,
  head_ok c -> spaced false (w_items c) = true -> expr (toks (w_items c)) r ->
  Forall (one_atom (fun w => glex serpent_delim w [])) (words_of (w_items c)) ->
  Forall (fun w => length w <= 60) (words_of (w_items c)) ->
  exists out ws r', (exists fuel, write_serpent_cell fuel c = Some out) /\
    words out = [T "cell"; w_id c; univ_text c] ++
      match w_fill c with
      | Some f => [T "fill"; f]
      | None => if (w_mat c =? 0)%Z then [T "void"] else [str_Z (w_mat c)]
      end ++ ws /\
    expr (flat_map (fun w => glex serpent_delim w []) ws) r' /\ forall env, holds env r' = holds env r.
Proof.
  intros c r H1 H2 E H3 H4. destruct (serpent_out c r H1 H2 E H3 H4) as (out & ws & F & W & L).
  exists out, ws, r. split; [exact F|]. split; [exact W|]. split; [|reflexivity].
  rewrite L. apply expr_term, term_factor, factor_paren. exact E.
Qed.
Print Assumptions C08_serpent_cell_keeps_region.

Example example_head_ok : head_ok example_cell.
Proof.
  unfold head_ok. cbn [w_id w_mat w_univ w_fill example_cell].
  split; [split; [discriminate|split; [reflexivity|cbn; lia]]|].
  split; [cbn; lia|]. split; intros u [= <-]; (split; [discriminate|split; [reflexivity|cbn; lia]]).
Qed.

Example C08_example :
  Forall (one_atom (fun w => glex serpent_delim w [])) (words_of (w_items example_cell)) /\
  write_serpent_cell 9 example_cell = Some (T "cell 12 2 fill 4 ( -5 ( 6: 7 ) # ( 8 -9 ) ) " ++ [newline]).
Proof.
  split; [|vm_compute; reflexivity].
  apply (Forall_impl _) with (2 := proj1 example_words_ok). intros w H. now apply int_word_serpent.
Qed.

(** C09 *)
Theorem C09_openmc_cell_keeps_region :
  forall l r,
  spaced false l = true -> expr (toks l) r ->
  Forall (one_atom (fun w => glex openmc_delim w [])) (words_of l) ->
  exists r', expr (glex openmc_delim (openmc_region l) []) r' /\ forall env, holds env r' = holds env r.
Proof. intros l r H1 E H2. exists r. rewrite (openmc_glex l false) by assumption. auto. Qed.
Print Assumptions C09_openmc_cell_keeps_region.

Example C09_example :
  Forall (one_atom (fun w => glex openmc_delim w [])) (words_of example_items) /\
  openmc_region example_items = T " -5 ( 6 |  7 )  ~  ( 8 -9 ) ".
Proof.
  split; [|vm_compute; reflexivity].
  apply (Forall_impl _) with (2 := proj1 example_words_ok). intros w H. now apply int_word_openmc.
Qed.

(** C10 *)
Theorem C10_scone_cell_keeps_region :
  forall c r,
  head_ok c -> spaced false (w_items c) = true -> expr (toks (w_items c)) r ->
  Forall (one_atom (fun w => glex scone_delim w [])) (words_of (w_items c)) ->
  Forall (fun w => length w <= 60) (words_of (w_items c)) ->
  exists out ws r', (exists fuel, write_scone_cell fuel c = Some out) /\
    words out = [w_id c; T "{"; T "type"; T "unionCell;"; T "id"; w_id c ++ T ";"; T "filltype"] ++
      match w_fill c with
      | Some f => [T "uni;"; T "universe"; f ++ T ";"]
      | None => [T "mat;"; T "material"; if (w_mat c =? 0)%Z then T "void;" else T "m" ++ str_Z (w_mat c) ++ T ";"]
      end ++ [T "surfaces"; T "["] ++ ws ++ [T "];"; T "}"] /\
    expr (flat_map (fun w => glex scone_delim w []) ws) r' /\ forall env, holds env r' = holds env r.
Proof.
  intros c r H1 H2 E H3 H4. destruct (scone_out c H1 H2 H3 H4) as (out & ws & F & W & L).
  exists out, ws, r. split; [exact F|]. split; [exact W|]. split; [now rewrite L|reflexivity].
Qed.
Print Assumptions C10_scone_cell_keeps_region.

Example C10_example :
  Forall (one_atom (fun w => glex scone_delim w [])) (words_of (w_items example_cell)) /\
  write_scone_cell 9 example_cell =
    Some (T "12 { type unionCell; id 12; filltype uni; universe 4; surfaces [ -5 < 6" ++ [newline] ++
          T "      : 7 > # < 8 -9 > ]; }" ++ [newline]).
Proof.
  split; [|vm_compute; reflexivity].
  apply (Forall_impl _) with (2 := proj1 example_words_ok). intros w H. now apply int_word_scone.
Qed.

(** C11: read by FLUKA, the output is the region name, the number 5 and an
    expression that denotes the region of the cell when body Sn is the negative side
    of surface n.  [tight]: every AND is directly followed by a word, as [generalise]
    leaves it. *)
Theorem C11_fluka_cell_keeps_region :
  forall c r,
  tight (w_items c) = true -> expr (toks (w_items c)) r -> nonzero_ints (w_items c) ->
  forallb simple_char (w_id c) = true ->
  exists out reg r', write_fluka_cell c = Some out /\
    fluka_lex out = TAtom (T "C" ++ w_id c) :: TAtom (T "5") :: reg /\
    expr reg r' /\
    forall sense inside, (forall n, (0 < n)%Z -> inside (T "S" ++ str_Z n) = negb (sense n)) ->
      holds (fluka_env inside) r' = holds (zenv sense) r.
Proof.
  intros c r Ti E Nz Hid. destruct (fluka_out c r Ti Nz E Hid) as (out & W & L).
  exists out, (TOpen :: map (map_tok fluka_word) (toks (w_items c)) ++ [TClose]), (map_region fluka_word r).
  split; [exact W|]. split; [exact L|]. split.
  - apply expr_term, term_factor, factor_paren. apply (proj1 (map_tok_expr fluka_word)). exact E.
  - intros sense inside H. rewrite holds_map. apply holds_ext_atoms. intros w I.
    destruct (expr_words _ _ _ E I) as [Iw W']. destruct (Nz w Iw W') as (z & Ez & Hz).
    eapply fluka_word_env; eauto.
Qed.
Print Assumptions C11_fluka_cell_keeps_region.

Example C11_example :
  nonzero_ints example_items /\ forallb simple_char (w_id example_cell) = true /\
  write_fluka_cell example_cell = Some (T " C12 5 (  +S5 +( -S6 |  -S7 )  -( -S8  +S9 ) ) " ++ [newline]).
Proof.
  split; [|split; vm_compute; reflexivity].
  intros s I W. cbn in I.
  repeat (destruct I as [I|I]; [try discriminate; injection I as <-; try discriminate; eexists; (split; [reflexivity|discriminate])|]).
  destruct I.
Qed.

(** C62: a card with material that is read and written again for each code keeps its
    region; the atoms of the geometry are signed surface numbers.  [dens] is the
    text Python prints for the density. *)
Theorem C62_cell_conversion_keeps_region :
  forall wid wm wd dens imp geom id m d r,
  plain wid -> plain wm -> plain wd -> ~ In "$"%char geom -> hash_ok true geom = true ->
  py_int wid = Some id -> py_int wm = Some m -> (0 < m)%Z -> (0 < id)%Z ->
  get_fortran_formatted_number wd = Some d ->
  word_upto 60 dens -> length imp <= 50 -> length (str_Z id) <= 50 -> length (str_Z m) <= 50 ->
  expr (mcnp_lex geom) r ->
  (forall w, In (TAtom w) (mcnp_lex geom) -> length w <= 60 /\ exists z, py_int w = Some z /\ z <> 0%Z) ->
  exists c, interpret 1 (wid ++ blank :: wm ++ blank :: wd ++ blank :: geom) = Some c /\
    let w := WCell (str_Z (c_id c)) (c_mat c) dens (c_items c) None None None None imp in
    (exists fuel out ws, write_mcnp_cell fuel true w = Some out /\
       words out = [str_Z id; str_Z m; dens] ++ ws ++ words (T " IMP:N=" ++ imp) /\
       exists r', expr (flat_map mcnp_lex ws) r' /\ forall env, holds env r' = holds env r) /\
    (exists fuel out ws, write_serpent_cell fuel w = Some out /\
       words out = [T "cell"; str_Z id; T "0"; str_Z m] ++ ws /\
       exists r', expr (flat_map (fun w => glex serpent_delim w []) ws) r' /\ forall env, holds env r' = holds env r) /\
    (exists r', expr (glex openmc_delim (openmc_region (c_items c)) []) r' /\ forall env, holds env r' = holds env r) /\
    (exists fuel out ws, write_scone_cell fuel w = Some out /\
       words out = [str_Z id; T "{"; T "type"; T "unionCell;"; T "id"; str_Z id ++ T ";"; T "filltype"; T "mat;"; T "material";
                    T "m" ++ str_Z m ++ T ";"; T "surfaces"; T "["] ++ ws ++ [T "];"; T "}"] /\
       exists r', expr (flat_map (fun w => glex scone_delim w []) ws) r' /\ forall env, holds env r' = holds env r) /\
    (exists out reg, write_fluka_cell w = Some out /\
       fluka_lex out = TAtom (T "C" ++ str_Z id) :: TAtom (T "5") :: reg /\
       exists r', expr reg r' /\
         forall sense inside, (forall n, (0 < n)%Z -> inside (T "S" ++ str_Z n) = negb (sense n)) ->
           holds (fluka_env inside) r' = holds (zenv sense) r).
Proof.
  intros wid wm wd dens imp geom id m d r H0 H1 H2 H3 H4 H5 H6 H7 Hid H8 D Hi Li Lm E A.
  destruct (interpret_material wid wm wd geom id m d r 0 H0 H1 H2 H3 H4 H5 H6 H7 H8 E)
    as (c & Ec & Ei & Em & _ & Et & Sp & Ti).
  exists c. split; [exact Ec|]. cbn zeta. rewrite Ei, Em.
  assert (E' : expr (toks (c_items c)) r) by (now rewrite Et).
  assert (W : forall s, In (Str s) (c_items c) -> is_word s = true -> In (TAtom s) (mcnp_lex geom)).
  { intros s I Ws. rewrite <- Et. now apply in_toks_atom. }
  assert (WI : Forall int_word (words_of (c_items c))).
  { apply Forall_forall. intros s I. apply in_words_of in I as [I Ws]. pose proof (W s I Ws) as Ia.
    destruct (A s Ia) as (_ & z & Ez & _). apply (py_int_int_word s z Ez).
    intro F. exact (lex_no_plus geom s Ia F). }
  assert (WL : Forall (fun w => length w <= 60) (words_of (c_items c))).
  { apply Forall_forall. intros s I. apply in_words_of in I as [I Ws]. now apply (A s (W s I Ws)). }
  assert (Nz : nonzero_ints (c_items c)).
  { intros s I Ws. now apply (A s (W s I Ws)). }
  assert (Hm : (m =? 0)%Z = false) by lia.
  destruct (str_Z_word_upto id) as [Wi1 Wi2].
  set (w := WCell (str_Z id) m dens (c_items c) None None None None imp).
  assert (Hh : head_ok w).
  { split; [split; [assumption|split; assumption]|]. split; [assumption|]. split; discriminate. }
  split; [|split; [|split; [|split]]].
  - destruct (C07_mcnp_cell_keeps_region true w r) as (out & ws & r' & (fuel & F) & Wo & Er & Eh); try assumption.
    + split; [assumption|]. split; [assumption|]. cbn [w w_id]. lia.
    + cbn [w w_mat]. lia.
    + intros _. exact D.
    + apply (Forall_impl _) with (2 := WI). intros s I. now apply plain_one_atom, int_word_plain.
    + apply runs_maxrun. unfold mcnp_keywords, w; cbn [w_univ w_fill w_imp app].
      pose proof (maxrun_noblank (T " IMP:N=" ++ imp)) as Q. rewrite app_length in Q.
      change (length (T " IMP:N=")) with 7 in Q. lia.
    + exists fuel, out, ws. split; [exact F|]. split; [|now exists r'].
      rewrite Wo. unfold w; cbn [w_id w_mat w_dens]. rewrite Hm. reflexivity.
  - destruct (C08_serpent_cell_keeps_region w r) as (out & ws & r' & (fuel & F) & Wo & Er & Eh); try assumption.
    + apply (Forall_impl _) with (2 := WI). intros s I. now apply int_word_serpent.
    + exists fuel, out, ws. split; [exact F|]. split; [|now exists r'].
      rewrite Wo. unfold w, univ_text; cbn [w_id w_mat w_fill w_univ]. rewrite Hm. reflexivity.
  - apply C09_openmc_cell_keeps_region; try assumption.
    apply (Forall_impl _) with (2 := WI). intros s I. now apply int_word_openmc.
  - destruct (C10_scone_cell_keeps_region w r) as (out & ws & r' & (fuel & F) & Wo & Er & Eh); try assumption.
    + apply (Forall_impl _) with (2 := WI). intros s I. now apply int_word_scone.
    + exists fuel, out, ws. split; [exact F|]. split; [|now exists r'].
      rewrite Wo. unfold w; cbn [w_id w_mat w_fill]. rewrite Hm. reflexivity.
  - destruct (C11_fluka_cell_keeps_region w r) as (out & reg & r' & F & L & Er & Eh); try assumption.
    + apply digits_simple, str_Z_digits. lia.
    + exists out, reg. split; [exact F|]. split; [exact L|]. now exists r'.
Qed.
Print Assumptions C62_cell_conversion_keeps_region.

Example C62_example :
  let geom := T "-1 +2 (3:-4)#(5 6)" in
  ~ In "$"%char geom /\ hash_ok true geom = true /\ (exists r, expr (mcnp_lex geom) r) /\
  (forall w, In (TAtom w) (mcnp_lex geom) -> length w <= 60 /\ exists z, py_int w = Some z /\ z <> 0%Z).
Proof.
  cbn zeta. split; [vm_compute; intuition discriminate|]. split; [reflexivity|]. split.
  - eexists. apply parse_sound. vm_compute. reflexivity.
  - intros w I.
    assert (I' : In (TAtom w) [TAtom (T "-1"); TAtom (T "2"); TOpen; TAtom (T "3"); TUnion; TAtom (T "-4"); TClose;
       TNot; TOpen; TAtom (T "5"); TAtom (T "6"); TClose]) by exact I.
    repeat (destruct I' as [I'|I']; [try discriminate; injection I' as <-; (split; [cbn; lia|]); eexists; (split; [reflexivity|discriminate])|]).
    destruct I'.
Qed.

(** C63 is false: FLUKA reads 132 columns and the region line is not wrapped. *)
Theorem C63_fluka_line_width_refuted :
  exists c out l, spaced false (w_items c) = true /\ tight (w_items c) = true /\
    (exists r, expr (toks (w_items c)) r) /\ nonzero_ints (w_items c) /\
    write_fluka_cell c = Some out /\ In l (text_lines out) /\ 132 < length l.
Proof.
  exists (WCell (T "1") 0 [] (flat_map (fun _ => [Op AND; Str (T "-1234567")]) (repeat tt 20)) None None None None []).
  do 2 eexists. split; [reflexivity|]. split; [reflexivity|].
  split; [eexists; apply parse_sound; vm_compute; reflexivity|].
  split. { intros s I W. cbn in I. repeat (destruct I as [I|I]; [try discriminate; injection I as <-; eexists; (split; [reflexivity|discriminate])|]). destruct I. }
  split; [vm_compute; reflexivity|]. split; [left; reflexivity|]. vm_compute. lia.
Qed.
Print Assumptions C63_fluka_line_width_refuted.
