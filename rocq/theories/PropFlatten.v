(** Property theorems C29, C30: replacing macrobodies in cells. *)
From Coq Require Import Reals List Lra Psatz FinFun.
From Verif Require Import PyStr PyStrFacts FortranNumberProofs PyInt PyIntFacts RegionSpec RegionFacts
  GeomSpec SurfModel SurfSpec SurfProofs MacroModel MacroSpec MacroProofs CellModel CellProofs CellText
  MacroText FlattenModel FlattenProofs FlattenDeck PropMacro.
Open Scope nat_scope.
Open Scope list_scope.

(** A cell read from a card without dollar sign is as the theorems require. *)
Lemma interpret_good f s c : interpret (S f) s = Some c -> ~ In "$"%char s ->
  (exists r, expr (map word_tok (c_text c)) r) -> cell_good c.
Proof.
  unfold interpret. intros I ND (r & E).
  rewrite drop_dollars_none in I.
  2:{ intro J. apply in_spacify in J as [J|[J|J]]; try discriminate. contradiction. }
  destruct (words_tokens s ND) as [TK _].
  destruct (words (spacify s)) as [|w0 [|w1 ws]]; try discriminate. cbn [cell_of_words] in I.
  inversion TK as [|? ? _ TK1]; subst. inversion TK1 as [|? ? _ TK2]; subst.
  destruct (py_int w0); [|discriminate]. destruct (py_int w1) as [m|]; [|discriminate].
  destruct (0 <? m)%Z.
  - destruct ws as [|w2 desc]; [discriminate|]. destruct (FortranNumber.get_fortran_formatted_number w2); [|discriminate].
    destruct (generalise desc) as [[its sf]|] eqn:G; [|discriminate]. injection I as <-.
    cbn [c_text] in E. inversion TK2; subst.
    destruct (generalise_toks _ _ E) as (o & y & G' & TO). rewrite G in G'. injection G' as <- <-.
    split; [assumption|]. split; [exact TO|]. exists r. cbn [c_items]. now rewrite TO.
  - destruct (generalise ws) as [[its sf]|] eqn:G; [|discriminate]. injection I as <-.
    cbn [c_text] in E.
    destruct (generalise_toks _ _ E) as (o & y & G' & TO). rewrite G in G'. injection G' as <- <-.
    split; [assumption|]. split; [exact TO|]. exists r. cbn [c_items]. now rewrite TO.
Qed.

(** C29 (with C30 for these decks).  Missing: decks in which the number of one macrobody ends in the digits of another's
    (refuted below) and dollar comments.
    [holds env] before and [holds env'] after: see [means]. *)
Theorem C29_flatten_keeps_regions_partial d :
  macros_ok (d_surfs d) (d_last d) -> (forall s, In s (d_surfs d) -> (0 < s_id s <= d_last d)%Z) -> (0 <= d_last d)%Z ->
  Forall (fun c => cell_good c /\ dots_ok (d_surfs d) c) (d_cells d) ->
  exists d' news,
    flatten_macrobodies d = Some d' /\
    (* surfaces: the macrobodies are gone, the new ones have fresh and distinct numbers and come from the macrobodies *)
    d_surfs d' = filter (fun s => negb (is_macrobody s)) (d_surfs d) ++ news /\
    Forall (fun s => is_macrobody s = false) (d_surfs d') /\
    NoDup (map s_id news) /\ (forall s, In s news -> (d_last d < s_id s <= d_last d')%Z) /\
    (forall s c, In (s, c) (counters (d_surfs d) (d_last d)) ->
       exists x, explode_macrobody c s = Some x /\ incl (inherit s (x_surfs x)) (d_surfs d')) /\
    (forall y, In y news -> exists s c x, In (s, c) (counters (d_surfs d) (d_last d)) /\
       explode_macrobody c s = Some x /\ In y (inherit s (x_surfs x))) /\
    (* cells *)
    Forall2 (fun c c' =>
      c_id c' = c_id c /\ c_mat c' = c_mat c /\ c_dens c' = c_dens c /\
      (forall s w, In s (d_surfs d) -> is_macrobody s = true -> In w (c_text c') -> ~ names (s_id s) w) /\
      (forall w, In w (c_text c') -> ~ In "."%char w) /\
      (* the words: old ones, delimiters, new numbers *)
      toks (c_items c') = map word_tok (c_text c') /\
      (forall w, In w (c_text c') -> In w (c_text c) \/ word_tok w <> TAtom w \/
         exists s ct j sg, In (s, ct) (counters (d_surfs d) (d_last d)) /\ In j (range ct (facets_of s)) /\ w = signed_word sg j) /\
      (laid (c_items c) -> laid (c_items c')) /\
      (exists r', expr (toks (c_items c')) r' /\
        forall r, expr (toks (c_items c)) r ->
        forall env env', means (d_surfs d) (d_last d) env' env -> sides env' -> holds env r = holds env' r') /\
      (* a word that names no macrobody stays, and so does the whole text of a cell that names none *)
      (forall w, In w (c_text c) -> (forall s, In s (d_surfs d) -> is_macrobody s = true -> ~ names (s_id s) w) -> In w (c_text c')) /\
      ((forall w s, In w (c_text c) -> In s (d_surfs d) -> is_macrobody s = true -> ~ names (s_id s) w) -> c_text c' = c_text c))
      (d_cells d) (d_cells d').
Proof.
  intros MO IDS P F. destruct (loop_ok (d_surfs d) d MO P F) as (d' & news & EL & FC & ES & EI & ELS & FM & EN' & CT).
  unfold flatten_macrobodies. rewrite EL.
  assert (FN : filter (fun s => negb (is_macrobody s)) (d_surfs d') = filter (fun s => negb (is_macrobody s)) (d_surfs d) ++ news).
  { rewrite ES, filter_app. f_equal. clear -FM. induction FM as [|s l H FM IH]; [reflexivity|]. cbn [filter]. rewrite H. cbn [negb]. now f_equal. }
  eexists. exists news. split; [reflexivity|]. cbn [d_surfs d_cells d_last].
  split; [exact FN|]. split.
  { apply Forall_forall. intros s I. apply filter_In in I as [_ I]. now destruct (is_macrobody s). }
  split.
  { rewrite EI. unfold range. apply FinFun.Injective_map_NoDup; [|apply seq_NoDup]. intros a b H. lia. }
  split.
  { intros s I. assert (J : In (s_id s) (map s_id news)) by now apply in_map. rewrite EI in J. unfold range in J.
    apply in_map_iff in J as (q & <- & Q). apply in_seq in Q. lia. }
  split.
  { intros s c I. destruct (CT s c I) as (x & EX & IX). exists x. split; [assumption|]. rewrite FN. now apply incl_appr. }
  split.
  { intros y Iy. rewrite EN' in Iy. apply in_flat_map in Iy as ([s c] & I & Iy). cbn [fst snd] in Iy.
    destruct (explode_macrobody c s) as [x|] eqn:EX; [|destruct Iy]. now exists s, c, x. }
  clear -FC. induction FC as [|c c' ? ? R FC IH]; constructor; [|assumption].
  destruct R as (F1 & F2 & F3 & CG' & ND' & NM' & KN' & SP' & WO' & SEM & KW' & KT').
  split; [assumption|]. split; [assumption|]. split; [assumption|]. split; [assumption|]. split; [assumption|].
  destruct CG' as (_ & TK' & r' & E'). split; [assumption|]. split; [assumption|]. split; [assumption|]. split; [|now split]. exists r'. split; [assumption|]. intros r E env env'. now apply SEM.
Qed.
Print Assumptions C29_flatten_keeps_regions_partial.

Definition card (s : text) : cell :=
  match interpret 9 s with Some c => c | None => Cell 0 0 (QArith_base.Qmake 0 1) [] [] [] end.

Lemma card_good s r : ~ In "$"%char s -> (exists c, interpret 9 s = Some c /\ parse (map word_tok (c_text c)) = Some r) -> cell_good (card s).
Proof.
  intros ND (c & I & E). unfold card. rewrite I. eapply interpret_good; [eassumption|assumption|]. exists r. now apply parse_sound.
Qed.

Lemma card_dots l s : (forall w, In w (c_text (card s)) -> existsb (Ascii.eqb ".") w = true ->
    exists t sg k, In t l /\ is_macrobody t = true /\ 1 <= k <= facets_of t /\ w = facet_word sg (s_id t) k) -> dots_ok l (card s).
Proof.
  intros H w I D. apply H; [assumption|]. apply existsb_exists. exists "."%char. auto.
Qed.

(** A deck with an RPP 3, an RCC 14 and a sphere 5, the cells using all forms. *)
Definition sample : deck :=
  mkDeck [mkS 3 None MACRO_RPP [-1; 1; -2; 2; 0; 5]%R TRANSMISSION;
          mkS 5 None SPHERE_GENERAL [0; 0; 0; 9]%R TRANSMISSION;
          mkS 14 None MACRO_RCC [0; 0; 0; 0; 0; 4; 1]%R TRANSMISSION]
         [card (T "1 0 -3 14 -5"); card (T "2 0 (3:-14.1) -5 #1"); card (T "3 0 5")] 14.

Lemma sample_cells : Forall (fun c => cell_good c /\ dots_ok (d_surfs sample) c) (d_cells sample).
Proof.
  cbn [sample d_cells]. constructor; [|constructor; [|constructor; [|constructor]]].
  - split; [eapply card_good; [vm_compute; intuition discriminate|eexists; split; vm_compute; reflexivity]|].
    apply card_dots. intros w I D. vm_compute in I. repeat (destruct I as [<-|I]; [vm_compute in D; discriminate D|]). destruct I.
  - split; [eapply card_good; [vm_compute; intuition discriminate|eexists; split; vm_compute; reflexivity]|].
    apply card_dots. intros w I D. vm_compute in I. do 3 (destruct I as [<-|I]; [vm_compute in D; discriminate D|]).
    destruct I as [<-|I].
    + exists (mkS 14 None MACRO_RCC [0; 0; 0; 0; 0; 4; 1]%R TRANSMISSION), true, 1.
      split; [right; right; left; reflexivity|split; [reflexivity|split; [cbn; lia|reflexivity]]].
    + repeat (destruct I as [<-|I]; [vm_compute in D; discriminate D|]). destruct I.
  - split; [eapply card_good; [vm_compute; intuition discriminate|eexists; split; vm_compute; reflexivity]|].
    apply card_dots. intros w I D. vm_compute in I. repeat (destruct I as [<-|I]; [vm_compute in D; discriminate D|]). destruct I.
Qed.

Example C29_example :
  macros_ok (d_surfs sample) (d_last sample) /\ (forall s, In s (d_surfs sample) -> (0 < s_id s <= d_last sample)%Z) /\
  Forall (fun c => cell_good c /\ dots_ok (d_surfs sample) c) (d_cells sample) /\
  option_map (fun d' => map c_text (d_cells d')) (flatten_macrobodies sample) = Some
     [[T "("; T "-15"; T "-16"; T "-17"; T "-18"; T "-19"; T "-20"; T ")"; T "("; T "21"; T ":"; T "22"; T ":"; T "23"; T ")"; T "-5"];
      [T "("; T "("; T "15"; T ":"; T "16"; T ":"; T "17"; T ":"; T "18"; T ":"; T "19"; T ":"; T "20"; T ")"; T ":"; T "-21"; T ")"; T "-5"; T "#1"];
      [T "5"]].
Proof.
  split; [|split; [|split]].
  - split; [|split].
    + intros s I M. cbn [sample d_surfs In] in I. destruct I as [<-|[<-|[<-|[]]]]; try discriminate M; (split; [cbn; lia|unfold enough; cbn; lia]).
    + cbn. repeat constructor; cbn; intuition discriminate.
    + intros s t u Is It Ms Mt N. cbn [sample d_surfs In] in Is, It.
      destruct Is as [<-|[<-|[<-|[]]]]; try discriminate Ms; destruct It as [<-|[<-|[<-|[]]]]; try discriminate Mt; cbn in N; try congruence;
        intros E; apply (f_equal (@rev _)) in E; rewrite rev_app_distr in E; vm_compute in E; discriminate E.
  - intros s I. cbn [sample d_surfs In] in I. repeat (destruct I as [<-|I]; [cbn; lia|]). destruct I.
  - apply sample_cells.
  - lazy. reflexivity.
Qed.

(** C30 is false: a facet of macrobody 15 is resolved against macrobody 5 when the cell
    also uses 5 and 5 comes first. *)
Theorem C30_facet_of_own_macrobody_refuted :
  exists d d' c c', d_cells d = [c] /\ flatten_macrobodies d = Some d' /\ d_cells d' = [c'] /\
    c_text c = [T "-5"; T "15.2"] /\
    In (mkS 15 None MACRO_RPP [0; 1; 0; 1; 0; 1]%R TRANSMISSION) (d_surfs d) /\
    (* the facet becomes surface 17, one of the surfaces of macrobody 5 *)
    last (c_text c') [] = T "17" /\
    exists x, explode_macrobody (d_last d) (mkS 5 None MACRO_RPP [0; 9; 0; 9; 0; 9]%R TRANSMISSION) = Some x /\
      In 17%Z (map s_id (x_surfs x)).
Proof.
  exists (mkDeck [mkS 5 None MACRO_RPP [0; 9; 0; 9; 0; 9]%R TRANSMISSION; mkS 15 None MACRO_RPP [0; 1; 0; 1; 0; 1]%R TRANSMISSION]
            [card (T "1 0 -5 15.2")] 15).
  eexists. eexists. eexists. split; [vm_compute; reflexivity|]. split; [vm_compute; reflexivity|].
  split; [reflexivity|]. split; [reflexivity|]. split; [right; left; reflexivity|].
  split; [reflexivity|]. eexists. split; [reflexivity|]. cbn. auto.
Qed.
Print Assumptions C30_facet_of_own_macrobody_refuted.

(** C30: which words are taken for a macrobody: its number, with or without a minus, alone or followed by dots and one
    digit from 1 to 9; a facet 0 or of two digits is left for other macrobodies to claim. *)
Theorem C30_pattern m w : (0 <= m)%Z -> macro_match (str_Z m) w = true <->
  exists sign t, w = sign ++ str_Z m ++ t /\ (sign = [] \/ sign = T "-") /\
    (t = [] \/ exists n d, t = repeat "."%char (S n) ++ [d] /\ In d (T "123456789")).
Proof.
  intro P. assert (DD : forall t, dots_digit t = true <-> exists n d, t = repeat "."%char (S n) ++ [d] /\ In d (T "123456789")).
  { assert (DG : forall d, is_digit d && negb (Ascii.eqb d "0") = true <-> In d (T "123456789")).
    { intro d. destruct d as [[] [] [] [] [] [] [] []]; vm_compute; intuition discriminate. }
    induction t as [|c r IH]; [split; [discriminate|intros (n & d & E & _); destruct n; discriminate]|]. cbn [dots_digit]. rewrite andb_true_iff, Ascii.eqb_eq.
    destruct r as [|d [|e r]].
    - split; [intros [_ H]; discriminate|]. intros (n & d & E & _). destruct n; discriminate.
    - rewrite DG. split; [intros [-> H]; now exists 0, d|]. intros (n & d' & E & I). destruct n as [|n]; cbn [repeat app] in E; [injection E as -> ->; auto|].
      injection E as _ _ E. destruct n; discriminate.
    - rewrite IH. split.
      + intros [-> (n & d' & E & I)]. exists (S n), d'. cbn [repeat app] in *. now rewrite E.
      + intros (n & d' & E & I). destruct n as [|n]; cbn [repeat app] in E; [discriminate|]. split; [congruence|]. exists n, d'. split; [cbn [repeat app]; congruence|exact I]. }
  assert (TO : forall t, tail_ok (Some t) = true <-> t = [] \/ exists n d, t = repeat "."%char (S n) ++ [d] /\ In d (T "123456789")).
  { intro t. rewrite <- DD. destruct t as [|c t]; cbn [tail_ok]; [intuition|]. split; [auto|]. intros [H|H]; [discriminate|exact H]. }
  assert (HD : exists c r, str_Z m = c :: r /\ c <> "-"%char).
  { unfold str_Z. replace (m <? 0)%Z with false by (symmetry; apply Z.ltb_ge; lia). destruct (str_N_ok (Z.to_N m)) as (N & D & _).
    destruct (str_N (Z.to_N m)) as [|c r]; [contradiction|]. exists c, r. split; [reflexivity|]. intros ->. discriminate D. }
  destruct HD as (c0 & r0 & E0 & N0). unfold macro_match. split.
  - intro H. destruct w as [|c w]; [rewrite E0 in H; discriminate|]. destruct (Ascii.eqb_spec c "-") as [->|NC].
    + destruct (after (str_Z m) w) as [t|] eqn:A; [|discriminate]. apply after_app in A as ->. exists (T "-"), t. split; [reflexivity|]. split; [now right|now apply TO].
    + destruct (after (str_Z m) (c :: w)) as [t|] eqn:A; [|discriminate]. apply after_app in A. exists [], t. split; [exact A|]. split; [now left|now apply TO].
  - intros (sign & t & -> & [-> | ->] & H).
    + cbn [app]. pose proof (app_after (str_Z m) t) as A. rewrite E0 in A |- *. cbn [app] in A |- *. destruct (Ascii.eqb_spec c0 "-"); [contradiction|].
      rewrite A. now apply TO.
    + change (T "-" ++ str_Z m ++ t) with ("-"%char :: str_Z m ++ t). cbv iota beta. rewrite Ascii.eqb_refl, app_after. now apply TO.
Qed.
Print Assumptions C30_pattern.
Example C30_pattern_example : macro_match (str_Z 15) (T "-15.2") = true /\ macro_match (str_Z 15) (T "15.0") = false /\ macro_match (str_Z 5) (T "15.2") = false.
Proof. vm_compute. auto. Qed.

(** C29 is false for the same deck: the region changes. *)
Theorem C29_flatten_keeps_regions_refuted :
  exists d d' c c' r r' env env', d_cells d = [c] /\ flatten_macrobodies d = Some d' /\ d_cells d' = [c'] /\
    cell_good c /\ dots_ok (d_surfs d) c /\
    expr (toks (c_items c)) r /\ expr (toks (c_items c')) r' /\
    means (d_surfs d) (d_last d) env' env /\ sides env' /\ holds env r <> holds env' r'.
Proof.
  set (s5 := mkS 5 None MACRO_RPP [0; 9; 0; 9; 0; 9]%R TRANSMISSION).
  set (s15 := mkS 15 None MACRO_RPP [0; 1; 0; 1; 0; 1]%R TRANSMISSION).
  set (c := card (T "1 0 -5 15.2")).
  (* all surfaces of 5 negative, those of 15 positive *)
  set (env' := fun w => zenv (fun j => (21 <? j)%Z) w).
  set (env := fun w => if text_eqb w (sid 5) then false else if text_eqb w (minus (sid 5)) then true
     else if text_eqb w (sid 15) then true else if text_eqb w (minus (sid 15)) then false
     else match facet_of 5 w with Some (sg, k) => env' (signed_word sg (15 + Z.of_nat k)) | None =>
          match facet_of 15 w with Some (sg, k) => env' (signed_word sg (21 + Z.of_nat k)) | None => env' w end end).
  exists (mkDeck [s5; s15] [c] 15). eexists. exists c. eexists. eexists. eexists. exists env, env'.
  split; [reflexivity|]. split; [vm_compute; reflexivity|]. split; [reflexivity|].
  split; [eapply (interpret_good 8 (T "1 0 -5 15.2")); [reflexivity|vm_compute; intuition discriminate|eexists; apply parse_sound; vm_compute; reflexivity]|].
  split.
  { intros w I D. vm_compute in I. destruct I as [<-|[<-|[]]]; [exfalso; vm_compute in D; intuition discriminate|].
    exists s15, false, 2. split; [right; left; reflexivity|split; [reflexivity|split; [cbn; lia|reflexivity]]]. }
  split; [apply parse_sound; vm_compute; reflexivity|]. split; [apply parse_sound; vm_compute; reflexivity|].
  split; [|split].
  - split.
    + intros s ct I. cbn in I. destruct I as [I|[I|[]]]; injection I as <- <-; (split; [vm_compute; reflexivity|]); (split; [vm_compute; reflexivity|]);
      intros sg k K; change (facets_of _) with 6 in K; destruct sg;
      (destruct k as [|[|[|[|[|[|[|k]]]]]]]; [lia|vm_compute; reflexivity|vm_compute; reflexivity|vm_compute; reflexivity|
         vm_compute; reflexivity|vm_compute; reflexivity|vm_compute; reflexivity|lia]).
    + intros w N. unfold env.
      assert (N5 : ~ names 5 w) by (apply (N s5 15%Z); left; reflexivity).
      assert (N15 : ~ names 15 w) by (apply (N s15 21%Z); right; left; reflexivity).
      destruct (text_eqb_spec w (sid 5)); [exfalso; apply N5; left; assumption|].
      destruct (text_eqb_spec w (minus (sid 5))); [exfalso; apply N5; right; left; assumption|].
      destruct (text_eqb_spec w (sid 15)); [exfalso; apply N15; left; assumption|].
      destruct (text_eqb_spec w (minus (sid 15))); [exfalso; apply N15; right; left; assumption|].
      destruct (facet_of 5 w) as [[sg k]|] eqn:F; [exfalso; apply facet_of_some in F as [F K]; apply N5; right; right; eauto|].
      destruct (facet_of 15 w) as [[sg k]|] eqn:F'; [exfalso; apply facet_of_some in F' as [F' K]; apply N15; right; right; eauto|].
      reflexivity.
  - intros j P. unfold env'. rewrite zenv_minus, zenv_sid by assumption. reflexivity.
  - vm_compute. discriminate.
Qed.
Print Assumptions C29_flatten_keeps_regions_refuted.
