(** Property theorems: materials and importances written for FLUKA (C42, C44). *)
From Coq Require Import QArith Qabs Qpower Lia Lqa ZifyBool Permutation.
From Verif Require Import PyStr PyStrFacts PyInt PyIntFacts FortranNumber FortranNumberProofs PyDict MaterialModel CellText SurfWriters SurfWritersProofs
  PyFmtE PyFmtEFacts FlukaInput.
Open Scope nat_scope.
Open Scope list_scope.

(** * How FLUKA reads a card: fields of ten columns *)
Definition field (k : nat) (card : text) : text := firstn 10 (skipn (10 * k) card).

(** The components on a COMPOUND card: three pairs of fields, blank pairs left out. *)
Definition is_blank (s : text) : bool := forallb is_space s.
Definition pairs_on (card : text) : list (text * text) :=
  filter (fun p => negb (is_blank (fst p) && is_blank (snd p)))
    [(field 1 card, field 2 card); (field 3 card, field 4 card); (field 5 card, field 6 card)].

(** A pair of fields shows a component: the name, and the fraction up to half a unit of the last of four digits. *)
Definition shows_component (p : text * text) (e : text * Q) : Prop :=
  words (snd p) = [fst e] /\ exists w v, words (fst p) = [w] /\ py_float w = Some v /\ (Qabs (v - snd e) <= Qabs (snd e) * (1 # 2000))%Q.

(** * Lemmas on fields *)
Lemma field_0 a b : length a = 10 -> field 0 (a ++ b) = a.
Proof. intro L. unfold field. change (10 * 0) with 0. cbn [skipn]. rewrite <- L at 1. rewrite firstn_app, Nat.sub_diag, firstn_all. cbn [firstn]. apply app_nil_r. Qed.
Lemma field_S k a b : length a = 10 -> field (S k) (a ++ b) = field k b.
Proof.
  intro L. unfold field. replace (10 * S k) with (length a + 10 * k) by lia. rewrite skipn_app, skipn_all2 by lia.
  replace (length a + 10 * k - length a) with (10 * k) by lia. reflexivity.
Qed.

Lemma blank_repeat n : is_blank (repeat blank n) = true.
Proof. unfold is_blank. induction n; [reflexivity|]. cbn [repeat forallb]. now rewrite IHn. Qed.
Lemma pad_left_word n w : word w -> words (pad_left n w) = [w].
Proof. intro H. unfold pad_left. rewrite words_app_space_l by apply blank_repeat. now apply words_word. Qed.
Lemma pad_left_not_blank n w : word w -> is_blank (pad_left n w) = false.
Proof.
  intro H. destruct (is_blank (pad_left n w)) eqn:B; [|reflexivity]. apply words_nil_inv in B. rewrite pad_left_word in B by exact H. discriminate.
Qed.

Lemma nonspace_app a b : nonspace (a ++ b) <-> nonspace a /\ nonspace b.
Proof. unfold nonspace. rewrite forallb_app, andb_true_iff. tauto. Qed.
Lemma digits_nonspace d : all_digits d -> nonspace d.
Proof.
  unfold all_digits, nonspace. rewrite !forallb_forall. intros H c I. specialize (H c I).
  destruct (is_space c) eqn:S; [|reflexivity]. apply space_not_digit in S. congruence.
Qed.
Lemma sci_text_word d m e : word (sci_text d m e).
Proof.
  split.
  - unfold sci_text. cbn [fix_digits app]. discriminate.
  - unfold sci_text. repeat rewrite nonspace_app. repeat split; try reflexivity; try (apply digits_nonspace, fix_digits_digits).
    + destruct (e <? 0)%Z; reflexivity.
    + apply digits_nonspace. apply exp_digits_ok.
Qed.
Lemma fmt_e_word d q : word (fmt_e d q).
Proof.
  unfold fmt_e. destruct (sci d q) as [m e]. destruct (sci_text_word d m e) as [N S]. destruct (Qle_bool 0 q); [split; assumption|].
  split; [discriminate|]. apply nonspace_app. split; [reflexivity|exact S].
Qed.
Lemma fmt_e_sp_words d q : words (fmt_e_sp d q) = [fmt_e d q].
Proof.
  assert (W := fmt_e_word d q). unfold fmt_e_sp, fmt_e in *. destruct (sci d q) as [m e]. destruct (Qle_bool 0 q).
  - change (T " " ++ sci_text d m e) with (blank :: sci_text d m e). rewrite words_cons_space by reflexivity. now apply words_word.
  - now apply words_word.
Qed.

(** * C42 *)

(** Fractions whose exponent is printed with two digits. *)
Definition moderate (q : Q) : Prop := (q == 0 \/ 10 ^ (-99) <= Qabs q < 10 ^ 99)%Q.
Definition good_component (e : text * Q) : Prop := word (fst e) /\ length (fst e) <= 10 /\ moderate (snd e).

Lemma component_split e : good_component e -> exists a b, component e = a ++ b /\ length a = 10 /\ length b = 10 /\ shows_component (a, b) e /\ is_blank b = false.
Proof.
  destruct e as [n q]. intros (W & L & M). cbn [fst snd] in *. exists (pad_left 9 (fmt_e_sp 3 q)), (pad_left 10 n).
  split; [reflexivity|]. rewrite !pad_left_length, (fmt_e_sp_length 3 q M). split; [reflexivity|]. split; [lia|]. split; [|now apply pad_left_not_blank].
  split; [cbn [snd fst]; now apply pad_left_word|]. destruct (py_float_fmt_e 3 q) as (v & V & E). exists (fmt_e 3 q), v. cbn [fst snd].
  split; [|split; [exact V|]].
  - unfold pad_left. rewrite words_app_space_l by apply blank_repeat. apply fmt_e_sp_words.
  - rewrite E. assert (B := sci_value_error 3 q). change (10 ^ (- Z.of_nat 3))%Q with (/ 1000)%Q in B.
    rewrite <- Qmult_assoc in B. change (/ 1000 * (1 # 2))%Q with (1 # 2000)%Q in B. exact B.
Qed.
Lemma component_length e : good_component e -> length (component e) = 20.
Proof. intro G. destruct (component_split e G) as (a & b & -> & A & B & _). rewrite app_length. lia. Qed.
Lemma comp_string_length c : Forall good_component c -> length (comp_string c) = 20 * length c.
Proof. unfold comp_string. induction 1 as [|e c G F IH]; [reflexivity|]. cbn [flat_map length]. rewrite app_length, IH, component_length by exact G. lia. Qed.
Lemma comp_string_app a b : comp_string (a ++ b) = comp_string a ++ comp_string b.
Proof. apply flat_map_app. Qed.

Lemma tail_app n a b : length b = n -> tail_n n (a ++ b) = b.
Proof. intros <-. unfold tail_n. rewrite app_length. replace (length a + length b - length b) with (length a) by lia. now rewrite skipn_app, skipn_all, Nat.sub_diag. Qed.
Lemma front_app n a b : length b = n -> front_n n (a ++ b) = a.
Proof.
  intros <-. unfold front_n. rewrite app_length. replace (length a + length b - length b) with (length a) by lia.
  rewrite firstn_app, firstn_all, Nat.sub_diag. apply app_nil_r.
Qed.

(** What one card with up to three components holds. *)
Definition card_ok (num card : text) : Prop :=
  field 0 card = T "COMPOUND  " /\ words (field 7 card) = [T "M" ++ num] /\ length card = 81 /\ 1 <= length (pairs_on card) <= 3.

Lemma m_num_word num : nonspace num -> word (T "M" ++ num).
Proof. intro H. split; [discriminate|]. exact H. Qed.

Lemma card_pairs num c : nonspace num -> length num <= 9 -> Forall good_component c -> 1 <= length c <= 3 ->
  let card := compound_card num (comp_string c ++ pad_left (60 - 20 * length c) []) in
  card_ok num card /\ Forall2 shows_component (pairs_on card) c.
Proof.
  intros WN LN F L card.
  assert (K0 : length (pad_right 10 (T "COMPOUND")) = 10) by reflexivity.
  assert (K7 : length (pad_left 10 (T "M" ++ num)) = 10) by (rewrite pad_left_length, app_length; cbn [T list_ascii_of_string length]; lia).
  assert (B : forall f, f = repeat blank 10 -> is_blank f = true) by (intros f ->; reflexivity).
  destruct c as [|e1 [|e2 [|e3 [|]]]]; cbn [length] in L; try lia; unfold card, compound_card, card_ok, pairs_on, comp_string; cbn [flat_map length];
    repeat match goal with H : Forall _ (_ :: _) |- _ => apply Forall_cons_iff in H as [? H] end;
    repeat match goal with H : good_component ?e |- _ =>
      let a := fresh "a" in let b := fresh "b" in let E := fresh "E" in let A := fresh "A" in let C := fresh "C" in let S := fresh "S" in let N := fresh "N" in
      destruct (component_split e H) as (a & b & E & A & C & S & N); rewrite E; clear E H end.
  - change (pad_left (60 - 20 * 1) []) with (repeat blank 10 ++ repeat blank 10 ++ repeat blank 10 ++ repeat blank 10).
    rewrite <- !app_assoc. rewrite app_nil_l. rewrite !app_length, K0, K7, A, C, !repeat_length. cbn [nl length].
    rewrite field_0 by exact K0. rewrite !(field_S _ (pad_right 10 (T "COMPOUND"))) by exact K0. rewrite !field_S by (exact A || exact C || reflexivity).
    rewrite !field_0 by (exact A || exact C || exact K7 || reflexivity). cbn [filter fst snd]. rewrite N, andb_false_r, blank_repeat. cbn [negb andb length].
    split; [repeat split; [now apply pad_left_word, m_num_word|lia|lia]|]. repeat constructor; apply S.
  - change (pad_left (60 - 20 * 2) []) with (repeat blank 10 ++ repeat blank 10).
    rewrite <- !app_assoc. rewrite app_nil_l. rewrite !app_length, K0, K7, A, C, A0, C0, !repeat_length. cbn [nl length].
    rewrite field_0 by exact K0. rewrite !(field_S _ (pad_right 10 (T "COMPOUND"))) by exact K0. rewrite !field_S by (exact A || exact C || exact A0 || exact C0 || reflexivity).
    rewrite !field_0 by (exact A || exact C || exact A0 || exact C0 || exact K7 || reflexivity). cbn [filter fst snd]. rewrite N, N0, !andb_false_r, blank_repeat. cbn [negb andb length].
    split; [repeat split; [now apply pad_left_word, m_num_word|lia|lia]|]. repeat constructor; apply S || apply S0.
  - change (pad_left (60 - 20 * 3) []) with (@nil ascii). rewrite app_nil_r.
    rewrite <- !app_assoc. rewrite app_nil_l. rewrite !app_length, K0, K7, A, C, A0, C0, A1, C1. cbn [nl length].
    rewrite field_0 by exact K0. rewrite !(field_S _ (pad_right 10 (T "COMPOUND"))) by exact K0. rewrite !field_S by (exact A || exact C || exact A0 || exact C0 || exact A1 || exact C1).
    rewrite !field_0 by (exact A || exact C || exact A0 || exact C0 || exact A1 || exact C1 || exact K7). cbn [filter fst snd]. rewrite N, N0, N1, !andb_false_r. cbn [negb andb length].
    split; [repeat split; [now apply pad_left_word, m_num_word|lia|lia]|]. repeat constructor; apply S || apply S0 || apply S1.
Qed.

Lemma loop_step f num c1 c2 : Forall good_component c1 -> Forall good_component c2 -> length c2 = 3 \/ (c1 = [] /\ 1 <= length c2 <= 2) ->
  compound_loop (S f) num (comp_string (c1 ++ c2)) =
  option_map (cons (compound_card num (comp_string c2 ++ pad_left (60 - 20 * length c2) []))) (compound_loop f num (comp_string c1)).
Proof.
  intros F1 F2 H. assert (L1 := comp_string_length _ F1). assert (L2 := comp_string_length _ F2).
  rewrite comp_string_app. set (s1 := comp_string c1) in *. set (s2 := comp_string c2) in *. assert (L : length (s1 ++ s2) = 20 * length c1 + 20 * length c2) by (rewrite app_length; lia).
  cbn [compound_loop]. destruct (s1 ++ s2) as [|x r] eqn:E; [cbn [length] in L; lia|]. rewrite <- E in *. rewrite L.
  destruct H as [H|[-> [A B]]].
  - rewrite H. destruct (Nat.leb_spec 60 (20 * length c1 + 20 * 3)) as [_|K]; [|lia]. rewrite tail_app, front_app by lia. rewrite app_nil_r. reflexivity.
  - assert (C : length c2 = 1 \/ length c2 = 2) by lia. assert (S1 : s1 = []) by reflexivity. rewrite S1. rewrite app_nil_l.
    destruct C as [C|C]; rewrite C; cbn [length Nat.mul Nat.add Nat.leb Nat.eqb].
    + change (20 / 20 =? 2) with false. change (20 / 20 =? 1) with true. cbv iota. rewrite <- (app_nil_l s2). rewrite tail_app, front_app by lia. reflexivity.
    + change (40 / 20 =? 2) with true. cbv iota. rewrite <- (app_nil_l s2). rewrite tail_app, front_app by lia. reflexivity.
Qed.

(** C42: the cards list the components of the composition, each once, at most three per card, and the loop ends; the
    cards come in reverse order.  Missing from the full property: fractions printed with a three digit exponent
    ([C42_endless_refuted]) and names longer than a field. *)
Theorem C42_compound_partial m :
  nonspace (m_num m) -> length (m_num m) <= 9 -> Forall good_component (m_comp m) ->
  exists cards, (forall fuel, length (m_comp m) < fuel -> write_fluka_compound fuel m = Some cards) /\
    Forall (card_ok (m_num m)) cards /\ Forall2 shows_component (flat_map pairs_on (rev cards)) (m_comp m).
Proof.
  unfold write_fluka_compound. generalize (m_num m). generalize (m_comp m). clear m. intros c num WN LN F.
  remember (length c) as n eqn:En. assert (Hn : length c <= n) by lia. clear En. revert c F Hn. induction n as [n IH] using lt_wf_ind. intros c F Hn.
  destruct c as [|e c].
  { exists []. split; [|split; constructor]. intros [|f] H; [lia|]. reflexivity. }
  assert (SP : exists c1 c2, e :: c = c1 ++ c2 /\ (length c2 = 3 \/ (c1 = [] /\ 1 <= length c2 <= 2))).
  { destruct (le_lt_dec 3 (length (e :: c))) as [L|L].
    - exists (firstn (length (e :: c) - 3) (e :: c)), (skipn (length (e :: c) - 3) (e :: c)). split; [symmetry; apply firstn_skipn|].
      left. rewrite skipn_length. lia.
    - exists [], (e :: c). split; [reflexivity|]. right. cbn [length] in *. split; [reflexivity|lia]. }
  destruct SP as (c1 & c2 & E & H). rewrite E in *. apply Forall_app in F as [F1 F2]. rewrite app_length in Hn.
  destruct (IH (length c1) ltac:(lia) c1 F1 (le_n _)) as (cards & G & OK & P).
  destruct (card_pairs num c2 WN LN F2 ltac:(lia)) as [CK CP].
  eexists (_ :: cards). split; [|split].
  - intros [|f] Hf; [lia|]. rewrite loop_step by assumption. rewrite (G f) by lia. reflexivity.
  - constructor; [exact CK|exact OK].
  - cbn [rev]. rewrite flat_map_app. apply Forall2_app; [exact P|]. cbn [flat_map]. rewrite app_nil_r. exact CP.
Qed.
Print Assumptions C42_compound_partial.

Definition steel : material := mkM (T "3") (T "steel") (-79 # 10) [(T "IRON", 7 # 10); (T "CHROMIUM", 2 # 10); (T "NICKEL", 8 # 100); (T "CARBON", 2 # 100)]%Q [] None.
Example compound_ex : nonspace (m_num steel) /\ Forall good_component (m_comp steel) /\
  write_fluka_compound 5 steel = Some
    [T "COMPOUND   2.000e-01  CHROMIUM 8.000e-02    NICKEL 2.000e-02    CARBON        M3" ++ nl;
     T "COMPOUND   7.000e-01      IRON                                                M3" ++ nl].
Proof.
  split; [reflexivity|]. split; [|vm_compute; reflexivity].
  assert (G : forall n q, negb (length n =? 0) && forallb (fun c => negb (is_space c)) n && (length n <=? 10) && Qle_bool (10 ^ (-99)) (Qabs q) && Qle_bool (Qabs q) (10 ^ 98) = true -> good_component (n, q)).
  { intros n q H. repeat rewrite andb_true_iff in H. destruct H as ((((A & B) & C) & D) & E). unfold good_component, moderate, word, nonspace. cbn [fst snd].
    split; [split; [intros ->; discriminate|exact B]|]. split; [now apply Nat.leb_le|]. right. apply Qle_bool_iff in D, E. split; [exact D|].
    eapply Qle_lt_trans; [exact E|]. reflexivity. }
  repeat (apply Forall_cons; [apply G; vm_compute; reflexivity|]). apply Forall_nil.
Qed.

(** C42 is false when a fraction is printed with a three digit exponent: the same card is written for ever. *)
Theorem C42_endless_refuted : exists m, nonspace (m_num m) /\ m_comp m <> [] /\ forall fuel, write_fluka_compound fuel m = None.
Proof.
  exists (mkM (T "3") (T "steel") (-79 # 10)%Q [(T "IRON", 1 # 10 ^ 100)%Q] [] None).
  split; [reflexivity|]. split; [discriminate|]. intro fuel. unfold write_fluka_compound. cbn [m_num m_comp].
  assert (S : comp_string [(T "IRON", 1 # 10 ^ 100)%Q] = T " 1.000e-100      IRON") by (vm_compute; reflexivity). rewrite S. clear S.
  assert (G : forall f, compound_loop f (T "3") (T " ") = None).
  { induction f as [|f IH]; [reflexivity|]. cbn [compound_loop T list_ascii_of_string length]. cbn [Nat.leb]. change (1 / 20 =? 2) with false. change (1 / 20 =? 1) with false. cbv iota.
    change (compound_loop f ["3"%char] [" "%char]) with (compound_loop f (T "3") (T " ")). rewrite IH. reflexivity. }
  destruct fuel as [|f]; [reflexivity|].
  assert (E : exists t, compound_loop (S f) (T "3") (T " 1.000e-100      IRON") = option_map (cons t) (compound_loop f (T "3") (T " "))) by (eexists; reflexivity).
  destruct E as [t E]. rewrite E, G. reflexivity.
Qed.
Print Assumptions C42_endless_refuted.

(** * C44 *)
Open Scope Q_scope.

Lemma max_imp_ge l : forall m, m <= fold_left (fun m q => if Qle_bool q m then m else q) l m.
Proof.
  induction l as [|q l IH]; intro m; cbn [fold_left]; [apply Qle_refl|]. destruct (Qle_bool q m) eqn:E; [apply IH|].
  apply Qle_trans with q; [|apply IH]. apply Qlt_le_weak, Qnot_le_lt. intro K. apply Qle_bool_iff in K. congruence.
Qed.
Lemma max_imp_pos l : 1 <= max_imp l.
Proof. apply max_imp_ge. Qed.

Definition min_step (m q : Q) : Q := if negb (Qle_bool q 0) && negb (Qle_bool m q) then q else m.
Lemma min_fold l b : forall m, b <= m -> (forall q, In q l -> q <= 0 \/ b <= q) -> 
  b <= fold_left min_step l m /\ fold_left min_step l m <= m /\ forall q, In q l -> q <= 0 \/ fold_left min_step l m <= q.
Proof.
  induction l as [|q l IH]; intros m B H; cbn [fold_left]; [split; [exact B|split; [apply Qle_refl|intros q []]]|].
  assert (S : b <= min_step m q /\ min_step m q <= m /\ (q <= 0 \/ min_step m q <= q)).
  { unfold min_step. destruct (Qle_bool q 0) eqn:E; cbn [negb andb].
    - apply Qle_bool_iff in E. split; [exact B|]. split; [apply Qle_refl|now left].
    - assert (K : ~ q <= 0) by (intro K; apply Qle_bool_iff in K; congruence). destruct (Qle_bool m q) eqn:E2; cbn [negb].
      + apply Qle_bool_iff in E2. split; [exact B|]. split; [apply Qle_refl|now right].
      + assert (K2 : ~ m <= q) by (intro K2; apply Qle_bool_iff in K2; congruence). apply Qnot_le_lt in K2.
        split; [destruct (H q (or_introl eq_refl)); [contradiction|assumption]|]. split; [now apply Qlt_le_weak|right; apply Qle_refl]. }
  destruct S as (S1 & S2 & S3). destruct (IH (min_step m q) S1) as (A & C & D); [intros q' I; apply H; now right|].
  split; [exact A|]. split; [now apply Qle_trans with (min_step m q)|]. intros q' [<-|I]; [|now apply D].
  destruct S3 as [S3|S3]; [now left|right]. now apply Qle_trans with (min_step m q).
Qed.
Lemma min_imp_spec l b : b <= 1000000000 -> (forall q, In q l -> q <= 0 \/ b <= q) ->
  b <= min_imp l <= 1000000000 /\ forall q, In q l -> q <= 0 \/ min_imp l <= q.
Proof. intros B H. destruct (min_fold l b (1000000000 # 1) B H) as (A & C & D). unfold min_imp. fold min_step. auto. Qed.

Lemma scale_eq l : 0 < min_imp l -> imp_scale l == 10000 / min_imp l.
Proof. intro P. unfold imp_scale. assert (M := max_imp_pos l). field. split; intro K; [rewrite K in P; discriminate|]. rewrite K in M. lra. Qed.

(** The number written for an importance. *)
Lemma importance_eq l q : 0 < min_imp l -> 0 < q ->
  fluka_importance (imp_scale l) q == (if Qle_bool (q * min_imp l * (1 # 10000)) 100000 then q * min_imp l * (1 # 10000) else 100000).
Proof.
  intros P Q. unfold fluka_importance. destruct (Qeq_bool q 0) eqn:E; [apply Qeq_bool_iff in E; lra|].
  assert (K : q / imp_scale l == q * min_imp l * (1 # 10000)) by (rewrite scale_eq by exact P; field; intro K; rewrite K in P; discriminate).
  assert (B : Qle_bool (q / imp_scale l) 100000 = Qle_bool (q * min_imp l * (1 # 10000)) 100000) by (now rewrite K).
  rewrite B. destruct (Qle_bool (q * min_imp l * (1 # 10000)) 100000); [exact K|reflexivity].
Qed.
Lemma importance_zero s q : q == 0 -> fluka_importance s q == 1 # 10000.
Proof. intro Z. unfold fluka_importance. apply Qeq_bool_iff in Z. rewrite Z. reflexivity. Qed.

Lemma qle_bool_spec a b : (Qle_bool a b = true /\ a <= b) \/ (Qle_bool a b = false /\ b < a).
Proof.
  destruct (Qle_bool a b) eqn:E; [left|right]; split; auto; [now apply Qle_bool_iff|].
  apply Qnot_le_lt. intro K. apply Qle_bool_iff in K. congruence.
Qed.

(** Importances that are zero or not extremely small. *)
Definition reasonable (q : Q) : Prop := q == 0 \/ 10 ^ (-40) <= q.

Ltac qcomp := vm_compute; (reflexivity || discriminate).
Lemma importance_range l q : Forall reasonable l -> In q l ->
  10 ^ (-84) <= fluka_importance (imp_scale l) q <= 100000.
Proof.
  intros F I. rewrite Forall_forall in F.
  destruct (min_imp_spec l (10 ^ (-40))) as ((A & B) & C); [qcomp| |].
  { intros x J. destruct (F x J) as [K|K]; [left; rewrite K; apply Qle_refl|now right]. }
  assert (P : 0 < min_imp l) by (apply Qlt_le_trans with (10 ^ (-40)); [qcomp|exact A]).
  destruct (F q I) as [Z|Z].
  - rewrite importance_zero by exact Z. split; qcomp.
  - assert (Q0 : 0 < q) by (apply Qlt_le_trans with (10 ^ (-40)); [qcomp|exact Z]).
    rewrite (importance_eq l q P Q0). destruct (qle_bool_spec (q * min_imp l * (1 # 10000)) 100000) as [[E K]|[E K]]; rewrite E.
    + split; [|exact K]. apply Qle_trans with (10 ^ (-40) * 10 ^ (-40) * (1 # 10000)); [qcomp|].
      apply Qmult_le_compat_r; [|qcomp]. apply Qle_trans with (q * 10 ^ (-40)).
      * apply Qmult_le_compat_r; [exact Z|qcomp].
      * apply Qmult_le_l; assumption.
    + split; qcomp.
Qed.

(** The importance on a BIASING card. *)
Definition card_importance (card : text) (v : Q) : Prop := field 0 card = T "BIASING   " /\ exists w, words (field 3 card) = [w] /\ py_float w = Some v.

Lemma fmt_e_length d q : 0 <= q -> moderate q -> length (fmt_e d q) = (d + 6)%nat.
Proof.
  intros P H. unfold fmt_e. destruct (sci d q) as [m e] eqn:E. apply sci_expo_small in E; [|exact H]. apply Qle_bool_iff in P. rewrite P. cbn [app]. now apply sci_text_length.
Qed.
Lemma card_reads s c : 0 <= fluka_importance s (snd c) -> moderate (fluka_importance s (snd c)) ->
  exists v, card_importance (biasing_card s c) v /\ v == sci_value 4 (fluka_importance s (snd c)).
Proof.
  intros P M. set (i := fluka_importance s (snd c)) in *. destruct (py_float_fmt_e 4 i) as (v & V & E). exists v. split; [|exact E].
  unfold card_importance, biasing_card. fold i.
  assert (L : length (pad_left 10 (fmt_e 4 i)) = 10%nat) by (rewrite pad_left_length, fmt_e_length by assumption; reflexivity).
  rewrite field_0 by reflexivity. split; [qcomp|]. rewrite !field_S by reflexivity. rewrite field_0 by exact L.
  exists (fmt_e 4 i). split; [apply pad_left_word, fmt_e_word|exact V].
Qed.

Lemma sci_value_comp d p q : 0 <= p -> p == q -> sci_value d p == sci_value d q.
Proof. intros P E. apply Qle_antisym; apply sci_value_mono; lra. Qed.

Lemma range_moderate i : 10 ^ (-84) <= i <= 100000 -> 0 <= i /\ moderate i.
Proof.
  intros [A B]. assert (P : 0 <= i) by (apply Qle_trans with (10 ^ (-84)); [qcomp|exact A]). split; [exact P|]. right. rewrite Qabs_pos by exact P.
  split; [apply Qle_trans with (10 ^ (-84)); [qcomp|exact A]|apply Qle_lt_trans with 100000; [exact B|qcomp]].
Qed.

Lemma Forall2_map_self {A B} (P : A -> B -> Prop) (f : A -> B) l : (forall x, In x l -> P x (f x)) -> Forall2 P l (map f l).
Proof. intro H. induction l as [|x l IH]; constructor; [apply H; now left|]. apply IH. intros y I. apply H. now right. Qed.

(** C44, range: the importance on every card is positive and at most 10^5.  Missing from the full property: nothing but
    importances between 0 and 10^-40, whose digits may not fit into the field. *)
Theorem C44_range_partial cells : Forall reasonable (map snd cells) ->
  Forall2 (fun (c : Z * Q) card => exists v, card_importance card v /\ 0 < v <= 100000) cells (write_fluka_importances cells).
Proof.
  intro F. unfold write_fluka_importances. set (s := imp_scale (map snd cells)).
  assert (G : forall c, In c cells -> exists v, card_importance (biasing_card s c) v /\ 0 < v <= 100000).
  { intros c I. destruct (importance_range (map snd cells) (snd c) F (in_map snd _ _ I)) as [A B]. fold s in A, B.
    destruct (range_moderate _ (conj A B)) as [P M]. destruct (card_reads s c P M) as (v & V & E). exists v. split; [exact V|]. rewrite E. split.
    - apply Qlt_le_trans with (sci_value 4 (10 ^ (-84))); [vm_compute; reflexivity|]. apply sci_value_mono; [qcomp|exact A].
    - apply Qle_trans with (sci_value 4 100000); [now apply sci_value_mono|vm_compute; discriminate]. }
  now apply Forall2_map_self.
Qed.
Print Assumptions C44_range_partial.

Definition graded : list (Z * Q) := [(1%Z, 1); (2%Z, 2); (3%Z, 4); (4%Z, 0)].
Example range_ex : Forall reasonable (map snd graded) /\ nth 2 (write_fluka_importances graded) [] =
  T "BIASING          3.0       1.04.0000e-04        C3                         PRINT" ++ nl.
Proof.
  split; [|vm_compute; reflexivity]. repeat (apply Forall_cons; [(left; reflexivity) || (right; discriminate)|]). apply Forall_nil.
Qed.

(** C44, order: a cell of at least the importance of another gets at least its importance on the card.  Missing from
    the full property: decks with a zero importance and a positive one below 1 ([C44_order_refuted]). *)
Theorem C44_order_partial cells : Forall reasonable (map snd cells) ->
  (forall q, In q (map snd cells) -> ~ q == 0) \/ (forall q, In q (map snd cells) -> q == 0 \/ 1 <= q) ->
  forall i j ci cj, nth_error cells i = Some ci -> nth_error cells j = Some cj -> snd ci <= snd cj ->
  exists cdi cdj vi vj, nth_error (write_fluka_importances cells) i = Some cdi /\ nth_error (write_fluka_importances cells) j = Some cdj /\
    card_importance cdi vi /\ card_importance cdj vj /\ vi <= vj.
Proof.
  intros F H i j ci cj Ei Ej L. unfold write_fluka_importances. set (l := map snd cells) in *.
  assert (Ii : In (snd ci) l) by (apply in_map; eapply nth_error_In; exact Ei).
  assert (Ij : In (snd cj) l) by (apply in_map; eapply nth_error_In; exact Ej).
  assert (Ri := importance_range l _ F Ii). assert (Rj := importance_range l _ F Ij).
  destruct (range_moderate _ Ri) as [Pi Mi]. destruct (range_moderate _ Rj) as [Pj Mj].
  destruct (card_reads (imp_scale l) ci Pi Mi) as (vi & Vi & E1). destruct (card_reads (imp_scale l) cj Pj Mj) as (vj & Vj & E2).
  exists (biasing_card (imp_scale l) ci), (biasing_card (imp_scale l) cj), vi, vj.
  split; [now apply map_nth_error|]. split; [now apply map_nth_error|]. split; [exact Vi|]. split; [exact Vj|]. rewrite E1, E2. apply sci_value_mono; [exact Pi|].
  rewrite Forall_forall in F.
  assert (PM : 0 < min_imp l).
  { destruct (min_imp_spec l (10 ^ (-40))) as ((A & B) & C); [discriminate| |apply Qlt_le_trans with (10 ^ (-40)); [reflexivity|exact A]].
    intros x J. destruct (F x J) as [K|K]; [left; rewrite K; apply Qle_refl|now right]. }
  assert (PS : forall q, In q l -> ~ q == 0 -> 0 < q).
  { intros q J N. destruct (F q J) as [K|K]; [contradiction|]. apply Qlt_le_trans with (10 ^ (-40)); [reflexivity|exact K]. }
  destruct (Qeq_dec (snd ci) 0) as [Zi|Ni].
  - rewrite (importance_zero _ _ Zi). destruct (Qeq_dec (snd cj) 0) as [Zj|Nj]; [rewrite (importance_zero _ _ Zj); apply Qle_refl|].
    destruct H as [H|H]; [exfalso; exact (H _ Ii Zi)|].
    destruct (min_imp_spec l 1) as ((A & B) & C); [discriminate| |].
    { intros x J. destruct (H x J) as [K|K]; [left; rewrite K; apply Qle_refl|now right]. }
    rewrite (importance_eq l _ PM (PS _ Ij Nj)). destruct (qle_bool_spec (snd cj * min_imp l * (1 # 10000)) 100000) as [[E K]|[E K]]; rewrite E; [|discriminate].
    destruct (H _ Ij) as [K1|K1]; [contradiction|]. assert (X : 1 * 1 <= snd cj * min_imp l).
    { apply Qle_trans with (1 * min_imp l); [lra|]. apply Qmult_le_compat_r; [exact K1|now apply Qlt_le_weak]. }
    lra.
  - assert (P1 := PS _ Ii Ni). assert (P2 : 0 < snd cj) by (now apply Qlt_le_trans with (snd ci)).
    rewrite (importance_eq l _ PM P1), (importance_eq l _ PM P2).
    assert (X : snd ci * min_imp l * (1 # 10000) <= snd cj * min_imp l * (1 # 10000)).
    { apply Qmult_le_compat_r; [|discriminate]. apply Qmult_le_compat_r; [exact L|now apply Qlt_le_weak]. }
    destruct (qle_bool_spec (snd ci * min_imp l * (1 # 10000)) 100000) as [[E K]|[E K]]; rewrite E;
    destruct (qle_bool_spec (snd cj * min_imp l * (1 # 10000)) 100000) as [[E' K']|[E' K']]; rewrite E'; lra.
Qed.
Print Assumptions C44_order_partial.

Example order_ex : Forall reasonable (map snd graded) /\ forall q, In q (map snd graded) -> q == 0 \/ 1 <= q.
Proof.
  split; [apply range_ex|]. intros q H. cbn in H. repeat destruct H as [<-|H]; try (left; reflexivity); try (right; discriminate). destruct H.
Qed.

(** C44 is false: beside a cell of importance one half, the graveyard gets the larger importance. *)
Theorem C44_order_refuted : exists cells ci cj vi vj,
  Forall (fun c => 0 <= snd c) cells /\ nth_error cells 0 = Some ci /\ nth_error cells 1 = Some cj /\ snd ci < snd cj /\
  (exists c, nth_error (write_fluka_importances cells) 0 = Some c /\ card_importance c vi) /\
  (exists c, nth_error (write_fluka_importances cells) 1 = Some c /\ card_importance c vj) /\ vj < vi.
Proof.
  exists [(1%Z, 0); (2%Z, 1 # 2)], (1%Z, 0), (2%Z, 1 # 2).
  eexists _, _. split; [repeat constructor; discriminate|]. split; [reflexivity|]. split; [reflexivity|]. split; [reflexivity|]. split; [|split].
  - eexists. split; [vm_compute; reflexivity|]. split; [vm_compute; reflexivity|]. eexists. split; [vm_compute; reflexivity|vm_compute; reflexivity].
  - eexists. split; [vm_compute; reflexivity|]. split; [vm_compute; reflexivity|]. eexists. split; [vm_compute; reflexivity|vm_compute; reflexivity].
  - vm_compute. reflexivity.
Qed.
Print Assumptions C44_order_refuted.
