(** The file written for FLUKA as a whole (csg2csg/FLUKAInput.py 233-399, FLUKASurfaceCard.py, FLUKACellCard.py 36-53,
    FLUKAMaterialCard.py): C80. *)
From Coq Require Import QArith Qabs Qpower Reals Lia Lqa.
From Verif Require Import PyStr PyStrFacts PyInt PyIntFacts PyDict PyFmtE PyFmtEFacts FortranNumber FortranNumberProofs CellModel CellText RegionSpec RegionFacts LexSpec
  CellWriters CellProofs CellWritersProofs CellWritersOut SurfModel SurfWriters SurfWritersProofs SurfSpec GeomSpec TargetSpec SurfTargets SurfScone FlattenModel MaterialModel MaterialProofs
  UniverseModel BoundaryModel DeckScan FlukaModel FlukaSpec FlukaInput ConvertModel PropSurfOut PropWriters FileProofs LayoutProofs PropFluka PropFlukaMat PropFlukaNames PropDeck.
From Verif Require PropFile PropProcess.
Open Scope nat_scope.
Open Scope list_scope.

(** ** How FLUKA reads a file (FLUKA manual, input format and combinatorial geometry with names) *)

(** The lines that count: a star in the first column makes a comment. *)
Definition remark (l : text) : bool := match l with c :: _ => Ascii.eqb c "*" | [] => true end.
Definition fluka_lines (t : text) : list text := filter (fun l => negb (remark l)) (readlines t).

(** The lines up to one that begins with the given word, and those after it. *)
Definition starts (k : text) (l : text) : bool := match words l with w :: _ => text_eqb w k | [] => false end.
Fixpoint upto (k : text) (ls : list text) : option (list text * list text) :=
  match ls with
  | [] => None
  | l :: r => if starts k l then Some ([], r) else match upto k r with Some (a, b) => Some (l :: a, b) | None => None end
  end.

(** A body begins with the word for its kind; a region with its name, which begins with a letter. *)
Definition is_kind (w : text) : bool :=
  existsb (text_eqb w) (map T ["RPP"; "BOX"; "SPH"; "RCC"; "REC"; "TRC"; "ELL"; "WED"; "RAW"; "ARB"; "XYP"; "XZP"; "YZP"; "PLA"; "XCC"; "YCC"; "ZCC"; "XEC"; "YEC"; "ZEC"; "QUA"]%string).
Definition is_letter (c : ascii) : bool := let n := nat_of_ascii c in (65 <=? n) && (n <=? 90) || (97 <=? n) && (n <=? 122).
Definition is_name (t : rtok) : bool := match t with TAtom (c :: _) => is_letter c | _ => false end.
Fixpoint entries_from (ts : list rtok) : list rtok * list (list rtok) :=
  match ts with
  | [] => ([], [])
  | t :: r => let (p, cs) := entries_from r in if is_name t then ([], (t :: p) :: cs) else (t :: p, cs)
  end.

(** A file: the title, the bodies and the regions between GEOBEGIN and GEOEND, and the other cards up to STOP. *)
Record fluka_input := Fi { f_title : text; f_bodies : list (list text); f_regions : list (list rtok); f_cards : list text }.
Definition fluka_reads (t : text) : option fluka_input :=
  match fluka_lines t with
  | a :: title :: b :: _ :: r =>
      if starts (T "TITLE") a && starts (T "GEOBEGIN") b && text_eqb (firstn 8 (skipn 70 b)) (T "COMBNAME") then
        match upto (T "END") r with
        | Some (bs, r) =>
            match upto (T "END") r with
            | Some (rs, g :: r) =>
                if starts (T "GEOEND") g then
                  match upto (T "STOP") r, cards is_kind (flat_map words bs), entries_from (flat_map fluka_lex rs) with
                  | Some (cs, _), ([], bodies), ([], regions) => Some (Fi title bodies regions cs)
                  | _, _, _ => None
                  end
                else None
            | _ => None
            end
        | None => None
        end
      else None
  | _ => None
  end.

(** A body: its kind, its name, and numbers that make it the negative side of the surface (for a cone with one sheet:
    within the coordinates [bc]). *)
Definition body_is (str : R -> text) (bc : list R) (s : surface) (sn : sense) (b : list text) : Prop :=
  exists ty toks vals body, b = T ty :: (T "S" ++ str_Z (s_id s)) :: toks /\ Forall2 (shows str) toks vals /\ fluka_means ty vals body /\
    forall p, (is_cone (s_type s) = true -> (low_of s bc < along s p < high_of s bc)%R) -> (body p <-> neg sn p).
(** A region: its name, the number of neighbours and an expression in bodies. *)
Definition region_is (id : Z) (r : region) (ts : list rtok) : Prop :=
  exists reg r', ts = TAtom (T "C" ++ str_Z id) :: TAtom (T "5") :: reg /\ expr reg r' /\
    forall sense inside, (forall n, (0 < n)%Z -> inside (T "S" ++ str_Z n) = negb (sense n)) -> holds (fluka_env inside) r' = holds (zenv sense) r.
(** The card for the importance: [k] times the importance, but not more than 10^5, and 10^-4 for importance 0; five digits. *)
Definition bias_is (k : Q) (id : Z) (imp : Q) (card : text) : Prop :=
  words (field 0 card) = [T "BIASING"] /\ words (field 1 card) = [T "3.0"] /\ words (field 2 card) = [T "1.0"] /\
  words (field 4 card) = [T "C" ++ str_Z id] /\ words (field 5 card) = [] /\ words (field 6 card) = [] /\ words (field 7 card) = [T "PRINT"] /\ length card = 81 /\
  exists w v, words (field 3 card) = [w] /\ py_float w = Some v /\
    forall i, (imp == 0 -> i == 1 # 10000)%Q -> (~ imp == 0 -> k * imp <= 100000 -> i == k * imp)%Q -> (~ imp == 0 -> ~ k * imp <= 100000 -> i == 100000)%Q ->
      (Qabs (v - i) <= Qabs i * (1 # 20000))%Q.
(** The card for what is in a region. *)
Definition assign_is (id mat : Z) (imp : Q) (card : text) : Prop :=
  words (field 0 card) = [T "ASSIGNMA"] /\
  words (field 1 card) = [if (mat =? 0)%Z then if Qeq_bool imp 0 then T "BLCKHOLE" else T "VACUUM" else T "M" ++ str_Z mat] /\
  words (field 2 card) = [T "C" ++ str_Z id] /\ length card = 31.
(** A composition by the names of FLUKA: each name with the sum of the fractions of the nuclides called so. *)
Definition renamed (comp named : dict Q) : Prop :=
  NoDup (keys named) /\
  (forall name, In name (keys named) <-> exists n z, In n (keys comp) /\ py_int n = Some z /\ called z name) /\
  (forall name q, dget name named = Some q -> forall is_it, (forall n z, In n (keys comp) -> py_int n = Some z -> is_it n = true <-> called z name) ->
     (q == total (map snd (filter (fun e => is_it (fst e)) comp)))%Q).
(** The cards of a material: name and density, then its components. *)
Definition material_is (show : Q -> text) (m : material) (named : dict Q) (cs : list text) : Prop :=
  exists c cs', cs = c :: cs' /\ is_material c (T "M" ++ m_num m) /\ words (field 3 c) = [show (Qabs (m_dens m))] /\ length c = 81 /\
    Forall (card_ok (m_num m)) cs' /\ Forall2 shows_component (flat_map pairs_on (rev cs')) named.
(** A name is known to FLUKA, or one card declares it with its atomic number. *)
Definition known (order : list text) (es : list text) (name : text) : Prop :=
  In name fluka_special_mats \/
  exists before card after, es = before ++ card :: after /\ is_material card name /\ (forall c, In c (before ++ after) -> ~ is_material c name) /\
    forall n z, In n order -> py_int n = Some z -> called z name -> atomic_number card (Z.quot z 1000).

(** ** Lines *)

Definition clean (x : text) : bool := forallb (fun c => negb (Ascii.eqb c newline)) x.
Definition linear (t : text) : Prop := exists x, t = x ++ nl /\ clean x = true.
Lemma clean_in x : clean x = true -> ~ In newline x.
Proof. unfold clean. rewrite forallb_forall. intros F I. specialize (F _ I). discriminate F. Qed.
Lemma clean_app a b : clean (a ++ b) = clean a && clean b.
Proof. apply forallb_app. Qed.
Lemma clean_nonspace x : nonspace x -> clean x = true.
Proof.
  unfold clean, nonspace. rewrite !forallb_forall. intros F c I. specialize (F c I). destruct (Ascii.eqb_spec c newline) as [E|]; [|reflexivity]. rewrite E in F. discriminate F.
Qed.
Lemma clean_pad_left n x : clean x = true -> clean (pad_left n x) = true.
Proof. intro H. unfold pad_left. rewrite clean_app, H, andb_true_r. induction (n - length x) as [|k IH]; [reflexivity|exact IH]. Qed.
Lemma clean_pad_right n x : clean x = true -> clean (pad_right n x) = true.
Proof. intro H. unfold pad_right. rewrite clean_app, H. cbn [andb]. induction (n - length x) as [|k IH]; [reflexivity|exact IH]. Qed.
Lemma lines_read L : Forall linear L -> readlines (concat L) = L.
Proof.
  induction 1 as [|l L (x & -> & C) F IH]; [reflexivity|]. cbn [concat]. rewrite <- app_assoc. change (nl ++ concat L) with (newline :: concat L).
  rewrite readlines_line by now apply clean_in. now rewrite IH.
Qed.

(** A line whose first word does not begin with a star counts. *)
Lemma words_first c r : is_space c = false -> exists w ws, words (c :: r) = (c :: w) :: ws.
Proof. intro S. cbn [words]. rewrite S. destruct r as [|d r]; [eauto|]. destruct (is_space d); [eauto|]. destruct (words (d :: r)); eauto. Qed.
Definition live (l : text) : Prop := remark l = false.
Lemma live_word l w ws : words l = w :: ws -> hd "*"%char w <> "*"%char -> live l.
Proof.
  intros E H. unfold live, remark. destruct l as [|c l]; [discriminate E|]. destruct (Ascii.eqb_spec c "*") as [C|]; [|reflexivity]. rewrite C in E.
  destruct (words_first "*" l eq_refl) as (v & vs & E'). rewrite E' in E. injection E as <- _. exfalso. now apply H.
Qed.
Lemma live_lines L : Forall live L -> filter (fun l => negb (remark l)) L = L.
Proof. induction 1 as [|l L E F IH]; [reflexivity|]. cbn [filter]. unfold live in E. rewrite E. cbn [negb]. now rewrite IH. Qed.
Lemma upto_app k L l r : Forall (fun x => starts k x = false) L -> starts k l = true -> upto k (L ++ l :: r) = Some (L, r).
Proof. intros F S. induction F as [|x L E F IH]; cbn [app upto]; [now rewrite S|]. now rewrite E, IH. Qed.

(** ** Bodies *)

Lemma numeral_word w : numeral w -> word w.
Proof. intro H. destruct (numeral_facts _ H) as (N & _ & S & _). now split. Qed.
Lemma clean_each str l : (forall x, numeral (str x)) -> clean (each str l) = true.
Proof.
  intro N. unfold each. induction l as [|x l IH]; [reflexivity|]. cbn [flat_map]. rewrite !clean_app, IH, (clean_nonspace (str x)); [reflexivity|]. apply numeral_word, N.
Qed.
Lemma clean_int z : clean (str_Z z) = true.
Proof. apply clean_nonspace. apply word_str_Z. Qed.
Lemma linear_nl : linear nl.
Proof. now exists []. Qed.
Lemma linear_app a t : clean a = true -> linear t -> linear (a ++ t).
Proof. intros C (x & -> & H). exists (a ++ x). rewrite clean_app, C, H, app_assoc. now split. Qed.
Lemma linear_cons c t : Ascii.eqb c newline = false -> linear t -> linear (c :: t).
Proof. intros C H. apply (linear_app [c]); [cbn; now rewrite C|exact H]. Qed.
Ltac linear_tac N :=
  lazymatch goal with
  | |- linear nl => exact linear_nl
  | |- linear ((?a ++ ?b) ++ ?c) => rewrite <- (app_assoc a b c); linear_tac N
  | |- linear ((?a :: ?b) ++ ?c) => change ((a :: b) ++ c) with (a :: (b ++ c)); linear_tac N
  | |- linear (?a :: ?b) => apply linear_cons; [reflexivity|linear_tac N]
  | |- linear (str_Z ?z ++ _) => apply linear_app; [apply clean_int|linear_tac N]
  | |- linear (each _ _ ++ _) => apply linear_app; [apply clean_each, N|linear_tac N]
  | |- linear ([] ++ ?b) => change ([] ++ b) with b; linear_tac N
  | |- linear (_ ++ _) => apply linear_app; [first [apply clean_nonspace; apply (numeral_word _ (N _))|reflexivity]|linear_tac N]
  end.

Lemma gq_linear str id l t : (forall x, numeral (str x)) -> fluka_gq str id l = Some t -> linear t.
Proof.
  intros N E. unfold fluka_gq in E. do 10 (destruct l as [|? l]; [discriminate E|]). injection E as <-. cbn [flat_map]. rewrite app_nil_r. 
  linear_tac N.
Qed.
Lemma body_linear str box s t s' : (forall x, numeral (str x)) -> write_fluka_surface str box s = Some (t, s') -> linear t.
Proof.
  intros N E. unfold write_fluka_surface in E. 
  assert (K : forall ty, match fluka_cone str ty (s_id s) box (s_coef s) with Some (t, l') => Some (t, mkS (s_id s) (s_tr s) (s_type s) l' (s_bc s)) | None => None end = Some (t, s') -> linear t).
  { clear E. intros ty E. destruct (fluka_cone _ _ _ _ _) as [[u l']|] eqn:F; [|discriminate E]. injection E as -> _. unfold fluka_cone in F.
    destruct (s_coef s) as [|x [|y [|z [|t2 [|sh ?]]]]]; try discriminate F. destruct box as [|x0 [|x1 [|y0 [|y1 [|z0 [|z1 [|? ?]]]]]]]; try discriminate F.
    destruct (Req_EM_T sh 0).
    - destruct (fluka_gq _ _ _) as [v|] eqn:G; [|discriminate F]. injection F as <- _. eapply gq_linear; eassumption.
    - match type of F with context [match ?q with (_, _) => _ end] => destruct q as [[[first lo] hi] apex] end. destruct (half_cone_base _ _ _ _ _) as [[base h]|]; [|discriminate F].
      destruct (Rlt_dec t2 0); [discriminate F|]. destruct ty; injection F as <- _; linear_tac N. }
  destruct (s_type s); try (apply (K _ E)); clear K; destruct (s_coef s) as [|x1 [|x2 [|x3 [|x4 ?]]]]; cbn [option_map] in E; try discriminate E;
    try (injection E as <- _; linear_tac N).
  all: try (match type of E with option_map _ ?e = _ => destruct e as [u|] eqn:F; [|discriminate E] end; injection E as <- _).
  all: try (eapply gq_linear; eassumption).
  unfold fluka_plane in F. destruct (Req_EM_T _ 0); [discriminate F|]. injection F as <-. linear_tac N.
Qed.

Definition good_body (str : R -> text) (bc : list R) (s : surface) (box : list R) : Prop :=
  surf_sense s <> None /\ is_torus (s_type s) = false /\
  (s_type s = PLANE_GENERAL -> match s_coef s with a :: b :: c :: _ => (a, b, c) <> (0, 0, 0)%R | _ => True end) /\
  (is_cone (s_type s) = true -> box = cone_box s bc /\ exists x y z t2 sh, s_coef s = [x; y; z; t2; sh] /\ (sh = 1 \/ sh = -1)%R /\ (0 <= t2)%R).

Lemma kind_in w : is_kind w = true -> exists k, w = T k /\ to_float (T k) = None /\ (T k = T "SPH" \/ hd blank (T k) <> "S"%char) /\ T k <> T "END" /\ hd "*"%char (T k) <> "*"%char.
Proof.
  intro K. unfold is_kind in K. apply existsb_exists in K as (k & I & E). apply text_eqb_eq in E. subst w. apply in_map_iff in I as (x & <- & I). exists x. split; [reflexivity|].
  cbn [In] in I. repeat (destruct I as [<- | I]; [split; [vm_compute; reflexivity|split; [try (right; discriminate); left; reflexivity|split; discriminate]]|]). destruct I.
Qed.
Lemma means_kind ty vals b : fluka_means ty vals b -> is_kind (T ty) = true.
Proof. intro H. inversion H; vm_compute; reflexivity. Qed.
Lemma name_kind z : is_kind (T "S" ++ str_Z z) = false.
Proof.
  destruct (is_kind _) eqn:K; [|reflexivity]. apply kind_in in K as (k & E & _ & [S|S] & _); rewrite <- E in S; [|now contradiction S].
  change (T "S" ++ str_Z z) with ("S"%char :: str_Z z) in S. injection S as S. assert (P := py_int_str_Z z). rewrite S in P. vm_compute in P. discriminate P.
Qed.
Lemma numeral_kind w : numeral w -> is_kind w = false.
Proof.
  intros (N & _ & F). destruct (is_kind w) eqn:K; [|reflexivity]. unfold is_kind in K. apply existsb_exists in K as (k & I & E). apply text_eqb_eq in E. subst w.
  apply in_map_iff in I as (x & <- & I). cbn [In] in I. repeat (destruct I as [<- | I]; [vm_compute in F; discriminate F|]). destruct I.
Qed.
Lemma shows_kind str ws vals : (forall x, numeral (str x)) -> Forall2 (shows str) ws vals -> Forall (fun w => is_kind w = false) ws.
Proof.
  intro N. induction 1 as [|w x ws vals [->|S] F IH]; constructor; try assumption; [apply numeral_kind, N|].
  destruct (is_kind w) eqn:K; [|reflexivity]. apply kind_in in K as (k & -> & E & _). rewrite E in S. discriminate S.
Qed.

Lemma body_line str deck bc s box : (forall x, numeral (str x)) -> bounding_coordinates deck [0; 0; 0; 0; 0; 0]%R = Some bc -> good_body str bc s box ->
  exists t, write_fluka_surface str box s = Some (t, s) /\ linear t /\ live t /\ starts (T "END") t = false /\ one_card is_kind (words t) /\
    forall sn, surf_sense s = Some sn -> body_is str bc s sn (words t).
Proof.
  intros N BC (SS & NT & NP & HC). assert (WS : forall x, word (str x)) by (intro x; apply numeral_word, N).
  destruct (surf_sense s) as [sn|] eqn:E; [|contradiction].
  assert (X : exists t ty toks vals body, write_fluka_surface str box s = Some (t, s) /\ words t = T ty :: body_name s :: toks /\ Forall2 (shows str) toks vals /\ fluka_means ty vals body /\
    forall p, (is_cone (s_type s) = true -> (low_of s bc < along s p < high_of s bc)%R) -> (body p <-> neg sn p)).
  { destruct (is_cone (s_type s)) eqn:IC.
    - destruct (HC eq_refl) as (-> & x & y & z & t2 & sh & EC & SH & T2).
      destruct (C43_half_cone_partial str deck bc s sn x y z t2 sh WS BC IC EC SH T2 E) as (t & toks & vals & body & W & WT & F & M & H).
      exists t, "TRC"%string, toks, vals, body. split; [exact W|]. split; [exact WT|]. split; [exact F|]. split; [exact M|]. intros p R. apply H. now apply R.
    - destruct (C43_bodies_partial str box s sn WS E NT IC NP) as (t & ty & toks & vals & body & W & WT & F & M & H).
      exists t, ty, toks, vals, body. split; [exact W|]. split; [exact WT|]. split; [exact F|]. split; [exact M|]. intros p _. apply H. }
  destruct X as (t & ty & toks & vals & body & W & WT & F & M & H). exists t. split; [exact W|]. split; [eapply body_linear; eassumption|].
  assert (K := means_kind _ _ _ M). destruct (kind_in _ K) as (k & EK & _ & _ & NE & NS). rewrite <- EK in NE, NS.
  split; [eapply live_word; eassumption|]. split.
  - unfold starts. rewrite WT. destruct (text_eqb_spec (T ty) (T "END")); [contradiction|reflexivity].
  - rewrite WT. split.
    + split; [exact K|]. constructor; [apply name_kind|]. eapply shows_kind; eassumption.
    + intros sn' E'. injection E' as <-. exists ty, toks, vals, body. split; [reflexivity|]. split; [exact F|]. split; [exact M|exact H].
Qed.

Lemma bodies str deck bc l : (forall x, numeral (str x)) -> bounding_coordinates deck [0; 0; 0; 0; 0; 0]%R = Some bc -> Forall (fun s => good_body str bc (fst s) (snd s)) l ->
  exists ts, fluka_surfaces str l = Some (concat ts, l) /\ Forall linear ts /\ Forall live ts /\ Forall (fun t => starts (T "END") t = false) ts /\
    cards is_kind (flat_map words ts) = ([], map words ts) /\ Forall2 (fun s b => forall sn, surf_sense (fst s) = Some sn -> body_is str bc (fst s) sn b) l (map words ts).
Proof.
  intros N BC F.
  assert (X : exists ts, fluka_surfaces str l = Some (concat ts, l) /\ Forall linear ts /\ Forall live ts /\ Forall (fun t => starts (T "END") t = false) ts /\
    Forall (one_card is_kind) (map words ts) /\ Forall2 (fun s b => forall sn, surf_sense (fst s) = Some sn -> body_is str bc (fst s) sn b) l (map words ts)).
  { induction F as [|[s b] l G F (ts & E & L & V & S & O & B)]; [exists []; repeat (split; [constructor|]); constructor|].
    destruct (body_line str deck bc s b N BC G) as (t & W & L1 & V1 & S1 & O1 & B1). exists (t :: ts). cbn [fluka_surfaces map concat]. rewrite W, E.
    split; [reflexivity|]. repeat (split; [constructor; assumption|]). constructor; assumption. }
  destruct X as (ts & E & L & V & S & O & B). exists ts. repeat (split; [assumption|]). split; [|exact B]. rewrite flat_map_concat_map. now apply cards_concat.
Qed.

(** ** Regions *)

Lemma fluka_ops_clean l t : nonzero_ints l -> fluka_ops l = Some t -> clean t = true.
Proof.
  revert t. induction l as [|i l IH]; intros t NZ E; cbn [fluka_ops] in E; [injection E as <-; reflexivity|].
  destruct (fluka_op i) as [a|] eqn:A; [|discriminate E]. destruct (fluka_ops l) as [b|]; [|discriminate E]. injection E as <-.
  rewrite clean_app, (IH b) by (reflexivity || (intros s I; apply NZ; now right)). rewrite andb_true_r.
  destruct i as [[]|s]; cbn [fluka_op] in A; try (injection A as <-; reflexivity).
  destruct (text_eqb s (T "(")) eqn:E1; [injection A as <-; reflexivity|]. destruct (text_eqb s (T ")")) eqn:E2; [injection A as <-; reflexivity|].
  destruct (NZ s (or_introl eq_refl)) as (z & P & Z0); [unfold is_word; now rewrite E1, E2|]. rewrite P in A.
  destruct (z <? 0)%Z eqn:L1; [injection A as <-; exact (clean_int (Z.abs z))|].
  destruct (0 <? z)%Z eqn:L2; [injection A as <-; exact (clean_int z)|]. exfalso. lia.
Qed.
Lemma halve_end x n : length x <= n -> clean x = true -> exists y, halve (x ++ nl) = y ++ nl /\ clean y = true.
Proof.
  revert x. induction n as [|n IH]; intros x L C; (destruct x as [|c x]; [exists []; now split|]); cbn [length] in L; [lia|].
  unfold clean in C. cbn [forallb] in C. apply andb_true_iff in C as [C0 C]. destruct x as [|d x].
  - exists [c]. split; [|unfold clean; cbn [forallb]; now rewrite C0]. cbn [app halve nl]. destruct (Ascii.eqb c blank && Ascii.eqb newline blank) eqn:B; [|reflexivity].
    apply andb_true_iff in B as [_ B]. discriminate B.
  - cbn [app halve]. cbn [forallb] in C. apply andb_true_iff in C as [C1 C2]. destruct (Ascii.eqb c blank && Ascii.eqb d blank).
    + destruct (IH x) as (y & E & CY); [cbn [length] in L; lia|exact C2|]. exists (blank :: y). rewrite E. now split.
    + destruct (IH (d :: x)) as (y & E & CY); [cbn [length] in *; lia|unfold clean; cbn [forallb]; now rewrite C1|]. cbn [app halve] in E. exists (c :: y). rewrite E. split; [reflexivity|].
      unfold clean. cbn [forallb]. now rewrite C0.
Qed.
Lemma fix_minus_end x n : length x <= n -> clean x = true -> exists y, fix_minus (x ++ nl) = y ++ nl /\ clean y = true.
Proof.
  revert x. induction n as [|n IH]; intros x L C; (destruct x as [|c x]; [exists []; now split|]); cbn [length] in L; [lia|].
  unfold clean in C. cbn [forallb] in C. apply andb_true_iff in C as [C0 C]. 
  assert (K : exists y, c :: fix_minus (x ++ nl) = y ++ nl /\ clean y = true).
  { destruct (IH x ltac:(lia) C) as (y & E & CY). exists (c :: y). rewrite E. split; [reflexivity|]. unfold clean. cbn [forallb]. now rewrite C0. }
  destruct x as [|d [|e x]]; [exact K| |].
  - cbn [app nl fix_minus] in *. destruct (Ascii.eqb c "-" && Ascii.eqb d blank && Ascii.eqb newline "+") eqn:B; [|exact K]. apply andb_true_iff in B as [_ B]. discriminate B.
  - cbn [app fix_minus] in *. destruct (Ascii.eqb c "-" && Ascii.eqb d blank && Ascii.eqb e "+"); [|exact K].
    cbn [forallb] in C. apply andb_true_iff in C as [C1 C2]. apply andb_true_iff in C2 as [C2 C3]. cbn [length] in L. destruct (IH x ltac:(lia) C3) as (y & E & CY).
    exists (blank :: "-"%char :: y). rewrite E. now split.
Qed.

Lemma entries_app ts r : Forall (fun t => is_name t = false) ts -> entries_from (ts ++ r) = (ts ++ fst (entries_from r), snd (entries_from r)).
Proof. induction 1 as [|t ts K F IH]; [cbn [app]; apply surjective_pairing|]. cbn [app entries_from]. rewrite IH, K. reflexivity. Qed.
Definition one_entry (c : list rtok) : Prop := match c with [] => False | k :: a => is_name k = true /\ Forall (fun t => is_name t = false) a end.
Lemma entries_concat cs : Forall one_entry cs -> entries_from (concat cs) = ([], cs).
Proof.
  induction 1 as [|c cs O F IH]; [reflexivity|]. destruct c as [|k a]; [destruct O|]. destruct O as [K A]. cbn [concat app entries_from].
  rewrite entries_app by exact A. rewrite IH. cbn [fst snd]. now rewrite K, app_nil_r.
Qed.

Definition good_region (c : gcell) : Prop :=
  (0 <= g_id c)%Z /\ length (str_Z (g_id c)) <= 9 /\ tight (g_items c) = true /\ nonzero_ints (g_items c) /\ exists r, expr (toks (g_items c)) r.
Lemma region_line show c : good_region c -> exists t, write_fluka_cell (to_w show c) = Some t /\ linear t /\ live t /\ starts (T "END") t = false /\ one_entry (fluka_lex t) /\
  forall r, expr (toks (g_items c)) r -> region_is (g_id c) r (fluka_lex t).
Proof.
  intros (ID & LI & TI & NZ & r & E).
  assert (SC : forallb simple_char (str_Z (g_id c)) = true) by (apply digits_simple, str_Z_digits, ID).
  destruct (fluka_out (to_w show c) r TI NZ E SC) as (out & W & LX). exists out. split; [exact W|].
  unfold write_fluka_cell in W. cbn [w_items w_id to_w] in W, LX. destruct (fluka_ops (g_items c)) as [t|] eqn:EO; [|discriminate W].
  assert (CT := fluka_ops_clean _ _ NZ EO).
  match type of W with Some (fix_minus (halve ?s)) = _ => assert (EW : out = fix_minus (halve s)) by (symmetry; exact (f_equal (fun o => match o with Some x => x | None => out end) W)) end. clear W.
  assert (XX : exists z, linear out /\ out = blank :: "C"%char :: z).
  { rewrite EW. rewrite !app_assoc. change [newline] with nl. 
    match goal with |- context [halve (?x ++ nl)] => set (X := x); destruct (halve_end X _ (le_n _)) as (y & EY & CY) end.
    { unfold X. rewrite !clean_app, CT, clean_int. reflexivity. }
    destruct (fix_minus_end y _ (le_n _) CY) as (z & EZ & CZ).
    assert (HH : exists z', fix_minus (halve (X ++ nl)) = blank :: "C"%char :: z').
    { unfold X. rewrite <- !app_assoc. change (T " C" ++ ?u) with (blank :: "C"%char :: u).
      match goal with |- context [halve (blank :: "C"%char :: ?u)] => set (U := u) end.
      rewrite halve_blank_other, halve_cons_other by discriminate. exists (fix_minus (halve U)). destruct (halve U) as [|a [|b rr]]; reflexivity. }
    destruct HH as (z' & EH). exists z'. split; [|exact EH]. rewrite EY, EZ. now exists z. }
  destruct XX as (z & LN & EZ). split; [exact LN|]. clear EW.
  assert (WZ : exists w ws, words out = ("C"%char :: w) :: ws).
  { rewrite EZ. rewrite words_cons_space by reflexivity. now apply words_first. }
  split; [rewrite EZ; reflexivity|]. split.
  { unfold starts. destruct WZ as (w & ws & ->). reflexivity. }
  rewrite LX. split.
  - split; [reflexivity|]. constructor; [reflexivity|]. constructor; [reflexivity|]. apply Forall_app. split; [|constructor; [reflexivity|constructor]].
    apply Forall_map. apply Forall_forall. intros x I. destruct x as [| | | |w]; try reflexivity. cbn [map_tok is_name]. unfold fluka_word.
    assert (IW : In (Str w) (g_items c) /\ is_word w = true) by now apply in_toks_atom. destruct IW as [IW WW]. destruct (NZ w IW WW) as (v & P & _). rewrite P. destruct (v <? 0)%Z; reflexivity.
  - intros r' E'. exists (TOpen :: map (map_tok fluka_word) (toks (g_items c)) ++ [TClose]), (map_region fluka_word r').
    split; [reflexivity|]. split; [apply expr_term, term_factor, factor_paren; now apply (proj1 (map_tok_expr fluka_word))|].
    intros sense inside H. rewrite holds_map. apply holds_ext_atoms. intros w I.
    destruct (expr_words _ _ _ E' I) as [Iw W']. destruct (NZ w Iw W') as (v & Ez & Hz). eapply fluka_word_env; eauto.
Qed.

Lemma regions show l : Forall good_region l ->
  exists ts, mapM (fun c => write_fluka_cell (to_w show c)) l = Some ts /\ Forall linear ts /\ Forall live ts /\ Forall (fun t => starts (T "END") t = false) ts /\
    entries_from (flat_map fluka_lex ts) = ([], map fluka_lex ts) /\ Forall2 (fun c b => forall r, expr (toks (g_items c)) r -> region_is (g_id c) r b) l (map fluka_lex ts).
Proof.
  intro F.
  assert (X : exists ts, mapM (fun c => write_fluka_cell (to_w show c)) l = Some ts /\ Forall linear ts /\ Forall live ts /\ Forall (fun t => starts (T "END") t = false) ts /\
    Forall one_entry (map fluka_lex ts) /\ Forall2 (fun c b => forall r, expr (toks (g_items c)) r -> region_is (g_id c) r b) l (map fluka_lex ts)).
  { induction F as [|c l G F (ts & E & L & V & S & O & B)]; [exists []; repeat (split; [constructor|]); constructor|].
    destruct (region_line show c G) as (t & W & L1 & V1 & S1 & O1 & B1). exists (t :: ts). cbn [mapM map]. rewrite W, E.
    split; [reflexivity|]. repeat (split; [constructor; assumption|]). constructor; assumption. }
  destruct X as (ts & E & L & V & S & O & B). exists ts. repeat (split; [assumption|]). split; [|exact B]. rewrite flat_map_concat_map. now apply entries_concat.
Qed.

(** ** Cards in columns *)

Definition option_line (t : text) : Prop := linear t /\ live t /\ starts (T "STOP") t = false.
Lemma words_grow b a : forall w ws, words a = w :: ws -> exists v vs, words (a ++ b) = (w ++ v) :: vs.
Proof.
  induction a as [|c a IH]; intros w ws E; [discriminate E|]. cbn [app]. destruct (is_space c) eqn:S.
  - rewrite words_cons_space in E |- * by exact S. eapply IH. exact E.
  - destruct a as [|d a].
    + cbn [words] in E. rewrite S in E. injection E as <- _. destruct (words_first c b S) as (v & vs & EV). cbn [app]. exists v, vs. exact EV.
    + assert (STEP : forall r, words (c :: d :: r) = if is_space d then [c] :: words (d :: r) else match words (d :: r) with w :: ws => (c :: w) :: ws | [] => [[c]] end)
        by (intro r; cbn [words]; now rewrite S).
      rewrite STEP in E. cbn [app]. rewrite STEP. destruct (is_space d) eqn:D.
      * injection E as <- _. exists []. eexists. reflexivity.
      * destruct (words (d :: a)) as [|u us] eqn:U; [exfalso; destruct (words_first d a D) as (? & ? & X); congruence|].
        injection E as <- <-. destruct (IH u us eq_refl) as (v & vs & EV). cbn [app] in EV. rewrite EV. exists v, vs. reflexivity.
Qed.
Lemma field_word0 card k : words (field 0 card) = [k] -> exists w ws, words card = (k ++ w) :: ws.
Proof. intro W. unfold field in W. change (10 * 0) with 0 in W. cbn [skipn] in W. rewrite <- (firstn_skipn 10 card). eapply words_grow. exact W. Qed.
Lemma option_card card k : linear card -> words (field 0 card) = [k] -> hd "*"%char k <> "*"%char -> hd "S"%char k <> "S"%char -> option_line card.
Proof.
  intros L W S0 S1. destruct (field_word0 _ _ W) as (w & ws & E). split; [exact L|]. destruct k as [|c k]; [contradiction S0; reflexivity|]. split.
  - eapply live_word; [exact E|]. exact S0.
  - unfold starts. rewrite E. destruct (text_eqb_spec ((c :: k) ++ w) (T "STOP")) as [X|]; [|reflexivity]. injection X as X _. exfalso. now apply S1.
Qed.

Lemma c_name id : word (T "C" ++ str_Z id).
Proof. split; [discriminate|]. change (nonspace (str_Z id)). apply word_str_Z. Qed.
Lemma scale_positive l : Forall reasonable l -> (0 < / imp_scale l)%Q.
Proof.
  intro F. assert (X : (0 < min_imp l)%Q).
  { destruct (min_imp_spec l (10 ^ (-40))%Q) as ((A & _) & _); [qcomp| |apply Qlt_le_trans with (10 ^ (-40))%Q; [qcomp|exact A]].
    rewrite Forall_forall in F. intros x J. destruct (F x J) as [K|K]; [left; rewrite K; apply Qle_refl|now right]. }
  assert (Y : (0 < max_imp l)%Q) by (apply Qlt_le_trans with 1%Q; [reflexivity|apply max_imp_pos]).
  apply Qinv_lt_0_compat. unfold imp_scale, Qdiv. apply Qmult_lt_0_compat; [exact Y|]. apply Qinv_lt_0_compat. apply Qmult_lt_0_compat; [exact X|].
  apply Qmult_lt_0_compat; [exact Y|reflexivity].
Qed.
Lemma bias_line l c : Forall reasonable l -> In (snd c) l -> length (str_Z (fst c)) <= 9 ->
  bias_is (/ imp_scale l) (fst c) (snd c) (biasing_card (imp_scale l) c) /\ option_line (biasing_card (imp_scale l) c).
Proof.
  intros F I L9. destruct (range_moderate _ (importance_range l (snd c) F I)) as [P M]. set (s := imp_scale l) in *. set (i := fluka_importance s (snd c)) in *.
  assert (L : length (pad_left 10 (fmt_e 4 i)) = 10%nat) by (rewrite pad_left_length, fmt_e_length by assumption; reflexivity).
  assert (LC : length (pad_left 10 (T "C" ++ str_Z (fst c))) = 10%nat) by (apply pad_left_fits; rewrite app_length; cbn [T list_ascii_of_string length]; lia).
  assert (B : bias_is (/ s) (fst c) (snd c) (biasing_card s c)).
  { unfold bias_is, biasing_card. fold i. repeat rewrite field_S by (reflexivity || exact L || exact LC).
    repeat rewrite field_0 by (reflexivity || exact L || exact LC).
    split; [reflexivity|]. split; [reflexivity|]. split; [reflexivity|]. split; [apply pad_left_word, c_name|]. split; [reflexivity|]. split; [reflexivity|]. split; [reflexivity|]. split.
    - rewrite !app_length, L, LC. reflexivity.
    - destruct (py_float_fmt_e 4 i) as (v & V & E). exists (fmt_e 4 i), v. split; [apply pad_left_word, fmt_e_word|]. split; [exact V|]. intros j J0 J1 J2.
      assert (EJ : (j == i)%Q).
      { unfold i, fluka_importance. destruct (Qeq_bool (snd c) 0) eqn:Z.
        - apply Qeq_bool_iff in Z. rewrite (J0 Z). reflexivity.
        - assert (NZ : ~ (snd c == 0)%Q) by (intro K; apply Qeq_bool_iff in K; congruence). unfold Qdiv. destruct (Qle_bool (snd c * / s) 100000) eqn:K.
          + apply Qle_bool_iff in K. rewrite (J1 NZ); rewrite Qmult_comm; [reflexivity|exact K].
          + rewrite (J2 NZ); [reflexivity|]. intro K'. rewrite Qmult_comm in K'. apply Qle_bool_iff in K'. congruence. }
      rewrite EJ, E. assert (X := sci_value_error 4 i). change (10 ^ (- Z.of_nat 4))%Q with (/ 10000)%Q in X. rewrite <- Qmult_assoc in X. exact X. }
  split; [exact B|]. eapply option_card; [|apply B|discriminate|discriminate].
  unfold biasing_card. fold i.
  repeat (apply linear_app; [first [reflexivity | apply clean_pad_left; first [reflexivity|apply clean_nonspace, fmt_e_word|apply clean_nonspace, c_name]]|]). exact linear_nl.
Qed.

Lemma assign_line id mat imp : length (str_Z id) <= 9 -> length (str_Z mat) <= 9 -> assign_is id mat imp (assignmat_card (id, mat, imp)) /\ option_line (assignmat_card (id, mat, imp)).
Proof.
  intros LI LM. set (x := if (mat =? 0)%Z then if Qeq_bool imp 0 then T "BLCKHOLE" else T "VACUUM" else T "M" ++ str_Z mat).
  assert (EX : assignmat_card (id, mat, imp) = pad_right 10 (T "ASSIGNMA") ++ pad_left 10 x ++ pad_left 10 (T "C" ++ str_Z id) ++ nl).
  { unfold assignmat_card, x. destruct (mat =? 0)%Z; reflexivity. }
  assert (WX : word x /\ length x <= 10).
  { unfold x. destruct (mat =? 0)%Z; [destruct (Qeq_bool imp 0); (split; [split; [discriminate|reflexivity]|cbn; lia])|]. split; [apply m_num_word, word_str_Z|].
    rewrite app_length. cbn [T list_ascii_of_string length]. lia. }
  destruct WX as [WX LX]. assert (L1 := pad_left_fits 10 x LX).
  assert (L2 : length (pad_left 10 (T "C" ++ str_Z id)) = 10%nat) by (apply pad_left_fits; rewrite app_length; cbn [T list_ascii_of_string length]; lia).
  assert (A : assign_is id mat imp (assignmat_card (id, mat, imp))).
  { rewrite EX. unfold assign_is. fold x. repeat rewrite field_S by (reflexivity || exact L1). repeat rewrite field_0 by (reflexivity || exact L1 || exact L2).
    split; [reflexivity|]. split; [now apply pad_left_word|]. split; [apply pad_left_word, c_name|]. rewrite !app_length, L1, L2. reflexivity. }
  split; [exact A|]. eapply option_card; [|apply A|discriminate|discriminate]. rewrite EX.
  apply linear_app; [reflexivity|]. apply linear_app; [apply clean_pad_left, clean_nonspace, WX|]. apply linear_app; [apply clean_pad_left, clean_nonspace, c_name|exact linear_nl].
Qed.

(** ** Materials *)

Definition good_mat (show : Q -> text) (m : material) : Prop :=
  PropFlukaNames.good_material show m /\ NoDup (keys (m_comp m)) /\ word (show (Qabs (m_dens m))) /\
  Forall (fun e => 10 ^ (-99) <= snd e)%Q (m_comp m) /\ (total (map snd (m_comp m)) < 10 ^ 99)%Q /\
  forall n, In n (keys (m_comp m)) -> exists z, py_int n = Some z /\ (dropped z \/ exists name, called z name).

Lemma collapsed_ok order : (forall n, In n order -> collapse n <> None) -> collapsed_map order = Some (entries order).
Proof.
  induction order as [|n r IH]; intro H; [reflexivity|]. cbn [collapsed_map]. rewrite IH by (intros k I; apply H; now right).
  assert (C := H n (or_introl eq_refl)). unfold entries. cbn [flat_map]. destruct (collapse n) as [[f|]|]; [reflexivity|reflexivity|contradiction].
Qed.
Lemma elements_ok cm : (forall n f, In (n, f) cm -> py_int n <> None) -> forall w, exists es, element_cards cm w = Some es.
Proof.
  induction cm as [|[n f] cm IH]; intros H w; [eexists; reflexivity|]. cbn [element_cards].
  assert (IH' := IH (fun n f I => H n f (or_intror I))). destruct (_ || _); [apply IH'|].
  assert (P := H n f (or_introl eq_refl)). unfold write_fluka_material_element. destruct (py_int n); [|contradiction]. destruct (IH' (f :: w)) as (es & ->). eauto.
Qed.
Lemma total_part (p : text * Q -> bool) e c : (0 < e)%Q -> Forall (fun x => e <= snd x)%Q c ->
  (0 <= total (map snd (filter p c)) <= total (map snd c))%Q /\ ((exists x, In x c /\ p x = true) -> e <= total (map snd (filter p c)))%Q.
Proof.
  intro E. induction 1 as [|x c B F (IH & IE)]; [cbn; split; [lra|intros (x & [] & _)]|]. cbn [filter map total].
  destruct (p x) eqn:P; cbn [map total]; (split; [lra|]).
  - intros _. lra.
  - intros (y & [<-|I] & Y); [congruence|]. apply IE. eauto.
Qed.
Lemma clean_comp c : Forall good_component c -> clean (comp_string c) = true.
Proof.
  unfold comp_string. induction 1 as [|[n q] c (W & _) F IH]; [reflexivity|]. cbn [flat_map]. unfold component at 1. cbn [fst snd]. rewrite !clean_app, IH.
  rewrite (clean_pad_left 10 n) by apply clean_nonspace, W. rewrite (clean_pad_left 9); [reflexivity|].
  assert (X := fmt_e_word 3 q). unfold fmt_e_sp, fmt_e in *. destruct (sci 3 q) as [a b]. destruct (Qle_bool 0 q); [|apply clean_nonspace, X].
  change (T " " ++ sci_text 3 a b) with (blank :: sci_text 3 a b). apply (clean_nonspace _ (proj2 X)).
Qed.
Lemma clean_firstn n x : clean x = true -> clean (firstn n x) = true.
Proof. unfold clean. rewrite !forallb_forall. intros F c I. apply F. rewrite <- (firstn_skipn n x). apply in_or_app. now left. Qed.
Lemma clean_skipn n x : clean x = true -> clean (skipn n x) = true.
Proof. unfold clean. rewrite !forallb_forall. intros F c I. apply F. rewrite <- (firstn_skipn n x). apply in_or_app. now right. Qed.
Lemma compound_linear num f : nonspace num -> forall s cs, clean s = true -> compound_loop f num s = Some cs -> Forall linear cs.
Proof.
  intro WN. induction f as [|f IH]; intros s cs C E; [discriminate E|]. cbn [compound_loop] in E. destruct s as [|a s]; [injection E as <-; constructor|].
  match type of E with (let (_, _) := ?e in _) = _ => assert (X : clean (fst e) = true /\ clean (snd e) = true); [|destruct e as [part rest]] end.
  { unfold tail_n, front_n. destruct (60 <=? _); [|destruct (_ =? 2); [|destruct (_ =? 1)]]; cbn [fst snd]; rewrite ?clean_app; split; rewrite ?clean_firstn, ?clean_skipn by exact C; try reflexivity. exact C. }
  destruct X as [XP XR]. cbn [fst snd] in *. destruct (compound_loop f num rest) as [r|] eqn:R; [|discriminate E]. cbn [option_map] in E.
  injection E as <-. constructor; [|eapply IH; eassumption]. unfold compound_card. apply linear_app; [reflexivity|]. apply linear_app; [exact XP|].
  apply linear_app; [|exact linear_nl]. apply clean_pad_left. exact (clean_nonspace _ WN).
Qed.

Lemma material_group show m m' : good_mat show m -> m' = with_comp m (m_comp m') -> Forall good_component (m_comp m') ->
  exists cs, lasting (fun f => write_fluka_compound f m') cs /\ material_is show m (m_comp m') (write_fluka_material show m' :: cs) /\ Forall option_line (write_fluka_material show m' :: cs).
Proof.
  intros ((NE & AD & LN & LS) & _ & WD & _) EM G. assert (WN := digits_nonspace _ AD).
  assert (EN : m_num m' = m_num m) by (rewrite EM; reflexivity). assert (ED : m_dens m' = m_dens m) by (rewrite EM; reflexivity).
  rewrite <- EN in NE, AD, LN, WN. rewrite <- ED in LS, WD.
  destruct (C42_compound_partial m' WN LN G) as (cs & W & OK & SH). destruct (material_card_fields show m' WN LN LS) as (M & F3 & L).
  exists cs. split; [exists (S (length (m_comp m'))); intros f LF; apply W; lia|]. split.
  - exists (write_fluka_material show m'), cs. rewrite <- EN, <- ED. split; [reflexivity|]. split; [exact M|]. split; [rewrite F3; now apply pad_left_word|]. split; [exact L|]. now split.
  - constructor.
    + eapply option_card; [|apply M|discriminate|discriminate]. unfold write_fluka_material.
      repeat (apply linear_app; [first [reflexivity | apply clean_pad_left; first [apply clean_nonspace, WD|exact (clean_nonspace _ WN)]]|]). exact linear_nl.
    + assert (LC : Forall linear cs) by (eapply (compound_linear (m_num m') (S (length (m_comp m')))); [exact WN|apply (clean_comp _ G)|exact (W _ (Nat.lt_succ_diag_r _))]).
      rewrite Forall_forall in *. intros c I. destruct (OK c I) as (F0 & _). eapply option_card; [now apply LC|rewrite F0; reflexivity|discriminate|discriminate].
Qed.

Lemma material_groups show (P : material -> dict Q -> Prop) (ms ms' : dict material) :
  Forall2 (fun a b => good_mat show (snd a) /\ snd b = with_comp (snd a) (m_comp (snd b)) /\ Forall good_component (m_comp (snd b)) /\ P (snd a) (m_comp (snd b))) ms ms' ->
  exists gs, lasting (fun f => material_cards show f ms') (concat gs) /\ Forall option_line (concat gs) /\
    Forall2 (fun a g => exists named, P (snd a) named /\ material_is show (snd a) named g) ms gs.
Proof.
  induction 1 as [|[k m] [k' m'] ms ms' (G & E & C & H) F (gs & (f0 & L) & O & FG)].
  - exists []. split; [exists 0; intros f _; reflexivity|]. split; constructor.
  - cbn [snd] in *. destruct (material_group show m m' G E C) as (cs & (f1 & W) & M & O1). exists ((write_fluka_material show m' :: cs) :: gs). split.
    + exists (max f0 f1). intros f LF. cbn [material_cards concat]. rewrite W, L by lia. reflexivity.
    + cbn [concat]. split; [apply Forall_app; now split|]. constructor; [|exact FG]. exists (m_comp m'). now split.
Qed.

Lemma element_lines cm : forall w es, element_cards cm w = Some es -> (forall n f, In (n, f) cm -> exists z, py_int n = Some z /\ called z f) -> Forall option_line es.
Proof.
  induction cm as [|[n f] cm IH]; intros w es E H; cbn [element_cards] in E; [injection E as <-; constructor|].
  assert (HT : forall n f, In (n, f) cm -> exists z, py_int n = Some z /\ called z f) by (intros; apply H; now right).
  destruct (_ || _); [eapply IH; eassumption|]. destruct (write_fluka_material_element n f) as [c|] eqn:W; [|discriminate E].
  destruct (element_cards cm (f :: w)) as [l|] eqn:EL; [|discriminate E]. injection E as <-. constructor; [|eapply IH; eassumption].
  destruct (H n f (or_introl eq_refl)) as (z & P & C). destruct (element_card n z f c P C W) as ((W0 & _) & _ & _). destruct (called_facts z f C) as (WF & LF & R & _).
  destruct (element_number _ R) as (_ & WE & _).
  eapply option_card; [|exact W0|discriminate|discriminate]. unfold write_fluka_material_element in W. rewrite P in W.
  match type of W with Some ?t = _ => assert (EW : c = t) by (symmetry; exact (f_equal (fun o => match o with Some x => x | None => c end) W)) end. rewrite EW.
  repeat (apply linear_app; [first [reflexivity | apply clean_pad_left; first [apply clean_nonspace, WF|apply clean_nonspace, WE]]|]). exact linear_nl.
Qed.

Lemma materials show order ms : is_nuclide_set ms order -> (forall k m, In (k, m) ms -> good_mat show m) ->
  exists ms' es gs, lasting (fun f => write_fluka_materials show f order ms) (es ++ concat gs, ms') /\ Forall option_line (es ++ concat gs) /\
    Forall2 (fun a g => exists named, renamed (m_comp (snd a)) named /\ (forall name, In name (keys named) -> known order (es ++ concat gs) name) /\ material_is show (snd a) named g) ms gs.
Proof.
  intros [NO SO] GM. set (ms' := rename_all (entries order) ms).
  assert (CN : forall n, In n order -> exists z, py_int n = Some z /\ collapse n <> None).
  { intros n I. apply SO in I as (k & m & I & J). destruct (GM k m I) as (_ & _ & _ & _ & _ & H). destruct (H n J) as (z & P & D). exists z. split; [exact P|].
    destruct D as [D|(name & C)]; [apply (collapse_dropped n z P) in D|apply (collapse_called n z name P) in C]; congruence. }
  assert (CM := collapsed_ok order (fun n I => match CN n I with ex_intro _ z H => proj2 H end)).
  assert (HC : forall n f, In (n, f) (entries order) -> exists z, py_int n = Some z /\ called z f).
  { intros n f I. apply in_entries in I as [I C]. destruct (CN n I) as (z & P & _). exists z. split; [exact P|]. now apply (collapse_called n z f P). }
  destruct (elements_ok (entries order)) with (w := @nil text) as (es & EE).
  { intros n f I. destruct (HC n f I) as (z & P & _). congruence. }
  assert (ND : forall k m, In (k, m) ms -> NoDup (keys (m_comp m))) by (intros k m I; apply (GM k m I)).
  assert (NM : forall k m, In (k, m) ms -> let c := named (entries order) (m_comp m) in Forall good_component c).
  { intros k m I c. assert (IN : incl (keys (m_comp m)) order) by (intros n J; apply SO; eauto). destruct (GM k m I) as (_ & N1 & _ & B & TL & _).
    assert (NK : NoDup (keys c)) by (apply named_nodup; constructor).
    apply Forall_forall. intros [f q] X. assert (XF := in_map fst _ _ X). cbn [fst] in XF. apply named_keys in XF as [[]|(n & XE & XN)].
    destruct (HC n f XE) as (z & P & C). destruct (called_facts z f C) as (WF & LF & _). split; [exact WF|]. split; [exact LF|]. cbn [snd].
    assert (Q1 : (q == total (map snd (filter (fun e => same_name f (fst e)) (m_comp m))))%Q).
    { assert (V := named_val (m_comp m) order f NO N1 IN). unfold amount in V. fold c in V. rewrite (in_dget _ _ _ NK X) in V. exact V. }
    destruct (total_part (fun e => same_name f (fst e)) (10 ^ (-99)) (m_comp m) eq_refl B) as ((B1 & B2) & B3).
    right. rewrite Q1. rewrite Qabs_pos by exact B1. split; [|eapply Qle_lt_trans; eassumption]. apply B3.
    apply in_map_iff in XN as ([n' q'] & E & J). cbn [fst] in E. subst n'. exists (n, q'). split; [exact J|]. cbn [fst]. unfold same_name.
    apply (collapse_called n z f P) in C. rewrite C. apply text_eqb_refl. }
  set (P := fun a comp => exists k, In (k, a) ms /\ comp = named (entries order) (m_comp a)).
  destruct (material_groups show P ms ms') as (gs & (f0 & L) & O & FG).
  { unfold ms', rename_all. apply Forall2_map_self. intros [k m] I. cbn [snd fst m_comp with_comp]. split; [now apply (GM k)|]. split; [reflexivity|]. split; [now apply (NM k)|]. exists k. now split. }
  assert (W : forall f, f0 <= f -> write_fluka_materials show f order ms = Some (es ++ concat gs, ms')).
  { intros f LF. unfold write_fluka_materials. rewrite CM, EE. fold ms'. now rewrite (L f LF). }
  exists ms', es, gs. split; [now exists f0|]. split; [apply Forall_app; split; [eapply element_lines; eassumption|exact O]|].
  assert (W0 := W f0 (le_n _)). assert (C66 := C66_fractions_partial show f0 order ms _ _ (conj NO SO) ND W0).
  assert (MO : forall k m e, In (k, m) ms' -> In e (m_comp m) -> moderate (snd e)).
  { intros k m e I J. unfold ms', rename_all in I. apply in_map_iff in I as ([k0 m0] & E & I). injection E as <- <-. cbn [m_comp with_comp snd] in J.
    assert (X := NM k0 m0 I). cbv zeta in X. rewrite Forall_forall in X. apply (X e J). }
  assert (C67 := proj2 (C67_declared_partial show f0 order ms _ _ (conj NO SO) (fun k m I => proj1 (GM k m I)) MO W0)).
  assert (IN2 : forall (R : text * material -> text * material -> Prop) g l x, Forall2 R l (map g l) -> In x l -> R x (g x)).
  { clear. intros R g l x. induction l as [|y l IH]; intros F I; [destruct I|]. inversion F; subst. destruct I as [<-|I]; auto. }
  assert (X : forall (a : text * material) g, (exists comp, P (snd a) comp /\ material_is show (snd a) comp g) ->
    exists comp, renamed (m_comp (snd a)) comp /\ (forall name, In name (keys comp) -> known order (es ++ concat gs) name) /\ material_is show (snd a) comp g).
  { intros [k0 a] g (comp & (k & I & EC) & M). cbn [snd] in *. exists comp. split; [|split; [|exact M]].
    - destruct (IN2 _ _ _ _ C66 I) as (_ & _ & _ & R1 & R2 & R3 & _). cbn [snd fst m_comp with_comp] in R1, R2, R3. rewrite <- EC in R1, R2, R3. split; [exact R1|]. split; [exact R2|exact R3].
    - intros name J. destruct (C67 k (with_comp a comp) name) as [S|(b & card & c & E & M1 & A & U)].
      + unfold ms', rename_all. apply in_map_iff. exists (k, a). rewrite EC. split; [reflexivity|exact I].
      + exact J.
      + now left.
      + right. exists b, card, c. split; [exact E|]. split; [exact M1|]. split; [exact U|exact A]. }
  exact (PropProcess.forall2_mono _ _ _ _ X FG).
Qed.

(** ** The file *)

(** What is asked of the deck. *)
Definition fluka_deck (str : R -> text) (show : Q -> text) (order : dict material -> list text) (bc : list R) (d : deck) : Prop :=
  (forall x, numeral (str x)) /\ (exists ss, bounding_coordinates ss [0; 0; 0; 0; 0; 0]%R = Some bc) /\
  Forall (fun s => good_body str bc (fst s) (snd s)) (d_surfs d) /\
  Forall (fun c => good_region c /\ length (str_Z (g_mat c)) <= 9 /\ reasonable (g_imp c)) (d_cells d) /\
  is_nuclide_set (d_mats d) (order (d_mats d)) /\ (forall k m, In (k, m) (d_mats d) -> good_mat show m).

Definition lit (s : string) : text := T s ++ nl.
Lemma filter_live L r : Forall live L -> filter (fun l => negb (remark l)) (L ++ r) = L ++ filter (fun l => negb (remark l)) r.
Proof. intro F. now rewrite filter_app, live_lines. Qed.

(** C80: read by FLUKA's rules the file has the title, one body for each surface, one region for each cell, one card for
    each importance and each content, and the cards of the materials, in order, and nothing else; the deck is not changed
    but for the names in the materials.  Missing from the full property: tori and whole cones (C43), universes
    ([C80_universe_refuted]), atom densities ([C80_density_refuted]), lines of more than 132 columns (C63), names and
    numbers that do not fit into their field (C67). *)
Theorem C80_fluka_file_partial str show order bc d : fluka_deck str show order bc d ->
  exists t d' bs rs k bias assign es gs, lasting (fun fuel => fluka_file str show fuel order d) (t, d') /\
    fluka_reads t = Some (Fi (T " input deck automatically created by csg2csg" ++ nl) bs rs (bias ++ assign ++ es ++ concat gs)) /\
    Forall2 (fun s b => forall sn, surf_sense (fst s) = Some sn -> body_is str bc (fst s) sn b) (d_surfs d) bs /\
    Forall2 (fun c ts => forall r, expr (toks (g_items c)) r -> region_is (g_id c) r ts) (d_cells d) rs /\
    (0 < k)%Q /\ Forall2 (fun c card => bias_is k (g_id c) (g_imp c) card) (d_cells d) bias /\
    Forall2 (fun c card => assign_is (g_id c) (g_mat c) (g_imp c) card) (d_cells d) assign /\
    Forall2 (fun m g => exists named, renamed (m_comp (snd m)) named /\ (forall name, In name (keys named) -> known (order (d_mats d)) (es ++ concat gs) name) /\
      material_is show (snd m) named g) (d_mats d) gs /\
    d_surfs d' = d_surfs d /\ d_cells d' = d_cells d /\ d_univ d' = d_univ d.
Proof.
  intros (NS & (ss & BC) & FB & FC & NU & GM).
  destruct (bodies str ss bc (d_surfs d) NS BC FB) as (bs & EB & LB & VB & SB & CB & HB).
  destruct (regions show (d_cells d)) as (rs & ER & LR & VR & SR & CR & HR).
  { apply (Forall_impl _) with (2 := FC). intros c H. apply H. }
  destruct (materials show (order (d_mats d)) (d_mats d) NU GM) as (ms' & es & gs & (f0 & W) & OM & HM).
  set (scale := imp_scale (map g_imp (d_cells d))).
  set (bias := map (fun c => biasing_card scale (g_id c, g_imp c)) (d_cells d)). set (assign := map (fun c => assignmat_card (g_id c, g_mat c, g_imp c)) (d_cells d)).
  assert (RI : Forall reasonable (map g_imp (d_cells d))).
  { apply Forall_map. apply (Forall_impl _) with (2 := FC). intros c H. apply H. }
  rewrite Forall_forall in FC.
  assert (HI : forall c, In c (d_cells d) -> bias_is (/ scale) (g_id c) (g_imp c) (biasing_card scale (g_id c, g_imp c)) /\ option_line (biasing_card scale (g_id c, g_imp c))).
  { intros c I. apply (bias_line (map g_imp (d_cells d)) (g_id c, g_imp c) RI); [exact (in_map g_imp _ _ I)|]. apply (FC c I). }
  assert (HA : forall c, In c (d_cells d) -> assign_is (g_id c) (g_mat c) (g_imp c) (assignmat_card (g_id c, g_mat c, g_imp c)) /\ option_line (assignmat_card (g_id c, g_mat c, g_imp c))).
  { intros c I. apply assign_line; apply (FC c I). }
  assert (OB : Forall option_line bias) by (apply Forall_map, Forall_forall; intros c I; now apply HI).
  assert (OA : Forall option_line assign) by (apply Forall_map, Forall_forall; intros c I; now apply HA).
  assert (OS : Forall option_line (bias ++ assign ++ es ++ concat gs)) by (apply Forall_app; split; [exact OB|]; apply Forall_app; now split).
  set (R := lit "*...+....1....+....2....+....3....+....4....+....5....+....6....+....7....+....8").
  set (L := [R; lit "TITLE"; lit " input deck automatically created by csg2csg"; R; lit "* --- surface definitions --- *"; R;
             lit "GEOBEGIN                                                              COMBNAME"; lit "    0    0"] ++ bs ++
            [lit "END"; R; lit "* --- cell definitions --- *"] ++ rs ++ [lit "END"; lit "GEOEND"; R] ++ bias ++ [R; R] ++ assign ++
            [lit "* --- material definitions --- *"; R] ++ (es ++ concat gs) ++ [R; lit "STOP"]).
  exists (concat L), (ConvertModel.mkDeck (d_surfs d) (d_cells d) ms' (d_univ d)), (map words bs), (map fluka_lex rs), (/ scale)%Q, bias, assign, es, gs.
  split; [|split].
  - exists f0. intros f LF. unfold fluka_file. rewrite EB, (W f LF). unfold texts. rewrite ER. unfold ruler, ConvertModel.line. cbn [seqs ConvertModel.seq option_map].
    unfold write_fluka_importances, write_fluka_assignmats. rewrite !map_map. cbn [snd]. fold scale. fold bias assign.
    match goal with |- Some (?a, _) = Some (?b, _) => assert (X : a = b); [|now rewrite X] end.
    unfold L. rewrite !concat_app. cbn [concat]. unfold R, lit, nl. repeat (progress (rewrite <- ?app_assoc; cbn [app])). reflexivity.
  - assert (LL : Forall linear L).
    { assert (LT : forall s, clean (T s) = true -> linear (lit s)) by (intros s C; apply linear_app; [exact C|exact linear_nl]).
      assert (OL : forall l, Forall option_line l -> Forall linear l) by (intros l F; apply (Forall_impl _) with (2 := F); intros x H; apply H).
      assert (OM2 := OL _ OM). apply Forall_app in OM2 as [OM2 OM3].
      unfold L. repeat (apply Forall_app; split); try assumption; try (apply OL; assumption); repeat (apply Forall_cons; [apply LT; reflexivity|]); apply Forall_nil. }
    assert (OV : forall l, Forall option_line l -> Forall live l) by (intros l F; apply (Forall_impl _) with (2 := F); intros x H; apply H).
    assert (EL : fluka_lines (concat L) = [lit "TITLE"; lit " input deck automatically created by csg2csg"; lit "GEOBEGIN                                                              COMBNAME"; lit "    0    0"] ++
       bs ++ lit "END" :: rs ++ lit "END" :: lit "GEOEND" :: (bias ++ assign ++ es ++ concat gs) ++ lit "STOP" :: []).
    { unfold fluka_lines. rewrite lines_read by exact LL. unfold L.
      assert (H1 : forall s r, remark (lit s) = true -> filter (fun l => negb (remark l)) (lit s :: r) = filter (fun l => negb (remark l)) r) by (intros s r E; cbn [filter]; now rewrite E).
      assert (H2 : forall s r, remark (lit s) = false -> filter (fun l => negb (remark l)) (lit s :: r) = lit s :: filter (fun l => negb (remark l)) r) by (intros s r E; cbn [filter]; now rewrite E).
      unfold R. cbn [app]. repeat first [rewrite H1 by reflexivity | rewrite H2 by reflexivity].
      rewrite filter_live by exact VB. repeat first [rewrite H1 by reflexivity | rewrite H2 by reflexivity].
      rewrite filter_live by exact VR. repeat first [rewrite H1 by reflexivity | rewrite H2 by reflexivity].
      rewrite filter_live by (now apply OV). repeat first [rewrite H1 by reflexivity | rewrite H2 by reflexivity].
      rewrite filter_live by (now apply OV). repeat first [rewrite H1 by reflexivity | rewrite H2 by reflexivity].
      rewrite filter_live by (now apply OV). repeat first [rewrite H1 by reflexivity | rewrite H2 by reflexivity].
      rewrite <- !app_assoc. reflexivity. }
    unfold fluka_reads. rewrite EL. cbn [app].
    change (starts (T "TITLE") (lit "TITLE")) with true. change (starts (T "GEOBEGIN") (lit "GEOBEGIN                                                              COMBNAME")) with true.
    change (text_eqb (firstn 8 (skipn 70 (lit "GEOBEGIN                                                              COMBNAME"))) (T "COMBNAME")) with true. cbn [andb].
    rewrite upto_app by (exact SB || reflexivity). rewrite upto_app by (exact SR || reflexivity). change (starts (T "GEOEND") (lit "GEOEND")) with true. cbv iota.
    rewrite upto_app; [|apply (Forall_impl _) with (2 := OS); intros x H; apply H|reflexivity]. rewrite CB, CR. reflexivity.
  - split; [exact HB|]. split; [exact HR|]. split; [now apply scale_positive|]. split; [unfold bias; apply Forall2_map_self; intros c I; now apply HI|].
    split; [unfold assign; apply Forall2_map_self; intros c I; now apply HA|]. split; [exact HM|]. now split.
Qed.
Print Assumptions C80_fluka_file_partial.

(** ** A deck *)

Definition show80 (q : Q) : text := if Qeq_bool q (78 # 10) then T "7.8" else PropFile.show_ex q.
Definition order80 (_ : dict material) : list text := [T "26056"; T "6012"].
Definition bc80 : list R := [0; 0; 0; 0; 0; 0]%R.
Example C80_deck : fluka_deck PropSurfOut.str01 show80 order80 bc80 PropFile.deck_ex.
Proof.
  assert (NU : forall w : text, (negb (text_eqb w []) && (length w <=? 40) && forallb (fun c => is_digit c || existsb (Ascii.eqb c) (T "-+.e")) w)%bool = true -> numeral w).
  { intros w H. apply andb_true_iff in H as [H H3]. apply andb_true_iff in H as [H1 H2]. split; [intros ->; discriminate|]. split; [now apply Nat.leb_le|exact H3]. }
  split; [|split; [|split; [|split; [|split]]]].
  - intro x. unfold PropSurfOut.str01. destruct (Req_EM_T x 0), (Req_EM_T x 1); now apply NU.
  - now exists [].
  - cbn [d_surfs PropFile.deck_ex]. repeat (constructor; [split; [discriminate|split; [reflexivity|split; discriminate]]|]). constructor.
  - destruct PropFile.C73_deck as (FC & _). cbn [d_cells PropFile.deck_ex PropFile.cells_ex] in *. rewrite Forall_forall in FC.
    constructor; [|constructor; [|constructor; [|constructor]]].
    + destruct (FC _ (or_introl eq_refl)) as (r & G). split; [|split; [apply Nat.leb_le; reflexivity|right; vm_compute; discriminate]].
      split; [vm_compute; discriminate|]. split; [apply Nat.leb_le; reflexivity|]. split; [reflexivity|]. split; [|exists r; apply G].
      intros s I W. cbn in I. destruct I as [I|[I|[]]]; [discriminate I|]. injection I as <-. exists (-3)%Z. split; [reflexivity|discriminate].
    + destruct (FC _ (or_intror (or_introl eq_refl))) as (r & G). split; [|split; [apply Nat.leb_le; reflexivity|right; vm_compute; discriminate]].
      split; [vm_compute; discriminate|]. split; [apply Nat.leb_le; reflexivity|]. split; [reflexivity|]. split; [|exists r; apply G].
      intros s I W. cbn in I. repeat (destruct I as [I|I]; [first [discriminate I|injection I as <-; first [discriminate W|eexists; split; [vm_compute; reflexivity|discriminate]]]|]). destruct I.
    + destruct (FC _ (or_intror (or_intror (or_introl eq_refl)))) as (r & G). split; [|split; [apply Nat.leb_le; reflexivity|right; vm_compute; discriminate]].
      split; [vm_compute; discriminate|]. split; [apply Nat.leb_le; reflexivity|]. split; [reflexivity|]. split; [|exists r; apply G].
      intros s I W. cbn in I. repeat (destruct I as [I|I]; [first [discriminate I|injection I as <-; first [discriminate W|eexists; split; [vm_compute; reflexivity|discriminate]]]|]). destruct I.
  - split.
    + unfold order80. constructor; [intros [H|[]]; discriminate|]. constructor; [intros []|constructor].
    + intro n. cbn [d_mats PropFile.deck_ex order80 In]. split.
      * intros [<- | [<- | []]]; exists (T "12"), PropFile.steel_ex; (split; [now left|]); vm_compute; tauto.
      * intros (k & m & [E|[]] & I). injection E as <- <-. vm_compute in I. destruct I as [<- | [<- | []]]; tauto.
  - intros k m [E|[]]. injection E as <- <-. split; [|split; [|split; [|split; [|split]]]].
    + split; [discriminate|]. split; [reflexivity|]. split; apply Nat.leb_le; reflexivity.
    + cbn. constructor; [intros [H|[]]; discriminate|]. constructor; [intros []|constructor].
    + split; [vm_compute; discriminate|reflexivity].
    + cbn [m_comp PropFile.steel_ex]. repeat (constructor; [vm_compute; discriminate|]). constructor.
    + vm_compute. reflexivity.
    + intros n I. cbn in I. destruct I as [<- | [<- | []]]; eexists; (split; [vm_compute; reflexivity|right]).
      * exists (T "IRON"). apply (collapse_called (T "26056") 26056 (T "IRON") eq_refl). vm_compute. reflexivity.
      * exists (T "CARBON"). apply (collapse_called (T "6012") 6012 (T "CARBON") eq_refl). vm_compute. reflexivity.
Qed.
Example C80_text : option_map fst (fluka_file PropSurfOut.str01 show80 99 order80 PropFile.deck_ex) = Some (
  lit "*...+....1....+....2....+....3....+....4....+....5....+....6....+....7....+....8" ++ lit "TITLE" ++ lit " input deck automatically created by csg2csg" ++
  lit "*...+....1....+....2....+....3....+....4....+....5....+....6....+....7....+....8" ++ lit "* --- surface definitions --- *" ++
  lit "*...+....1....+....2....+....3....+....4....+....5....+....6....+....7....+....8" ++
  lit "GEOBEGIN                                                              COMBNAME" ++ lit "    0    0" ++
  lit "SPH S3 0.0 1.0 0.0 1.0" ++ lit "YZP S4 1.0" ++ lit "XYP S40 0.0" ++ lit "END" ++
  lit "*...+....1....+....2....+....3....+....4....+....5....+....6....+....7....+....8" ++ lit "* --- cell definitions --- *" ++
  lit " C1 5 (  +S3 ) " ++ lit " C2 5 ( +( -S3  +S4 ) |  +S40 ) " ++ lit " C33 5 (  -( +S3 |  -S40 ) ) " ++ lit "END" ++ lit "GEOEND" ++
  lit "*...+....1....+....2....+....3....+....4....+....5....+....6....+....7....+....8" ++
  lit "BIASING          3.0       1.02.5000e-05        C1                         PRINT" ++
  lit "BIASING          3.0       1.02.5000e-05        C2                         PRINT" ++
  lit "BIASING          3.0       1.06.2500e-06       C33                         PRINT" ++
  lit "*...+....1....+....2....+....3....+....4....+....5....+....6....+....7....+....8" ++ lit "*...+....1....+....2....+....3....+....4....+....5....+....6....+....7....+....8" ++
  lit "ASSIGNMA         M12        C1" ++ lit "ASSIGNMA      VACUUM        C2" ++ lit "ASSIGNMA      VACUUM       C33" ++ lit "* --- material definitions --- *" ++
  lit "*...+....1....+....2....+....3....+....4....+....5....+....6....+....7....+....8" ++
  lit "MATERIAL                             7.8                                     M12" ++
  lit "COMPOUND   7.500e-01      IRON 2.500e-01    CARBON                           M12" ++
  lit "*...+....1....+....2....+....3....+....4....+....5....+....6....+....7....+....8" ++ lit "STOP").
Proof.
  unfold fluka_file. cbn [d_surfs PropFile.deck_ex fluka_surfaces]. unfold write_fluka_surface. cbn [s_type s_coef s_id s_bc]. unfold each. cbn [flat_map].
  repeat rewrite ?PropSurfOut.str01_0, ?PropSurfOut.str01_1.
  vm_compute. reflexivity.
Qed.
Example C80_example : exists fuel t d' f, fluka_file PropSurfOut.str01 show80 fuel order80 PropFile.deck_ex = Some (t, d') /\ fluka_reads t = Some f /\
  length (f_bodies f) = 3 /\ Forall2 (fun c ts => forall r, expr (toks (g_items c)) r -> region_is (g_id c) r ts) PropFile.cells_ex (f_regions f) /\ 7 <= length (f_cards f).
Proof.
  destruct (C80_fluka_file_partial _ _ _ _ _ C80_deck) as (t & d' & bs & rs & k & bias & assign & es & gs & (N & W) & R & B & C & _ & I & A & M & _).
  exists N, t, d', (Fi (T " input deck automatically created by csg2csg" ++ nl) bs rs (bias ++ assign ++ es ++ concat gs)).
  split; [exact (W N (le_n N))|]. split; [exact R|]. cbn [f_bodies f_regions f_cards].
  assert (L : forall (X Y : Type) (P : X -> Y -> Prop) l m, Forall2 P l m -> length m = length l) by (induction 1; cbn [length]; congruence).
  split; [exact (L _ _ _ _ _ B)|]. split; [exact C|].
  rewrite !app_length, (L _ _ _ _ _ I), (L _ _ _ _ _ A). cbn [d_mats PropFile.deck_ex] in M. inversion M as [|? ? ? ? (named & _ & _ & c & cs & E & _)]; subst. cbn. lia.
Qed.

(** C80 is false of decks with universes: two decks, one of which puts a cell into a universe that fills another cell,
    are written as the same file, so that the regions overlap. *)
Theorem C80_universe_refuted : exists str show order a b a' b' u t d1 d2,
  a' = mkG (g_id a) (g_mat a) (g_dens a) (g_text a) (g_items a) (g_univ a) (Some u) (g_offset a) (g_rot a) (g_imp a) /\ g_fill a = None /\
  b' = mkG (g_id b) (g_mat b) (g_dens b) (g_text b) (g_items b) (Some u) (g_fill b) (g_offset b) (g_rot b) (g_imp b) /\ g_univ b = None /\
  fluka_file str show 10 order (ConvertModel.mkDeck [] [a; b] [] []) = Some (t, d1) /\
  fluka_file str show 10 order (ConvertModel.mkDeck [] [a'; b'] [] []) = Some (t, d2).
Proof.
  exists PropSurfOut.str01, show80, (fun _ => []), (mkG 1 0 [] [] [Str (T "-1")] None None None None 1), (mkG 2 0 [] [] [Str (T "-2")] None None None None 1).
  do 2 eexists. exists (T "7"). do 3 eexists. do 4 (split; [reflexivity|]). split; vm_compute; reflexivity.
Qed.
Print Assumptions C80_universe_refuted.

(** C80 is false of atom densities: a density in atoms per barn and centimetre (positive) and one in grams per cubic
    centimetre (negative) are written alike. *)
Theorem C80_density_refuted : exists str show order c m t d1 d2, (0 < m_dens m)%Q /\
  fluka_file str show 10 order (ConvertModel.mkDeck [] [c] [(m_num m, m)] []) = Some (t, d1) /\
  fluka_file str show 10 order (ConvertModel.mkDeck [] [c] [(m_num m, mkM (m_num m) (m_name m) (- m_dens m) (m_comp m) (m_xs m) (m_colour m))] []) = Some (t, d2).
Proof.
  exists PropSurfOut.str01, show80, order80, (mkG 1 12 (T "0.08") [] [Str (T "-1")] None None None None 1), (mkM (T "12") (T "M12") (8 # 100) [(T "26056", 3 # 4); (T "6012", 1 # 4)]%Q [] None).
  do 3 eexists. split; [reflexivity|]. split; [vm_compute; reflexivity|vm_compute; reflexivity].
Qed.
Print Assumptions C80_density_refuted.

(** C80 is false of tori: a torus is written as a comment, and the region that refers to it has no such body. *)
Theorem C80_torus_refuted : exists str show order s c t d' f, surf_sense s <> None /\
  fluka_file str show 10 order (ConvertModel.mkDeck [(s, [])] [c] [] []) = Some (t, d') /\ fluka_reads t = Some f /\
  f_bodies f = [] /\ f_regions f = [[TAtom (T "C1"); TAtom (T "5"); TOpen; TAtom (T "+S5"); TClose]].
Proof.
  exists PropSurfOut.str01, show80, order80, (mkS 5 None TORUS_Z [0; 0; 0; 1; 1; 1]%R TRANSMISSION), (mkG 1 0 [] [] [Str (T "-5")] None None None None 1).
  do 3 eexists. split; [discriminate|]. split; [vm_compute; reflexivity|]. split; [vm_compute; reflexivity|]. split; reflexivity.
Qed.
Print Assumptions C80_torus_refuted.
