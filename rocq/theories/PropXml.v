(** The files written for OpenMC, as characters (C90). *)
From Coq Require Import NArith Lia.
From Coq Require Import QArith Reals.
From Verif Require Import PyStr PyStrFacts PyInt PyIntFacts FortranNumber FortranNumberProofs PyDict CellModel CellWriters CellWritersOut FlattenModel SurfModel SurfWriters MaterialModel OpenMCPrune MaterialWriters NamesModel ConvertModel XmlModel.
Open Scope nat_scope.
Open Scope list_scope.

(* ------------------------------------------------------------------ *)
(** * Reading XML *)

(** What XML 1.0 says, for the characters up to 255 and without comments, processing instructions, sections and a
    document type (none of which is ever written). *)

(** Characters that may stand in a document; blanks; characters of names. *)
Definition legal (c : ascii) : bool := let n := N_of_ascii c in (31 <? n)%N || (n =? 9)%N || (n =? 10)%N || (n =? 13)%N.
Definition is_blank (c : ascii) : bool := let n := N_of_ascii c in (n =? 32)%N || (n =? 9)%N || (n =? 10)%N || (n =? 13)%N.
Definition name_start (c : ascii) : bool :=
  let n := N_of_ascii c in ((64 <? n) && (n <? 91))%N || ((96 <? n) && (n <? 123))%N || Ascii.eqb c "_" || Ascii.eqb c ":".
Definition name_char (c : ascii) : bool := name_start c || is_digit c || Ascii.eqb c "-" || Ascii.eqb c ".".
Definition is_name (n : text) : bool := match n with c :: _ => name_start c && forallb name_char n | [] => false end.

(** The longest beginning whose characters have a property, and the rest. *)
Fixpoint span (p : ascii -> bool) (s : text) : text * text :=
  match s with
  | [] => ([], [])
  | c :: r => if p c then let (a, b) := span p r in (c :: a, b) else ([], s)
  end.

(** The character that a reference stands for. *)
Definition entity (r : text) : option ascii :=
  if text_eqb r (T "amp") then Some "&"%char else if text_eqb r (T "lt") then Some "<"%char
  else if text_eqb r (T "gt") then Some ">"%char else if text_eqb r (T "quot") then Some """"%char
  else if text_eqb r (T "apos") then Some "'"%char
  else match r with
       | h :: d :: ds =>
           if Ascii.eqb h "#" && forallb is_digit (d :: ds) && (digits_val (d :: ds) <? 256)%Z
           then let c := ascii_of_N (Z.to_N (digits_val (d :: ds))) in if legal c then Some c else None
           else None
       | _ => None
       end.

(** The text that characters between two tags, or between the quotes of an attribute, stand for: references are replaced, the
    other characters are normalised; [None]: not well-formed.  [pending]: the beginning of a reference, backwards. *)
Fixpoint decode (norm : ascii -> ascii) (pending : option text) (s : text) : option text :=
  match s, pending with
  | [], None => Some []
  | [], Some _ => None
  | c :: r, None =>
      if Ascii.eqb c "&" then decode norm (Some []) r
      else if legal c && negb (Ascii.eqb c "<") then option_map (cons (norm c)) (decode norm None r) else None
  | c :: r, Some w =>
      if Ascii.eqb c ";" then match entity (rev w) with Some x => option_map (cons x) (decode norm None r) | None => None end
      else decode norm (Some (c :: w)) r
  end.
(** In an attribute tabs and ends of lines are blanks; elsewhere a carriage return is the end of a line. *)
Definition attr_norm (c : ascii) : ascii := if is_blank c then " "%char else c.
Definition text_norm (c : ascii) : ascii := if Ascii.eqb c "013" then newline else c.

(** The attributes and the end of a tag: whether it is that of an empty element, and what follows.  No name twice. *)
Fixpoint read_attrs (f : nat) (s : text) : option (list (text * text) * bool * text) :=
  match f with
  | 0 => None
  | S f =>
      let (b, r) := span is_blank s in
      match r with
      | c :: r1 =>
          if Ascii.eqb c ">" then Some ([], false, r1)
          else if Ascii.eqb c "/" then
            match r1 with d :: r2 => if Ascii.eqb d ">" then Some ([], true, r2) else None | [] => None end
          else
            let (n, r2) := span name_char r in
            match b, r2 with
            | _ :: _, e :: q :: r3 =>
                let (v, r4) := span (fun c => negb (Ascii.eqb c """")) r3 in
                match r4, decode attr_norm None v with
                | _ :: r5, Some v =>
                    match read_attrs f r5 with
                    | Some (l, k, r6) =>
                        if is_name n && Ascii.eqb e "=" && Ascii.eqb q """" && negb (existsb (text_eqb n) (map fst l))
                        then Some ((n, v) :: l, k, r6) else None
                    | None => None
                    end
                | _, _ => None
                end
            | _, _ => None
            end
      | [] => None
      end
  end.

(** Elements one after the other, each with the text after it, up to an end tag or the end. *)
Fixpoint read_nodes (f : nat) (s : text) : option (list xml * text) :=
  match f with
  | 0 => None
  | S f =>
      match s with
      | [] => Some ([], [])
      | c :: r =>
          if negb (Ascii.eqb c "<") then None
          else match r with
          | [] => None
          | d :: _ =>
              if Ascii.eqb d "/" then Some ([], s)
              else
                let (n, r1) := span name_char r in
                let after (a : list (text * text)) (x : text) (ks : list xml) (r : text) :=
                  let (t, r5) := span (fun c => negb (Ascii.eqb c "<")) r in
                  match decode text_norm None t, read_nodes f r5 with
                  | Some t, Some (es, r6) => Some (Elem n a x ks t :: es, r6)
                  | _, _ => None
                  end in
                if negb (is_name n) then None
                else match read_attrs (S (length r1)) r1 with
                | Some (a, true, r2) => after a [] [] r2
                | Some (a, false, r2) =>
                    let (x, r3) := span (fun c => negb (Ascii.eqb c "<")) r2 in
                    match decode text_norm None x, read_nodes f r3 with
                    | Some x, Some (ks, c1 :: c2 :: r4) =>
                        let (m, r5) := span name_char r4 in
                        match r5 with
                        | g :: r6 => if Ascii.eqb c1 "<" && Ascii.eqb c2 "/" && text_eqb m n && Ascii.eqb g ">" then after a x ks r6 else None
                        | [] => None
                        end
                    | _, _ => None
                    end
                | None => None
                end
          end
      end
  end.

(** A document: one element. *)
Definition read_xml (s : text) : option xml :=
  match read_nodes (S (length s)) s with Some ([e], []) => Some e | _ => None end.

(** What OpenMC sees: texts that are only blanks do not matter (its reader leaves them out). *)
Definition drop (s : text) : text := if forallb is_blank s then [] else s.
Fixpoint plain (e : xml) : xml := match e with Elem n a x ks t => Elem n a (drop x) (map plain ks) (drop t) end.

(* ------------------------------------------------------------------ *)
(** * A tree that is written is read *)

(** Trees that can be written: names are names, no attribute is given twice, and there are no control characters. *)
Definition legal_text (s : text) : Prop := forallb (fun c => legal c && negb (Ascii.eqb c "013")) s = true.
Inductive writable_tree : xml -> Prop :=
| wt n a x ks t : is_name n = true -> Forall (fun e => is_name (fst e) = true /\ forallb legal (snd e) = true) a -> NoDup (map fst a) ->
    legal_text x -> legal_text t -> Forall writable_tree ks -> writable_tree (Elem n a x ks t).

Lemma decode_attr_char c s : legal c = true -> decode attr_norm None (escape_attrib_char c ++ s) = option_map (cons c) (decode attr_norm None s).
Proof. destruct c as [[] [] [] [] [] [] [] []]; intro L; try discriminate L; reflexivity. Qed.
Lemma decode_text_char c s : legal c && negb (Ascii.eqb c "013") = true -> decode text_norm None (escape_cdata_char c ++ s) = option_map (cons c) (decode text_norm None s).
Proof. destruct c as [[] [] [] [] [] [] [] []]; intro L; try discriminate L; reflexivity. Qed.
Lemma decode_attr v : forallb legal v = true -> decode attr_norm None (flat_map escape_attrib_char v) = Some v.
Proof.
  induction v as [|c v IH]; intro L; [reflexivity|]. cbn [forallb] in L. apply andb_true_iff in L as [L1 L2]. cbn [flat_map].
  rewrite decode_attr_char by exact L1. now rewrite IH.
Qed.
Lemma decode_text v : legal_text v -> decode text_norm None (flat_map escape_cdata_char v) = Some v.
Proof.
  unfold legal_text. induction v as [|c v IH]; intro L; [reflexivity|]. cbn [forallb] in L. apply andb_true_iff in L as [L1 L2]. cbn [flat_map].
  rewrite decode_text_char by exact L1. now rewrite IH.
Qed.
Lemma escape_attr_noquote v : forallb (fun c => negb (Ascii.eqb c """")) (flat_map escape_attrib_char v) = true.
Proof.
  induction v as [|c v IH]; [reflexivity|]. cbn [flat_map]. rewrite forallb_app, IH, andb_true_r.
  destruct c as [[] [] [] [] [] [] [] []]; reflexivity.
Qed.
Lemma escape_text_noless v : forallb (fun c => negb (Ascii.eqb c "<")) (flat_map escape_cdata_char v) = true.
Proof.
  induction v as [|c v IH]; [reflexivity|]. cbn [flat_map]. rewrite forallb_app, IH, andb_true_r.
  destruct c as [[] [] [] [] [] [] [] []]; reflexivity.
Qed.
Lemma span_app p a r : forallb p a = true -> (match r with [] => True | c :: _ => p c = false end) -> span p (a ++ r) = (a, r).
Proof.
  intros F H. induction a as [|c a IH]; cbn [app span].
  - destruct r as [|c r]; [reflexivity|]. cbn [span]. now rewrite H.
  - cbn [forallb] in F. apply andb_true_iff in F as [F1 F2]. now rewrite F1, (IH F2).
Qed.
Lemma is_name_chars n : is_name n = true -> forallb name_char n = true.
Proof. destruct n as [|c n]; [discriminate|]. intro H. now apply andb_true_iff in H as [_ H]. Qed.
Lemma name_head c : name_start c = true -> is_blank c = false /\ Ascii.eqb c ">" = false /\ Ascii.eqb c "/" = false.
Proof. destruct c as [[] [] [] [] [] [] [] []]; intro H; try discriminate H; repeat split. Qed.

(** The attributes of a tag, followed by its end. *)
Lemma attrs_read (a : list (text * text)) : Forall (fun e => is_name (fst e) = true /\ forallb legal (snd e) = true) a -> NoDup (map fst a) ->
  forall f e k r, length a < f -> (e = T " />" /\ k = true \/ e = T ">" /\ k = false) ->
  read_attrs f (flat_map attr_text a ++ e ++ r) = Some (a, k, r).
Proof.
  induction a as [|[n v] a IH]; intros F N f e k r LF E; (destruct f as [|f]; [cbn in LF; lia|]).
  - destruct E as [[-> ->]|[-> ->]]; reflexivity.
  - inversion F as [|? ? [F1 F2] F3]; subst. inversion N as [|? ? N1 N2]; subst. cbn [fst snd] in *. cbn [flat_map]. unfold attr_text at 1. cbn [fst snd].
    rewrite <- !app_assoc. assert (F1' := F1). destruct n as [|c n]; [discriminate F1|]. cbn [is_name] in F1'. apply andb_true_iff in F1' as [NS NC].
    destruct (name_head c NS) as (B & G & SL). cbn [read_attrs].
    change (T " " ++ (c :: n) ++ T "=""" ++ flat_map escape_attrib_char v ++ T """" ++ flat_map attr_text a ++ e ++ r)
      with (T " " ++ ((c :: n) ++ T "=""" ++ flat_map escape_attrib_char v ++ T """" ++ flat_map attr_text a ++ e ++ r)).
    rewrite (span_app is_blank (T " ")) by (reflexivity || exact B). cbn [app]. rewrite G, SL.
    change (c :: n ++ T "=""" ++ flat_map escape_attrib_char v ++ T """" ++ flat_map attr_text a ++ e ++ r)
      with ((c :: n) ++ ("="%char :: """"%char :: (flat_map escape_attrib_char v ++ (""""%char :: (flat_map attr_text a ++ e ++ r))))).
    rewrite (span_app name_char (c :: n)) by (exact NC || reflexivity). cbn [T list_ascii_of_string].
    rewrite span_app by (apply escape_attr_noquote || reflexivity). rewrite decode_attr by exact F2.
    rewrite (IH F3 N2 f e k r) by (exact E || (cbn [length] in LF; lia)). rewrite F1. change (Ascii.eqb "=" "=") with true. change (Ascii.eqb """" """") with true. cbn [andb].
    match goal with |- (if negb ?b then _ else _) = _ => assert (X : b = false) end.
    { apply not_true_is_false. intro X. apply existsb_exists in X as (w & I & Q). apply text_eqb_eq in Q. now subst w. }
    now rewrite X.
Qed.

Fixpoint size (e : xml) : nat := match e with Elem _ _ _ ks _ => S (list_sum (map size ks)) end.

Lemma attrs_length (a : list (text * text)) : length a <= length (flat_map attr_text a).
Proof. induction a as [|x a IH]; [apply Nat.le_refl|]. cbn [flat_map length]. rewrite app_length. unfold attr_text at 1. cbn [app T list_ascii_of_string length]. lia. Qed.

Lemma nodes_read f : forall l rest, Forall writable_tree l -> list_sum (map size l) < f -> (rest = [] \/ exists r, rest = T "</" ++ r) ->
  read_nodes f (flat_map serialise l ++ rest) = Some (l, rest).
Proof.
  induction f as [|f IH]; intros l rest F LF E; [lia|]. destruct l as [|e l].
  - cbn [flat_map app]. destruct E as [-> | (r & ->)]; reflexivity.
  - inversion F as [|? ? W F']; subst. destruct W as [n a x ks t Hn Ha Na Hx Ht Hk]. cbn [map size list_sum fold_right] in LF. change (fold_right Nat.add 0) with list_sum in LF.
    assert (Hn' := Hn). destruct n as [|c n]; [discriminate Hn|]. cbn [is_name] in Hn'. apply andb_true_iff in Hn' as [NS NC].
    destruct (name_head c NS) as (B & G & SL).
    assert (TAIL : span (fun c => negb (Ascii.eqb c "<")) (flat_map escape_cdata_char t ++ flat_map serialise l ++ rest) = (flat_map escape_cdata_char t, flat_map serialise l ++ rest)).
    { apply span_app; [apply escape_text_noless|]. destruct l as [|[n' a' x' ks' t'] l]; [|reflexivity]. cbn [flat_map app]. destruct E as [-> | (r & ->)]; [exact I|reflexivity]. }
    assert (SIB := IH l rest F' ltac:(lia) E).
    cbn [flat_map serialise]. rewrite <- !app_assoc. set (R := (match x with [] => _ | _ :: _ => _ end)).
    match goal with |- read_nodes (S f) (T "<" ++ (c :: n) ++ ?Z) = _ => set (Z0 := Z) end.
    change (T "<" ++ (c :: n) ++ Z0) with ("<"%char :: c :: n ++ Z0). cbn [read_nodes].
    change (negb (Ascii.eqb "<" "<")) with false. cbv iota. rewrite SL. change (c :: n ++ Z0) with ((c :: n) ++ Z0). subst Z0.
    assert (SPN : forall s, span name_char ((c :: n) ++ flat_map attr_text a ++ T " />" ++ s) = (c :: n, flat_map attr_text a ++ T " />" ++ s)).
    { intro s. apply span_app; [exact NC|]. destruct a; reflexivity. }
    assert (SPN2 : forall s, span name_char ((c :: n) ++ flat_map attr_text a ++ T ">" ++ s) = (c :: n, flat_map attr_text a ++ T ">" ++ s)).
    { intro s. apply span_app; [exact NC|]. destruct a; reflexivity. }
    assert (ATT : forall e k s, (e = T " />" /\ k = true \/ e = T ">" /\ k = false) ->
      read_attrs (S (length (flat_map attr_text a ++ e ++ s))) (flat_map attr_text a ++ e ++ s) = Some (a, k, s)).
    { intros e k s H. apply attrs_read; [exact Ha|exact Na| |exact H]. rewrite app_length. assert (L := attrs_length a). lia. }
    destruct (match x, ks with [], [] => true | _, _ => false end) eqn:SH.
    + destruct x; [|discriminate SH]. destruct ks; [|discriminate SH]. subst R.
      rewrite SPN, Hn. cbn [negb]. rewrite (ATT _ true) by tauto. rewrite TAIL, decode_text by exact Ht. now rewrite SIB.
    + assert (ER : R = T ">" ++ flat_map escape_cdata_char x ++ flat_map serialise ks ++ T "</" ++ (c :: n) ++ T ">").
      { subst R. destruct x; [destruct ks; [discriminate SH|]|]; reflexivity. }
      rewrite ER. rewrite <- !app_assoc.
      rewrite SPN2, Hn. cbn [negb]. rewrite (ATT _ false) by tauto.
      set (K := T "</" ++ (c :: n) ++ T ">" ++ flat_map escape_cdata_char t ++ flat_map serialise l ++ rest).
      assert (SX : span (fun c => negb (Ascii.eqb c "<")) (flat_map escape_cdata_char x ++ flat_map serialise ks ++ K) = (flat_map escape_cdata_char x, flat_map serialise ks ++ K)).
      { apply span_app; [apply escape_text_noless|]. destruct ks as [|[n' a' x' ks' t'] ks]; reflexivity. }
      rewrite SX, decode_text by exact Hx. rewrite (IH ks K Hk) by (lia || (right; eexists; reflexivity)).
      change K with ("<"%char :: "/"%char :: ((c :: n) ++ (">"%char :: flat_map escape_cdata_char t ++ flat_map serialise l ++ rest))). cbv iota.
      rewrite (span_app name_char (c :: n)) by (exact NC || reflexivity). rewrite text_eqb_refl.
      change (Ascii.eqb "<" "<" && Ascii.eqb "/" "/" && true && Ascii.eqb ">" ">") with true. cbv iota.
      rewrite TAIL, decode_text by exact Ht. now rewrite SIB.
Qed.

Lemma size_length : forall e, size e <= length (serialise e).
Proof.
  fix F 1. intros [n a x ks t]. cbn [size serialise].
  assert (G : list_sum (map size ks) <= length (flat_map serialise ks)).
  { induction ks as [|k ks IH]; [apply Nat.le_refl|]. cbn [map flat_map]. rewrite app_length. change (list_sum (size k :: map size ks)) with (size k + list_sum (map size ks)).
    apply Nat.add_le_mono; [apply F|exact IH]. }
  clear F. rewrite !app_length. destruct x as [|c x]; [destruct ks as [|k ks]|]; rewrite ?app_length; cbn [T list_ascii_of_string length map list_sum fold_right] in *; lia.
Qed.

(** C90: every tree is read from its characters as it was written. *)
Theorem C90_written_read e : writable_tree e -> read_xml (serialise e) = Some e.
Proof.
  intro W. unfold read_xml. assert (L := size_length e). assert (H := nodes_read (S (length (serialise e))) [e] []). cbn [flat_map] in H. rewrite !app_nil_r in H.
  rewrite H; [reflexivity|constructor; [exact W|constructor]|cbn [map list_sum fold_right]; lia|now left].
Qed.
Print Assumptions C90_written_read.

(** The file needs no encoding: whatever the texts contain, the characters that are written are those of ASCII. *)
Definition plain_ascii (s : text) : Prop := Forall (fun c => (N_of_ascii c < 128)%N) s.
Lemma pa_app a b : plain_ascii a -> plain_ascii b -> plain_ascii (a ++ b).
Proof. intros. apply Forall_app. now split. Qed.
Lemma pa_flat {X} (f : X -> text) l : (forall x, In x l -> plain_ascii (f x)) -> plain_ascii (flat_map f l).
Proof. induction l as [|x l IH]; intro H; [constructor|]. cbn [flat_map]. apply pa_app; [apply H; now left|]. apply IH. intros y I. apply H. now right. Qed.
Lemma pa_name n : is_name n = true -> plain_ascii n.
Proof.
  intro H. apply is_name_chars in H. rewrite forallb_forall in H. apply Forall_forall. intros c I. specialize (H c I).
  destruct c as [[] [] [] [] [] [] [] []]; try discriminate H; reflexivity.
Qed.
Lemma pa_test s : forallb (fun c => (N_of_ascii c <? 128)%N) s = true -> plain_ascii s.
Proof. intro H. rewrite forallb_forall in H. apply Forall_forall. intros c I. now apply N.ltb_lt, H. Qed.
Lemma pa_cdata c : plain_ascii (escape_cdata_char c).
Proof. apply pa_test. destruct c as [[] [] [] [] [] [] [] []]; vm_compute; reflexivity. Qed.
Lemma pa_attrib c : plain_ascii (escape_attrib_char c).
Proof. apply pa_test. destruct c as [[] [] [] [] [] [] [] []]; vm_compute; reflexivity. Qed.

Theorem C90_ascii : forall e, writable_tree e -> forall c, In c (serialise e) -> (N_of_ascii c < 128)%N.
Proof.
  assert (G : forall e, writable_tree e -> plain_ascii (serialise e)).
  { fix F 1. intros [n a x ks t] W. inversion W as [? ? ? ? ? Hn Ha Na Hx Ht Hk]; subst. cbn [serialise].
    assert (K : plain_ascii (flat_map serialise ks)).
    { clear W. induction ks as [|k ks IH]; [constructor|]. inversion Hk; subst. cbn [flat_map]. apply pa_app; [now apply F|now apply IH]. }
    clear F. assert (TX : forall s, plain_ascii (flat_map escape_cdata_char s)) by (intro s; apply pa_flat; intros; apply pa_cdata).
    assert (LT : forall s, forallb (fun c => (N_of_ascii c <? 128)%N) (T s) = true -> plain_ascii (T s)).
    { intros s H. now apply pa_test. }
    apply pa_app; [now apply LT|]. apply pa_app; [now apply pa_name|]. apply pa_app.
    - apply pa_flat. intros [k v] I. rewrite Forall_forall in Ha. destruct (Ha _ I) as [A _]. unfold attr_text. apply pa_app; [now apply LT|].
      apply pa_app; [now apply pa_name|]. apply pa_app; [now apply LT|]. apply pa_app; [apply pa_flat; intros; apply pa_attrib|now apply LT].
    - apply pa_app; [|apply TX]. assert (B : plain_ascii (T ">" ++ flat_map escape_cdata_char x ++ flat_map serialise ks ++ T "</" ++ n ++ T ">")).
      { repeat apply pa_app; try (now apply LT); [apply TX|exact K|now apply pa_name]. }
      destruct x; [destruct ks; [now apply LT|exact B]|exact B]. }
  intros e W c I. specialize (G e W). unfold plain_ascii in G. rewrite Forall_forall in G. now apply G.
Qed.
Print Assumptions C90_ascii.
Example C90_ascii_example : let e := Elem (T "material") [(T "name", "233"%char :: T "tain")] ["128"%char; "127"%char] [] [] in
  writable_tree e /\ serialise e = T "<material name=""&#233;tain"">&#128;" ++ "127"%char :: T "</material>".
Proof.
  cbv zeta. split; [|vm_compute; reflexivity]. constructor; try reflexivity; [repeat constructor|repeat constructor|constructor]. intros [].
Qed.

(** ** Indentation *)

(** Texts in which Python's idea of a blank is that of XML (they differ for the characters 11, 12, 28 to 31, 133 and 160). *)
Definition usual (s : text) : Prop := forallb (fun c => implb (is_space c) (is_blank c)) s = true.
Inductive usual_tree : xml -> Prop :=
| ut n a x ks t : usual x -> usual t -> Forall usual_tree ks -> usual_tree (Elem n a x ks t).

Lemma strip_nil s : strip s = [] <-> forallb is_space s = true.
Proof.
  unfold strip, rstrip. assert (L : forall s, lstrip s = [] <-> forallb is_space s = true).
  { induction s0 as [|c s0 IH]; [split; reflexivity|]. cbn [lstrip forallb]. destruct (is_space c); [exact IH|]. split; discriminate. }
  assert (L2 : forall s, match lstrip s with [] => True | c :: _ => is_space c = false end).
  { induction s0 as [|c s0 IH]; [exact I|]. cbn [lstrip]. destruct (is_space c) eqn:E; [exact IH|exact E]. }
  split.
  - intro H. apply L. assert (E : lstrip (rev (lstrip s)) = []) by (destruct (lstrip (rev (lstrip s))) as [|c l]; [reflexivity|]; cbn [rev] in H; now destruct (rev l)).
    apply L in E. specialize (L2 s). destruct (lstrip s) as [|c l]; [reflexivity|]. cbn [rev] in E. rewrite forallb_app in E. apply andb_true_iff in E as [_ E]. cbn in E. rewrite andb_true_r in E. congruence.
  - intro H. apply L in H. now rewrite H.
Qed.
Lemma blank_space c : is_blank c = true -> is_space c = true.
Proof. destruct c as [[] [] [] [] [] [] [] []]; intro H; try discriminate H; reflexivity. Qed.
Lemma no_text_drop s : usual s -> no_text s = true -> drop s = [].
Proof.
  unfold usual, no_text, drop. intros U N. destruct (strip s) eqn:E; [|discriminate N]. apply strip_nil in E.
  assert (B : forallb is_blank s = true); [|now rewrite B]. rewrite forallb_forall in *. intros c I. specialize (U c I). specialize (E c I). rewrite E in U. exact U.
Qed.
Lemma margin_blank i : forallb is_blank (margin i) = true /\ legal_text (margin i) /\ usual (margin i).
Proof. unfold legal_text, usual. induction i as [|i (A & B & C)]; [now repeat split|]. cbn [margin]. rewrite !forallb_app, A, B, C. now repeat split. Qed.
Lemma new_line i : drop (newline :: margin i) = [] /\ legal_text (newline :: margin i) /\ usual (newline :: margin i) /\
  drop ((newline :: margin i) ++ T "  ") = [] /\ legal_text ((newline :: margin i) ++ T "  ").
Proof.
  destruct (margin_blank i) as (A & B & C). unfold drop, legal_text, usual in *. cbn [app forallb]. rewrite !forallb_app, A, B, C. now repeat split.
Qed.

Lemma close_last_plain i l : drop (newline :: margin i) = [] -> Forall (fun e => usual (tail_of e)) l -> map plain (close_last (newline :: margin i) l) = map plain l.
Proof.
  intros D F. induction F as [|e l U F IH]; [reflexivity|]. destruct l as [|e2 l].
  - cbn [close_last map]. destruct e as [n a x ks t]. cbn [tail_of set_tail] in *. destruct (no_text t) eqn:N; [|reflexivity]. cbn [plain]. now rewrite D, (no_text_drop t U N).
  - change (close_last (newline :: margin i) (e :: e2 :: l)) with (e :: close_last (newline :: margin i) (e2 :: l)). cbn [map] in *. now rewrite IH.
Qed.
Lemma close_last_forall (P : xml -> Prop) i l : (forall e, P e -> P (set_tail i e)) -> Forall P l -> Forall P (close_last i l).
Proof.
  intros H F. induction F as [|e l U F IH]; [constructor|]. destruct l as [|e2 l].
  - cbn [close_last]. constructor; [|constructor]. destruct (no_text (tail_of e)); auto.
  - change (close_last i (e :: e2 :: l)) with (e :: close_last i (e2 :: l)). now constructor.
Qed.

Lemma indent_ok : forall e k, writable_tree e -> usual_tree e -> plain (indent k e) = plain e /\ writable_tree (indent k e) /\ usual (tail_of (indent k e)).
Proof.
  fix F 1. intros [n a x ks t] k W U. inversion W as [? ? ? ? ? Hn Ha Na Hx Ht Hk]; subst. inversion U as [? ? ? ? ? Ux Ut Uk]; subst.
  destruct (new_line k) as (L1 & L2 & L3 & L4 & L5).
  assert (G : map plain (map (indent (S k)) ks) = map plain ks /\ Forall writable_tree (map (indent (S k)) ks) /\ Forall (fun e => usual (tail_of e)) (map (indent (S k)) ks)).
  { clear W U. induction ks as [|e ks IH]; [repeat split; constructor|]. inversion Hk as [|? ? K1 K2]; subst. inversion Uk as [|? ? V1 V2]; subst.
    destruct (IH K2 V2) as (A & B & C). destruct (F e (S k) K1 V1) as (A' & B' & C'). cbn [map]. rewrite A, A'. repeat split; constructor; auto. }
  clear F. destruct G as (GP & GW & GT). assert (TL : drop (if no_text t then newline :: margin k else t) = drop t /\ legal_text (if no_text t then newline :: margin k else t) /\ usual (if no_text t then newline :: margin k else t)).
  { destruct (no_text t) eqn:N; [|auto]. rewrite L1, (no_text_drop t Ut N). auto. }
  destruct TL as (T1 & T2 & T3). destruct ks as [|e ks].
  - cbn [indent]. destruct ((0 <? k) && no_text t) eqn:B; cbn [plain map tail_of].
    + apply andb_true_iff in B as [_ B]. rewrite B in T1, T2, T3. split; [f_equal; exact T1|]. split; [constructor; auto|exact L3].
    + split; [reflexivity|]. split; [exact W|exact Ut].
  - cbn [indent]. set (ks0 := map (indent (S k)) (e :: ks)) in *. cbn [plain tail_of]. rewrite (close_last_plain k _ L1 GT), GP, T1. split; [|split; [|exact T3]].
    + f_equal. destruct (no_text x) eqn:N; [|reflexivity]. now rewrite L4, (no_text_drop x Ux N).
    + constructor; auto; [now destruct (no_text x)|]. apply close_last_forall; [|exact GW].
      intros e0 We. destruct We as [n0 a0 x0 ks1 t0 W1 W2 W3 W4 W5 W6]. cbn [set_tail]. now constructor.
Qed.

(** C90: what is read from an indented tree differs from the tree by blanks between the tags only. *)
Theorem C90_indented_read e : writable_tree e -> usual_tree e -> exists e', read_xml (serialise (indent 0 e)) = Some e' /\ plain e' = plain e.
Proof. intros W U. destruct (indent_ok e 0 W U) as (P & W' & _). exists (indent 0 e). split; [now apply C90_written_read|exact P]. Qed.
Print Assumptions C90_indented_read.

(** A text that is a no-break space is lost by the indentation (the program writes no texts). *)
Theorem C90_no_break_refuted : exists e, writable_tree e /\ forall e', read_xml (serialise (indent 0 e)) = Some e' -> plain e' <> plain e.
Proof.
  exists (Elem (T "a") [] ["160"%char] [Elem (T "b") [] [] [] []] []). assert (W : writable_tree (Elem (T "a") [] ["160"%char] [Elem (T "b") [] [] [] []] [])).
  { constructor; try reflexivity; try constructor; try constructor; try reflexivity; constructor. }
  split; [exact W|]. vm_compute. intros e' E. injection E as <-. discriminate.
Qed.
Print Assumptions C90_no_break_refuted.

(* ------------------------------------------------------------------ *)
(** * geometry.xml and materials.xml *)

(** The elements of geometry.xml. *)
Definition as_element (e : xml) : option element := match e with Elem n a [] [] [] => Some (mkX n a) | _ => None end.
Definition read_geometry (s : text) : option (list element) :=
  match option_map plain (read_xml s) with
  | Some (Elem n [] [] ks []) => if text_eqb n (T "geometry") then mapM as_element ks else None
  | _ => None
  end.

(** The materials of materials.xml: a density and nuclides with either a weight or an atom fraction. *)
Definition as_nuclide (e : xml) : option (text * bool * text) :=
  match as_element e with
  | Some x =>
      if text_eqb (x_tag x) (T "nuclide") then
        match dget (T "name") (x_attrs x), dget (T "ao") (x_attrs x), dget (T "wo") (x_attrs x) with
        | Some n, Some v, None => Some (n, false, v)
        | Some n, None, Some v => Some (n, true, v)
        | _, _, _ => None
        end
      else None
  | None => None
  end.
Definition as_material (e : xml) : option openmc_element :=
  match e with
  | Elem n a [] (k :: ks) [] =>
      match as_element k with
      | Some d =>
          if text_eqb n (T "material") && text_eqb (x_tag d) (T "density") then
            match dget (T "id") a, dget (T "name") a, dget (T "value") (x_attrs d), dget (T "units") (x_attrs d), mapM as_nuclide ks with
            | Some i, Some m, Some v, Some u, Some l => Some (mkOM i m v u l)
            | _, _, _, _, _ => None
            end
          else None
      | None => None
      end
  | _ => None
  end.
Definition read_materials (s : text) : option (list openmc_element) :=
  match option_map plain (read_xml s) with
  | Some (Elem n [] [] ks []) => if text_eqb n (T "materials") then mapM as_material ks else None
  | _ => None
  end.

(** Texts without control characters. *)
Definition clean (s : text) : Prop := forallb legal s = true.
Definition clean_element (x : element) : Prop :=
  is_name (x_tag x) = true /\ NoDup (map fst (x_attrs x)) /\ Forall (fun e => is_name (fst e) = true /\ clean (snd e)) (x_attrs x).
Definition clean_material (m : openmc_element) : Prop :=
  clean (om_id m) /\ clean (om_name m) /\ clean (om_value m) /\ clean (om_units m) /\ Forall (fun e => clean (fst (fst e)) /\ clean (snd e)) (om_nuclides m).

Lemma mapM_inverse {A B} (f : A -> B) (g : B -> option A) l : (forall x, In x l -> g (f x) = Some x) -> mapM g (map f l) = Some l.
Proof.
  induction l as [|x l IH]; intro H; [reflexivity|]. cbn [map mapM]. rewrite (H x) by now left. rewrite IH; [reflexivity|]. intros y I. apply H. now right.
Qed.
Lemma writable_element n a : is_name n = true -> NoDup (map fst a) -> Forall (fun e => is_name (fst e) = true /\ clean (snd e)) a ->
  writable_tree (Elem n a [] [] []) /\ usual_tree (Elem n a [] [] []).
Proof. intros A B C. split; constructor; auto; reflexivity. Qed.

Lemma root_read n ks : is_name n = true -> Forall (fun e => writable_tree e /\ usual_tree e) ks ->
  exists e, read_xml (serialise (indent 0 (Elem n [] [] ks []))) = Some e /\ plain e = Elem n [] [] (map plain ks) [].
Proof.
  intros H F. apply C90_indented_read; constructor; try reflexivity; try constructor; try exact H; apply (Forall_impl _) with (2 := F); tauto.
Qed.

(** C90: the elements of geometry.xml are read from its characters. *)
Theorem C90_geometry g : Forall clean_element g -> read_geometry (geometry_text g) = Some g.
Proof.
  intro F. unfold read_geometry, geometry_text. destruct (root_read (T "geometry") (map element_xml g) eq_refl) as (e & -> & P).
  { apply Forall_forall. intros y I. apply in_map_iff in I as (x & <- & I). rewrite Forall_forall in F. destruct (F x I) as (A & B & C). now apply writable_element. }
  cbn [option_map]. rewrite P. change (text_eqb (T "geometry") (T "geometry")) with true. cbv iota. rewrite map_map.
  rewrite (mapM_inverse (fun x => plain (element_xml x))); [reflexivity|]. intros [n a] _. reflexivity.
Qed.
Print Assumptions C90_geometry.

(** C90: so are the materials of materials.xml. *)
Theorem C90_materials ms : Forall clean_material ms -> read_materials (materials_text ms) = Some ms.
Proof.
  intro F. unfold read_materials, materials_text. destruct (root_read (T "materials") (map material_xml ms) eq_refl) as (e & -> & P).
  { apply Forall_forall. intros y I. apply in_map_iff in I as (m & <- & I). rewrite Forall_forall in F. destruct (F m I) as (A & B & C & D & N). unfold material_xml.
    assert (ND : forall a b : text, text_eqb a b = false -> NoDup [a; b]).
    { intros a b H. constructor; [|constructor; [intros []|constructor]]. intros [->|[]]. now rewrite text_eqb_refl in H. }
    assert (K : Forall (fun e => writable_tree e /\ usual_tree e) (Elem (T "density") [(T "value", om_value m); (T "units", om_units m)] [] [] [] :: map nuclide_xml (om_nuclides m))).
    { constructor.
      - apply writable_element; [reflexivity|now apply ND|]. constructor; [now split|constructor; [now split|constructor]].
      - apply Forall_forall. intros y IY. apply in_map_iff in IY as ([[n w] v] & <- & IY). rewrite Forall_forall in N. destruct (N _ IY) as [N1 N2]. cbn [fst snd] in *.
        unfold nuclide_xml. cbn [fst snd]. apply writable_element; [reflexivity|apply ND; now destruct w|]. constructor; [now split|constructor; [|constructor]]. split; [now destruct w|exact N2]. }
    split; constructor; try reflexivity; try (apply (Forall_impl _) with (2 := K); tauto); [|now apply ND]. constructor; [now split|constructor; [now split|constructor]]. }
  cbn [option_map]. rewrite P. change (text_eqb (T "materials") (T "materials")) with true. cbv iota. rewrite map_map.
  rewrite (mapM_inverse (fun x => plain (material_xml x))); [reflexivity|]. intros [i nm v u l] _. unfold material_xml. cbn [plain om_id om_name om_value om_units om_nuclides map].
  change (drop []) with (@nil ascii). cbn [as_material as_element x_tag x_attrs]. change (text_eqb (T "material") (T "material") && text_eqb (T "density") (T "density")) with true. cbv iota.
  change (dget (T "id") [(T "id", i); (T "name", nm)]) with (Some i). change (dget (T "name") [(T "id", i); (T "name", nm)]) with (Some nm).
  change (dget (T "value") [(T "value", v); (T "units", u)]) with (Some v). change (dget (T "units") [(T "value", v); (T "units", u)]) with (Some u). cbv iota.
  rewrite map_map, (mapM_inverse (fun x => plain (nuclide_xml x))); [reflexivity|]. intros [[n w] x] _. destruct w; reflexivity.
Qed.
Print Assumptions C90_materials.

(** ** The deck *)

(** The texts of a deck have no control characters. *)
Definition clean_deck (d : ConvertModel.deck) : Prop :=
  Forall (fun c => Forall (fun i => match i with Str s => clean s | Op _ => True end) (g_items c) /\
    (forall u, g_univ c = Some u -> clean u) /\ (forall u, g_fill c = Some u -> clean u) /\
    (forall o, g_offset c = Some o -> Forall clean o) /\ (forall o, g_rot c = Some o -> Forall clean o)) (d_cells d) /\
  Forall (fun e => clean (m_num (snd e)) /\ clean (m_name (snd e))) (d_mats d).

Lemma clean_app a b : clean a -> clean b -> clean (a ++ b).
Proof. unfold clean. rewrite forallb_app. intros -> ->. reflexivity. Qed.
Lemma clean_flat {A} (f : A -> text) l : (forall x, In x l -> clean (f x)) -> clean (flat_map f l).
Proof. induction l as [|x l IH]; intro H; [reflexivity|]. cbn [flat_map]. apply clean_app; [apply H; now left|apply IH; intros y I; apply H; now right]. Qed.
Lemma clean_join l : Forall clean l -> clean (join_sp l).
Proof.
  induction 1 as [|w l C F IH]; [reflexivity|]. destruct l as [|w2 l]; [exact C|]. change (join_sp (w :: w2 :: l)) with (w ++ T " " ++ join_sp (w2 :: l)). apply clean_app; [exact C|]. now apply clean_app.
Qed.
Lemma clean_digits d : all_digits d -> clean d.
Proof.
  unfold all_digits, clean. rewrite !forallb_forall. intros H c I. specialize (H c I). revert H. destruct c as [[] [] [] [] [] [] [] []]; intro H; try discriminate H; reflexivity.
Qed.
Lemma clean_int w : int_word w -> clean w.
Proof. intros (d & _ & D & [-> | ->]); [now apply clean_digits|]. apply (clean_app (T "-")); [reflexivity|now apply clean_digits]. Qed.
Lemma clean_Z z : clean (str_Z z).
Proof. apply clean_int, int_word_str. Qed.
Lemma clean_replace c t s : clean t -> clean s -> clean (replace_char c t s).
Proof.
  intros CT CS. unfold replace_char. apply clean_flat. intros x I. destruct (Ascii.eqb c x); [exact CT|]. unfold clean in *. rewrite forallb_forall in CS. cbn [forallb]. now rewrite (CS x I).
Qed.
Lemma clean_firstn k (l : list text) : Forall clean l -> Forall clean (firstn k l).
Proof. intro F. revert k. induction F as [|w l C F IH]; intros [|k]; cbn [firstn]; constructor; auto. Qed.

Lemma prune_incl fuel : forall g g', prune_loop fuel g = Pruned g' -> forall x, In x g' -> In x g.
Proof.
  induction fuel as [|fuel IH]; intros g g' E x I; cbn [prune_loop] in E; destruct (unused_fills g) as [us|]; try discriminate E; destruct (length us <=? 1); try discriminate E.
  - now injection E as <-. - now injection E as <-.
  - specialize (IH _ _ E x I). unfold remove_unused in IH. now apply filter_In in IH.
Qed.

Ltac two_names := repeat (apply NoDup_cons; [cbn [In map fst]; intuition discriminate|]); apply NoDup_nil.

(** C90: the two files that are written for a deck are read as the trees that were built. *)
Theorem C90_files str show d g ms : openmc_trees str show d = Some (g, ms) -> clean_deck d -> (forall x, clean (str x)) -> (forall q, clean (show q)) ->
  read_geometry (geometry_text g) = Some g /\ read_materials (materials_text ms) = Some ms.
Proof.
  intros E (CC & CM) CS CQ. unfold openmc_trees in E. destruct (mapM (fun s => openmc_surface str (fst s)) (d_surfs d)) as [ss|] eqn:ES; [|discriminate E].
  destruct (mapM (fun e => write_openmc_material show (snd e)) (d_mats d)) as [ms'|] eqn:EM; [|discriminate E]. destruct (prune _) as [g'| |] eqn:EP; try discriminate E. injection E as -> ->.
  assert (NUM : forall l, clean (numbers str l)) by (intro l; apply clean_join; apply Forall_forall; intros t I; apply in_map_iff in I as (x & <- & _); apply CS).
  split.
  - apply C90_geometry. apply Forall_forall. intros x I. unfold prune in EP. apply (prune_incl _ _ _ EP) in I. apply in_app_iff in I as [I|I].
    + clear EP EM. revert ss ES I. induction (d_surfs d) as [|s l IH]; intros ss ES I; cbn [mapM] in ES; [injection ES as <-; destruct I|].
      destruct (openmc_surface str (fst s)) as [y|] eqn:EY; [|discriminate ES]. destruct (mapM _ l) as [ys|]; [|discriminate ES]. injection ES as <-. destruct I as [<-|I]; [|now apply (IH ys)].
      unfold openmc_surface in EY. destruct (openmc_surface_info str (fst s)) as [[t c]|] eqn:EI; [|discriminate EY]. destruct (openmc_boundary (s_bc (fst s))) as [b|] eqn:EB; [|discriminate EY]. injection EY as <-.
      assert (TC : clean t /\ clean c). { unfold openmc_surface_info in EI. destruct (s_type (fst s)); repeat match type of EI with context [match ?l with [] => _ | _ :: _ => _ end] => destruct l; try discriminate EI end; injection EI as <- <-; split; try reflexivity; auto. }
      assert (BC : clean b). { unfold openmc_boundary in EB. destruct (s_bc (fst s)); try discriminate EB; injection EB as <-; reflexivity. }
      destruct TC as [C1 C2]. split; [reflexivity|]. cbn [x_attrs x_tag map fst]. split; [two_names|]. repeat (apply Forall_cons; [split; [reflexivity|cbn [snd]; auto using clean_Z]|]). apply Forall_nil.
    + apply in_map_iff in I as (c & <- & I). rewrite Forall_forall in CC. destruct (CC c I) as (H1 & H2 & H3 & H4 & H5).
      assert (RG : clean (openmc_region (g_items c))).
      { unfold openmc_region. apply clean_replace; [reflexivity|]. apply clean_replace; [reflexivity|]. apply clean_flat. intros i II. rewrite Forall_forall in H1. specialize (H1 i II). destruct i as [[]|s]; [reflexivity..|exact H1]. }
      assert (UV : clean (univ_text (to_w show c))) by (unfold univ_text, to_w; cbn [w_univ]; destruct (g_univ c); [now apply H2|reflexivity]).
      assert (RO : clean (openmc_rotation (to_w show c))) by (unfold openmc_rotation, to_w; cbn [w_rot]; destruct (g_rot c); [now apply clean_join, clean_firstn, H5|reflexivity]).
      assert (TR : clean (openmc_translation (to_w show c))).
      { unfold openmc_translation, to_w. cbn [w_offset]. destruct (g_offset c) as [o|]; [|reflexivity]. unfold concat_sp. apply clean_flat. intros w IW. apply clean_app; [|reflexivity].
        assert (F := clean_firstn 3 o (H4 o eq_refl)). rewrite Forall_forall in F. now apply F. }
      unfold openmc_cell. unfold to_w at 1 2 3 4 5 6 7. cbn [w_fill w_id w_items w_mat]. split; [reflexivity|]. cbn [x_attrs x_tag]. destruct (g_fill c) as [f|].
      * specialize (H3 f eq_refl). split; [two_names|]. repeat (apply Forall_cons; [split; [reflexivity|cbn [snd]; auto using clean_Z]|]). apply Forall_nil.
      * assert (MT : clean (if (g_mat c =? 0)%Z then T "void" else str_Z (g_mat c))) by (destruct (g_mat c =? 0)%Z; [reflexivity|apply clean_Z]).
        split; [two_names|]. repeat (apply Forall_cons; [split; [reflexivity|cbn [snd]; auto using clean_Z]|]). apply Forall_nil.
  - apply C90_materials. clear EP ES. apply Forall_forall. intros x I. revert ms EM I. induction CM as [|[k m] l [C1 C2] CM IH]; intros ms EM I; cbn [mapM] in EM; [injection EM as <-; destruct I|].
    cbn [snd] in *. destruct (write_openmc_material show m) as [y|] eqn:EY; [|discriminate EM]. destruct (mapM _ l) as [ys|]; [|discriminate EM]. injection EM as <-. destruct I as [<-|I]; [|now apply (IH ys)].
    unfold write_openmc_material in EY. destruct (mapM (openmc_nuclide show) (m_comp m)) as [ns|] eqn:EN; [|discriminate EY]. injection EY as <-.
    split; [exact C1|]. split; [exact C2|]. split; [apply CQ|]. split; [cbn [om_units]; destruct (Qle_bool 0 (m_dens m)); reflexivity|]. cbn [om_nuclides]. clear - EN CQ.
    revert ns EN. induction (m_comp m) as [|e l IH]; intros ns EN; cbn [mapM] in EN; [injection EN as <-; constructor|].
    destruct (openmc_nuclide show e) as [y|] eqn:EY; [|discriminate EN]. destruct (mapM _ l) as [ys|]; [|discriminate EN]. injection EN as <-. constructor; [|now apply IH].
    unfold openmc_nuclide in EY. destruct (zaid_to_name (fst e)) as [n|] eqn:EZ; [|discriminate EY]. injection EY as <-. cbn [fst snd]. split; [|apply CQ].
    unfold zaid_to_name in EZ. cbv zeta in EZ. match type of EZ with (let '(zt, at_) := ?P in _) = _ => destruct P as [zt at_] end.
    destruct (py_int zt) as [z|]; [|discriminate EZ]. destruct (py_int at_) as [b|]; [|discriminate EZ]. unfold symbol in EZ. destruct (1 <=? z)%Z; [|discriminate EZ].
    destruct (nth_error symbols (Z.to_nat (z - 1))) as [sy|] eqn:SY; [|discriminate EZ]. cbn [option_map] in EZ. injection EZ as <-. apply clean_app; [|apply clean_Z].
    apply nth_error_In in SY. assert (ALL : forallb (fun s => forallb legal (T s)) symbols = true) by (vm_compute; reflexivity). rewrite forallb_forall in ALL. exact (ALL sy SY).
Qed.
Print Assumptions C90_files.

(** The files for a plane and two cells, one with signs that have to be replaced. *)
Example C90_example :
  let g := [mkX (T "surface") [(T "id", T "4"); (T "type", T "x-plane"); (T "coeffs", T "2.0"); (T "boundary", T "vacuum")];
            mkX (T "cell") [(T "id", T "1"); (T "material", T "void"); (T "region", T " ( 4 |  -4 ) "); (T "universe", T "0")]] in
  geometry_text g = T "<geometry>" ++ [newline] ++ T "  <surface id=""4"" type=""x-plane"" coeffs=""2.0"" boundary=""vacuum"" />" ++ [newline] ++
    T "  <cell id=""1"" material=""void"" region="" ( 4 |  -4 ) "" universe=""0"" />" ++ [newline] ++ T "</geometry>" ++ [newline] /\
  read_geometry (geometry_text g) = Some g.
Proof. cbv zeta. split; [vm_compute; reflexivity|]. vm_compute. reflexivity. Qed.
Example C90_materials_example :
  let m := mkOM (T "12") (T "Fe & <C>") (T "7.8") (T "g/cc") [(T "Fe56", true, T "0.75"); (T "C12", true, T "0.25")] in
  materials_text [m] = T "<materials>" ++ [newline] ++ T "  <material id=""12"" name=""Fe &amp; &lt;C&gt;"">" ++ [newline] ++
    T "    <density value=""7.8"" units=""g/cc"" />" ++ [newline] ++ T "    <nuclide name=""Fe56"" wo=""0.75"" />" ++ [newline] ++
    T "    <nuclide name=""C12"" wo=""0.25"" />" ++ [newline] ++ T "  </material>" ++ [newline] ++ T "</materials>" ++ [newline] /\
  read_materials (materials_text [m]) = Some [m] /\ clean_material m.
Proof. cbv zeta. split; [vm_compute; reflexivity|]. split; [vm_compute; reflexivity|]. repeat split; try reflexivity. repeat (apply Forall_cons; [split; reflexivity|]). apply Forall_nil. Qed.
