(** Specification: what a deck of cards means at a point (not a model of any code). *)
From Coq Require Import QArith Reals.
From Verif Require Import PyStr PyInt RegionSpec GeomSpec SurfModel SurfSpec MacroModel MacroSpec MacroProofs MacroText CellModel CellProofs
  FlattenModel FlattenProofs FlattenDeck BoundaryModel NotsModel ProcessModel.
Open Scope nat_scope.
Open Scope list_scope.

(** The point in the system in which a surface is written: that of its transform card. *)
Definition local (cards : text -> option trans) (s : surface) (p : pt) : pt :=
  match s_tr s with
  | Some id => match cards id with Some t => to_aux (motion_of t) p | None => p end
  | None => p
  end.

(** The point is on the positive (true) or negative (false) side. *)
Definition side (sn : sense) (p : pt) (b : bool) : Prop := if b then pos sn p else neg sn p.

(** Macrobodies: their facets in MCNP's order and their inside. *)
Inductive body : surface -> list sense -> (pt -> Prop) -> Prop :=
| b_rpp i tr bc x0 x1 y0 y1 z0 z1 :
    body (mkS i tr MACRO_RPP [x0; x1; y0; y1; z0; z1] bc) (rpp_facets x0 x1 y0 y1 z0 z1) (in_rpp x0 x1 y0 y1 z0 z1)
| b_box i tr bc v a b c : orthogonal a b c -> nonzero a -> nonzero b -> nonzero c ->
    body (mkS i tr MACRO_BOX [px v; py v; pz v; px a; py a; pz a; px b; py b; pz b; px c; py c; pz c] bc)
      (box_facets v a b c) (in_box v a b c)
| b_rcc i tr bc b h r : nonzero h ->
    body (mkS i tr MACRO_RCC [px b; py b; pz b; px h; py h; pz h; r] bc) (rcc_facets b h r) (in_rcc b h r).

(** At the point [p], which is on no surface and no facet, [env] gives the truth of every word of the deck and [incell]
    tells the cells the point is in. *)
Record reads_at (i : input) (p : pt) (env incell : text -> bool) : Prop := {
  (* a surface: n its positive side, -n its negative side *)
  ra_plain : forall s sn, In s (i_surfs i) -> surf_sense s = Some sn ->
    exists b, side sn (local (i_cards i) s p) b /\ env (sid (s_id s)) = b /\ env (minus (sid (s_id s))) = negb b;
  (* a macrobody: -n its inside, n its outside, n.k and -n.k the sides of its k-th facet *)
  ra_macro : forall s facets inside, In s (i_surfs i) -> body s facets inside ->
    (env (minus (sid (s_id s))) = true <-> inside (local (i_cards i) s p)) /\
    env (sid (s_id s)) = negb (env (minus (sid (s_id s)))) /\
    forall k f, nth_error facets k = Some f ->
      exists b, side f (local (i_cards i) s p) b /\
        env (facet_word false (s_id s) (S k)) = b /\ env (facet_word true (s_id s) (S k)) = negb b;
  (* #n: not in cell n *)
  ra_hash : forall c q, In (c, q) (i_cells i) -> env ("#"%char :: str_Z (c_id c)) = negb (incell (str_Z (c_id c)));
  (* the cells *)
  ra_cells : forall c q r, In (c, q) (i_cells i) -> expr (toks (c_items c)) r -> holds env r = incell (str_Z (c_id c))
}.

(** What a word of the description of cell [c] may be: a surface or macrobody, a facet, or a complement; [rank] witnesses
    that complements have no cycle.  (Facets 2 and 3 of an RCC are exchanged by the code, see C28.) *)
Definition word_allowed (i : input) (rank : Z -> nat) (c : cell) (w : text) : Prop :=
  (exists s sg, In s (i_surfs i) /\ w = signed_word sg (s_id s)) \/
  (exists s sg k, In s (i_surfs i) /\ is_macrobody s = true /\ 1 <= k <= facets_of s /\ (s_type s = MACRO_RCC -> k = 1) /\
     w = facet_word sg (s_id s) k) \/
  (exists d q, In (d, q) (i_cells i) /\ w = "#"%char :: str_Z (c_id d) /\ rank (c_id d) < rank (c_id c)).

(** A deck as the theorem requires it. *)
Record good_input (i : input) (rank : Z -> nat) : Prop := {
  g_ids : NoDup (map s_id (i_surfs i));
  g_pos : forall s, In s (i_surfs i) -> (0 < s_id s)%Z;
  (* no macrobody number ends in the digits of another, see C30 *)
  g_suffix : forall s t u, In s (i_surfs i) -> In t (i_surfs i) -> is_macrobody s = true -> is_macrobody t = true ->
    s_id s <> s_id t -> sid (s_id t) <> u ++ sid (s_id s);
  g_surfs : forall s, In s (i_surfs i) -> (exists facets inside, body s facets inside) \/ (exists sn, surf_sense s = Some sn);
  (* transforms: the card exists; no sheet, no torus, and not the faulty case of simplify, see C22 and C24 *)
  g_tr : forall s id, In s (i_surfs i) -> s_tr s = Some id -> exists t, i_cards i id = Some t /\
    (is_macrobody s = false -> ~ sheeted s /\ is_torus (s_type s) = false /\
       forall g m, SurfModel.generalise s = Some g -> transform g t = Some m -> ~ only_zx m);
  g_cells : forall c q, In (c, q) (i_cells i) -> (0 < c_id c)%Z /\ cell_good c /\ laid (c_items c) /\
    forall w, In w (c_text c) -> word_tok w = TAtom w -> word_allowed i rank c w;
  (* removal of duplicates, see C16 *)
  g_dup : i_quick i = true \/ forall s, In s (i_surfs i) -> ~ sheeted s /\ torus_ok s
}.
