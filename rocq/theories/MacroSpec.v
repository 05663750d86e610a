(** Specification: macrobodies of the MCNP manual (not a model of any code). *)
From Coq Require Import Reals List.
From Verif Require Import PyStr GeomSpec.
Import ListNotations.
Open Scope R_scope.

(** Points strictly inside a rectangular parallelepiped. *)
Definition in_rpp (x0 x1 y0 y1 z0 z1 : R) (p : pt) : Prop :=
  x0 < px p < x1 /\ y0 < py p < y1 /\ z0 < pz p < z1.

(** Points strictly inside a box: corner plus combinations of the edges. *)
Definition in_box (v a b c : pt) (p : pt) : Prop :=
  exists s t u, 0 < s < 1 /\ 0 < t < 1 /\ 0 < u < 1 /\
    p = add_pt v (add_pt (scale_pt s a) (add_pt (scale_pt t b) (scale_pt u c))).

(** Points strictly inside a right circular cylinder with base centre [b], axis [h] and
    radius [r]: the foot of the perpendicular on the axis is [b + s h] with 0 < s < 1
    and is nearer than [r]. *)
Definition in_rcc (b h : pt) (r : R) (p : pt) : Prop :=
  exists s, 0 < s < 1 /\
    dot (sub_pt p (add_pt b (scale_pt s h))) h = 0 /\
    let q := sub_pt p (add_pt b (scale_pt s h)) in dot q q < r ^ 2.

(** The same with the boundary. *)
Definition closed_rpp (x0 x1 y0 y1 z0 z1 : R) (p : pt) : Prop :=
  x0 <= px p <= x1 /\ y0 <= py p <= y1 /\ z0 <= pz p <= z1.

Definition closed_box (v a b c : pt) (p : pt) : Prop :=
  exists s t u, 0 <= s <= 1 /\ 0 <= t <= 1 /\ 0 <= u <= 1 /\
    p = add_pt v (add_pt (scale_pt s a) (add_pt (scale_pt t b) (scale_pt u c))).

Definition closed_rcc (b h : pt) (r : R) (p : pt) : Prop :=
  exists s, 0 <= s <= 1 /\
    dot (sub_pt p (add_pt b (scale_pt s h))) h = 0 /\
    let q := sub_pt p (add_pt b (scale_pt s h)) in dot q q <= r ^ 2.

(** The facets of each macrobody in MCNP's order, positive side outside the body. *)
Definition rpp_facets (x0 x1 y0 y1 z0 z1 : R) : list sense :=
  [of_fun (fun p => px p - x1); of_fun (fun p => x0 - px p);
   of_fun (fun p => py p - y1); of_fun (fun p => y0 - py p);
   of_fun (fun p => pz p - z1); of_fun (fun p => z0 - pz p)].

(** Each edge: the plane through its end, then the plane through its beginning. *)
Definition box_facets (v a b c : pt) : list sense :=
  let ends e := [of_fun (fun p => dot (sub_pt p (add_pt v e)) e); of_fun (fun p => - dot (sub_pt p v) e)] in
  ends a ++ ends b ++ ends c.

(** The cylinder, the plane through the end of the axis, the plane through its
    beginning. *)
Definition rcc_facets (b h : pt) (r : R) : list sense :=
  [of_fun (fun p => let q := sub_pt p b in dot q q - (dot q h) ^ 2 / dot h h - r ^ 2);
   of_fun (fun p => dot (sub_pt p (add_pt b h)) h);
   of_fun (fun p => - dot (sub_pt p b) h)].
