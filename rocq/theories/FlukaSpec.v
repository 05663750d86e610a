(** Specification: what the bodies of FLUKA are (FLUKA manual, combinatorial geometry; not a model of any code). *)
From Coq Require Import Reals List.
From Verif Require Import PyStr GeomSpec.
Import ListNotations.
Open Scope R_scope.

(** A truncated right cone: centre of the first base, vector to the centre of the second, the two radii. *)
Definition trc (v h : pt) (r1 r2 : R) (p : pt) : Prop :=
  let s := dot (sub_pt p v) h / dot h h in
  let q := sub_pt (sub_pt p v) (scale_pt s h) in
  0 < s < 1 /\ dot q q < (r1 + (r2 - r1) * s) ^ 2.

Inductive fluka_means : string -> list R -> (pt -> Prop) -> Prop :=
| f_yzp d : fluka_means "YZP" [d] (fun p => px p < d)
| f_xzp d : fluka_means "XZP" [d] (fun p => py p < d)
| f_xyp d : fluka_means "XYP" [d] (fun p => pz p < d)
(* the normal points out of the body *)
| f_pla hx hy hz vx vy vz : fluka_means "PLA" [hx; hy; hz; vx; vy; vz]
    (fun p => dot (Pt hx hy hz) (sub_pt p (Pt vx vy vz)) < 0)
| f_xcc y z r : fluka_means "XCC" [y; z; r] (fun p => (py p - y) ^ 2 + (pz p - z) ^ 2 < r ^ 2)
(* the coordinates are in the cyclic order: z then x *)
| f_ycc z x r : fluka_means "YCC" [z; x; r] (fun p => (pz p - z) ^ 2 + (px p - x) ^ 2 < r ^ 2)
| f_zcc x y r : fluka_means "ZCC" [x; y; r] (fun p => (px p - x) ^ 2 + (py p - y) ^ 2 < r ^ 2)
| f_sph x y z r : fluka_means "SPH" [x; y; z; r] (fun p => (px p - x) ^ 2 + (py p - y) ^ 2 + (pz p - z) ^ 2 < r ^ 2)
(* the mixed terms are xy, xz, yz *)
| f_qua a b c axy axz ayz ax ay az a0 : fluka_means "QUA" [a; b; c; axy; axz; ayz; ax; ay; az; a0]
    (fun p => a * px p ^ 2 + b * py p ^ 2 + c * pz p ^ 2 + axy * px p * py p + axz * px p * pz p + ayz * py p * pz p
       + ax * px p + ay * py p + az * pz p + a0 < 0)
| f_trc vx vy vz hx hy hz r1 r2 : fluka_means "TRC" [vx; vy; vz; hx; hy; hz; r1; r2] (trc (Pt vx vy vz) (Pt hx hy hz) r1 r2).
