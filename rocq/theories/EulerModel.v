(** Model of the conversion between rotation matrices and angles: csg2csg/OpenMCCell.py 10-60.  (The program defines the
    two functions, but the writer prints the matrix itself: OpenMCCell.py 99-121.) *)
From Coq Require Import Reals.
Open Scope R_scope.

(** Python's [math.atan2] (simplification: no negative zero). *)
Definition atan2 (y x : R) : R :=
  if Rlt_dec 0 x then atan (y / x)
  else if Rlt_dec x 0 then (if Rle_dec 0 y then atan (y / x) + PI else atan (y / x) - PI)
  else if Rlt_dec 0 y then PI / 2
  else if Rlt_dec y 0 then - (PI / 2)
  else 0.

(** Nine numbers, row by row. *)
Record matrix := mkM { m0 : R; m1 : R; m2 : R; m3 : R; m4 : R; m5 : R; m6 : R; m7 : R; m8 : R }.

(** [np.rad2deg] (OpenMCCell.py 26-28) and its converse (OpenMCCell.py 36-38). *)
Definition rad2deg (a : R) : R := a * 180 / PI.
Definition deg2rad (a : R) : R := a / 180 * PI.

(** OpenMCCell.py 10-30, [angle_from_rotmatrix]: phi, theta, psi in degrees. *)
Definition angle_from_rotmatrix (m : matrix) : R * R * R :=
  let sy := sqrt (m0 m ^ 2 + m3 m ^ 2) in
  let '(phi, theta, psi) :=
    if Rlt_dec sy (1 / 1000000) then (atan2 (- m5 m) (m4 m), atan2 (- m6 m) sy, 0)
    else (atan2 (m7 m) (m8 m), atan2 (- m6 m) sy, -1 * atan2 (m3 m) (m0 m)) in
  (rad2deg phi, rad2deg theta, rad2deg psi).

(** OpenMCCell.py 33-60, [rotmatrix_from_angle]. *)
Definition rotmatrix_from_angle (angles : R * R * R) : matrix :=
  let '(a0, a1, a2) := angles in
  let psi := deg2rad a2 in
  let theta := deg2rad a1 in
  let phi := deg2rad a0 in
  mkM (cos theta * cos psi)
      (- cos phi * sin psi + sin phi * sin theta * cos psi)
      (sin phi * sin psi + cos phi * sin theta * cos psi)
      (cos theta * sin psi)
      (cos phi * cos psi + sin phi * sin theta * sin psi)
      (- sin phi * cos psi + cos phi * sin theta * sin psi)
      (- sin theta)
      (sin phi * cos theta)
      (cos phi * cos theta).
