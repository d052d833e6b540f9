(** Geometry: angle normalisation, geodetic and Cartesian coordinates, angles
    between vectors, surface locations and focusing.  Definitions only.

    Numbers are exact real numbers.  A floating point "not a number" (or an
    infinity, from a division by zero) is [None] where it can arise. *)
From Coq Require Import Reals List Bool.
From Verif Require Import Common.
Import ListNotations.
Open Scope R_scope.

Record vec := V { vx : R; vy : R; vz : R }.
Definition vlist (v : vec) : list R := [vx v; vy v; vz v].
Definition vadd (u v : vec) : vec := V (vx u + vx v) (vy u + vy v) (vz u + vz v).
Definition vsub (u v : vec) : vec := V (vx u - vx v) (vy u - vy v) (vz u - vz v).
Definition vscale (k : R) (v : vec) : vec := V (k * vx v) (k * vy v) (k * vz v).

(** dedop/conf/constants.py:11-37: the entries of the constants file used here.
    The flattening and the semi-minor axis are independent entries. *)
Record consts := {
  k_c : R; k_pi : R; k_major : R; k_minor : R; k_flat : R; k_day : R }.

(** dedop/proc/geo/normalize.py:8-9 and 10-11: the two loops, with a bound on
    the number of tests; [None]: still running *)
Fixpoint turn_up (fuel : nat) (pi x : R) : option R :=
  match fuel with
  | O => None
  | S n => if Rlt_dec x (- pi) then turn_up n pi (x + 2 * pi) else Some x
  end.
Fixpoint turn_down (fuel : nat) (pi x : R) : option R :=
  match fuel with
  | O => None
  | S n => if Rlt_dec pi x then turn_down n pi (x - 2 * pi) else Some x
  end.
(** dedop/proc/geo/normalize.py:3-12 *)
Definition normalize (fuel : nat) (pi x : R) : option R :=
  match turn_up fuel pi x with
  | Some y => turn_down fuel pi y
  | None => None
  end.

(** scipy.radians *)
Definition radians (d : R) : R := d * PI / 180.
(** dedop/proc/geo/lla2ecef.py:7-32.  The argument is (lat, lon, alt); the
    square roots are those of real numbers, as for a flattened ellipsoid. *)
Definition lla2ecef (k : consts) (degrees : bool) (lla : vec) : vec :=
  let lat := if degrees then radians (vx lla) else vx lla in
  let lon := if degrees then radians (vy lla) else vy lla in
  let alt := vz lla in
  let a := k_major k in
  let b := k_minor k in
  let f := (a - b) / a in
  let e := sqrt (f * (2 - f)) in
  let N := a / sqrt (1 - (e * sin lat) ^ 2) in
  V ((N + alt) * cos lat * cos lon)
    ((N + alt) * cos lat * sin lon)
    ((N * (1 - e ^ 2) + alt) * sin lat).

(** numpy.arctan2 (without signed zeros) *)
Definition atan2 (y x : R) : R :=
  if Rlt_dec 0 x then atan (y / x)
  else if Rlt_dec x 0 then
         if Rle_dec 0 y then atan (y / x) + PI else atan (y / x) - PI
  else if Rlt_dec 0 y then PI / 2
  else if Rlt_dec y 0 then - (PI / 2)
  else 0.
(** numpy.mod for a positive modulus *)
Definition rmod (x m : R) : R := x - m * IZR (Int_part (x / m)).
(** dedop/proc/geo/ecef2lla.py:67-80: everything but the altitude near the
    poles; result: latitude, longitude, altitude and the semi-minor axis [b].
    The altitude of a point with latitude exactly at a pole (0/0) has no
    meaning; it is replaced below. *)
Definition ecef2lla_raw (k : consts) (v : vec) : vec * R :=
  let x := vx v in let y := vy v in let z := vz v in
  let sma := k_major k in
  let smna := (1 - k_flat k) * sma in
  let e := sqrt (1 - smna ^ 2 / sma ^ 2) in
  let b := sqrt (sma ^ 2 * (1 - e ^ 2)) in
  let ep := sqrt ((sma ^ 2 - b ^ 2) / b ^ 2) in
  let p := sqrt (x ^ 2 + y ^ 2) in
  let th := atan2 (sma * z) (b * p) in
  let lon := atan2 y x in
  let lat := atan2 (z + ep ^ 2 * b * sin th ^ 3) (p - e ^ 2 * sma * cos th ^ 3) in
  let N := sma / sqrt (1 - e ^ 2 * sin lat ^ 2) in
  let alt := p / cos lat - N in
  (V lat (rmod lon (2 * PI)) alt, b).
(** dedop/proc/geo/ecef2lla.py:90, 93: the test for points near a pole *)
Definition near_axis (v : vec) : bool :=
  (if Rlt_dec (Rabs (vx v)) 1 then true else false) && (if Rlt_dec (Rabs (vy v)) 1 then true else false).
(** dedop/proc/geo/ecef2lla.py:17-97 for one point (lines 89-91), as called in
    the processor *)
Definition ecef2lla (k : consts) (v : vec) : vec :=
  let '(r, b) := ecef2lla_raw k v in
  if near_axis v then V (vx r) (vy r) (vz v - b) else r.
(** dedop/proc/geo/ecef2lla.py:17-97 for arrays of points (lines 92-94), here
    for one element *)
Definition ecef2lla_element (k : consts) (v : vec) : vec :=
  let '(r, b) := ecef2lla_raw k v in
  if near_axis v then V (vx r) (vy r) (Rabs (vz v) - b) else r.

(** numpy.dot and numpy.linalg.norm on flat arrays of one length *)
Fixpoint dot (u v : list R) : R :=
  match u, v with
  | x :: u', y :: v' => x * y + dot u' v'
  | _, _ => 0
  end.
Definition norm (u : list R) : R := sqrt (dot u u).
(** numpy.arccos, numpy.arcsin: not a number outside [-1, 1] *)
Definition arccos (x : R) : option R :=
  if Rlt_dec x (-1) then None else if Rlt_dec 1 x then None else Some (acos x).
Definition arcsin (x : R) : option R :=
  if Rlt_dec x (-1) then None else if Rlt_dec 1 x then None else Some (asin x).
(** dedop/proc/functions/vectors.py:5-14 *)
Definition angle_between (u v : list R) : option R :=
  let d := norm u * norm v in
  if Req_EM_T d 0 then None
  else let arg := dot u v / d in
       arccos (if Rlt_dec 1 arg then 1 else arg).
