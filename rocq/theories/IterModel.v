(** The conversion from Cartesian to geodetic coordinates by iteration.
    Definitions only.

    Numbers are exact real numbers and the square roots are those of real
    numbers, as for a flattened ellipsoid. *)
From Coq Require Import Reals List Bool.
From Verif Require Import Common GeoModel.
Import ListNotations.
Open Scope R_scope.

(** dedop/proc/geo/ecef2lla.py:13-14 *)
Definition coord_iters : nat := 10.
Definition geodetic_err : R := 1 / 10 ^ 9.

(** How a call ends: with coordinates (latitude, longitude, altitude), with
    the GeolocationError of line 128, with the RuntimeWarning of line 173, or
    after a division by zero (numpy goes on with an infinity or a "not a
    number", which is not modelled; it takes a point deep inside the Earth). *)
Inductive outcome := Located (lla : vec) | Centre | Unsettled | Infinite.

(** a division of numpy numbers; [None]: by zero *)
Definition divide (x y : R) : option R := if Req_EM_T y 0 then None else Some (x / y).

(** dedop/proc/geo/ecef2lla.py:145-164: the variables of the loop, [x0],
    [lat_est] and [alt_est] *)
Record state := St { s_x0 : R; s_lat : R; s_alt : R }.

(** dedop/proc/geo/ecef2lla.py:134 *)
Definition ecc_sqr (k : consts) : R := k_flat k * (2 - k_flat k).

(** dedop/proc/geo/ecef2lla.py:142, 144 and 155, 157: the latitude for a radius
    of curvature and an altitude *)
Definition latitude (k : consts) (p z xn alt : R) : option R :=
  match divide (ecc_sqr k * xn) (xn + alt) with
  | Some u => match divide z (p * (1 - u)) with
              | Some t => Some (atan t)
              | None => None
              end
  | None => None
  end.

(** dedop/proc/geo/ecef2lla.py:136-144: the first estimates *)
Definition start (k : consts) (v : vec) : option state :=
  let p := sqrt (vx v ^ 2 + vy v ^ 2) in
  let alt := sqrt (vx v ^ 2 + vy v ^ 2 + vz v ^ 2) - k_major k * sqrt (1 - k_flat k) in
  match latitude k p (vz v) (k_major k) alt with
  | Some lat => Some (St (k_major k) lat alt)
  | None => None
  end.

(** dedop/proc/geo/ecef2lla.py:151-157, 164-167: one iteration.  The cosine of
    an arctangent is not zero. *)
Definition once (k : consts) (p z : R) (s : state) : option state :=
  let xn := k_major k / sqrt (1 - ecc_sqr k * (sin (s_lat s) * sin (s_lat s))) in
  let alt := p / cos (s_lat s) - s_x0 s in
  match latitude k p z xn alt with
  | Some lat => Some (St xn lat alt)
  | None => None
  end.

(** dedop/proc/geo/ecef2lla.py:159-162, 169: the test at the end of an
    iteration, from [s] to [t] *)
Definition settled (k : consts) (s t : state) : bool :=
  if Rlt_dec (Rabs (s_lat t - s_lat s)) geodetic_err then
    if Rlt_dec (Rabs (s_alt t - s_alt s) / k_major k) geodetic_err then true else false
  else false.

(** dedop/proc/geo/ecef2lla.py:148-173: at most [n] iterations; [done] is the
    number of iterations before.  [None]: a division by zero; [Some None]:
    the warning; otherwise the last state and the number of iterations. *)
Fixpoint rounds (n : nat) (k : consts) (p z : R) (s : state) (done : nat) : option (option (state * nat)) :=
  match n with
  | O => Some None
  | S n => match once k p z s with
           | None => None
           | Some t => if settled k s t then Some (Some (t, S done)) else rounds n k p z t (S done)
           end
  end.

(** dedop/proc/geo/ecef2lla.py:175-183 *)
Definition longitude (k : consts) (x y : R) : R :=
  if Req_EM_T x 0 then
    if Req_EM_T y 0 then 0
    else if Rlt_dec 0 y then k_pi k / 2
    else if Rlt_dec y 0 then - k_pi k / 2
    else 0
  else atan2 y x.

(** dedop/proc/geo/ecef2lla.py:115-129: a point on the axis of the Earth *)
Definition on_axis (k : consts) (z : R) : outcome :=
  let alt := Rabs z - k_major k * (1 - k_flat k) in
  if Rlt_dec 0 z then Located (V (k_pi k / 2) 0 alt)
  else if Rlt_dec z 0 then Located (V (- k_pi k / 2) 0 alt)
  else Centre.

(** dedop/proc/geo/ecef2lla.py:130-173: the loop for a point off the axis *)
Definition loop (k : consts) (v : vec) : option (option (state * nat)) :=
  let p := sqrt (vx v ^ 2 + vy v ^ 2) in
  match start k v with
  | None => None
  | Some s => rounds coord_iters k p (vz v) s 0
  end.

(** dedop/proc/geo/ecef2lla.py:130-184 *)
Definition off_axis (k : consts) (v : vec) : outcome :=
  match loop k v with
  | None => Infinite
  | Some None => Unsettled
  | Some (Some (s, _)) => Located (V (s_lat s) (longitude k (vx v) (vy v)) (s_alt s))
  end.
(** dedop/proc/geo/ecef2lla.py:100-184 *)
Definition ecef2lla_iterative (k : consts) (v : vec) : outcome :=
  if Req_EM_T (vx v) 0 then
    if Req_EM_T (vy v) 0 then on_axis k (vz v) else off_axis k v
  else off_axis k v.
