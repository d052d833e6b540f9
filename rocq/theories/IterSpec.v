(** What the theorems about the conversion by iteration say, independent of
    its model. *)
From Coq Require Import Reals List Bool.
From Verif Require Import Common GeoModel GeoSpec.
Import ListNotations.
Open Scope R_scope.

(** The latitude, longitude and altitude [lla] denote the point [v]: there is
    a point of the ellipsoid whose outward normal has this direction, and [v]
    is on this normal at this signed distance. *)
Definition denotes (a b : R) (lla v : vec) : Prop :=
  let up := zenith (vx lla) (vy lla) in
  exists foot lam, on_ellipsoid a b foot /\ 0 < lam /\ gradient a b foot = vscale lam up /\
    v = vadd foot (vscale (vz lla) up).

(** constants of a slightly flattened ellipsoid *)
Definition earthlike (k : consts) : Prop := 0 < k_major k /\ 0 <= k_flat k <= 1 / 100.
(** the semi-minor axis and the squared eccentricity *)
Definition polar (k : consts) : R := k_major k * (1 - k_flat k).
Definition eccentric (k : consts) : R := 1 - (1 - k_flat k) ^ 2.
(** a point off the axis, from somewhat under the ground to ten radii *)
Definition around (k : consts) (v : vec) : Prop :=
  (vx v, vy v) <> (0, 0) /\ 9 / 10 * k_major k <= sqrt (sq v) <= 10 * k_major k.
