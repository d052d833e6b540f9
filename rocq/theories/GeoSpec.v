(** What the geometry theorems are about, independent of the model. *)
From Coq Require Import Reals List Bool.
From Verif Require Import Common GeoModel.
Import ListNotations.
Open Scope R_scope.

(** The loops of normalize end with [r]. *)
Definition normalizes (pi x r : R) : Prop := exists fuel, normalize fuel pi x = Some r.

(** The ellipsoid of revolution with the given half axes, its outward normal
    direction at a point (the gradient of its equation), the unit vector with
    given latitude and longitude, and distances. *)
Definition on_ellipsoid (a b : R) (v : vec) : Prop :=
  vx v ^ 2 / a ^ 2 + vy v ^ 2 / a ^ 2 + vz v ^ 2 / b ^ 2 = 1.
Definition gradient (a b : R) (v : vec) : vec := V (2 * vx v / a ^ 2) (2 * vy v / a ^ 2) (2 * vz v / b ^ 2).
Definition zenith (lat lon : R) : vec := V (cos lat * cos lon) (cos lat * sin lon) (sin lat).
Definition distance (u v : vec) : R :=
  sqrt ((vx u - vx v) ^ 2 + (vy u - vy v) ^ 2 + (vz u - vz v) ^ 2).
Definition sq (v : vec) : R := vx v ^ 2 + vy v ^ 2 + vz v ^ 2.
(** a flattened ellipsoid *)
Definition oblate (k : consts) : Prop := 0 < k_minor k <= k_major k.
(** the flattening agrees with the semi-minor axis *)
Definition consistent (k : consts) : Prop := k_minor k = (1 - k_flat k) * k_major k.
