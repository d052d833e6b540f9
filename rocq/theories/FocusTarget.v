(** C68: where the target is. *)
From Coq Require Import Reals List Lra.
From Verif Require Import Common GeoModel SurfModel.
Import ListNotations.
Open Scope R_scope.

(** The target is the point with the latitude and longitude, in degrees, and the
    altitude of the configuration (which keeps the angles in radians). *)
Theorem C68_target : forall k lat lon alt,
  target_of k (V (lat * PI / 180) (lon * PI / 180) alt) = lla2ecef k true (V lat lon alt).
Proof. reflexivity. Qed.
Print Assumptions C68_target.
(** On the equator and the axis it is where one expects it. *)
Example C68_target_example : forall k alt, k_major k <> 0 ->
  target_of k (V 0 0 alt) = V (k_major k + alt) 0 0 /\ target_of k (V 0 (PI / 2) alt) = V 0 (k_major k + alt) 0.
Proof.
  intros k alt NZ. unfold target_of, lla2ecef. cbv zeta. cbn [vx vy vz].
  rewrite sin_0, cos_0, sin_PI2, cos_PI2. rewrite Rmult_0_r. replace (1 - 0 ^ 2) with 1 by ring. rewrite sqrt_1. split; f_equal; field.
Qed.
