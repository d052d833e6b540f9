(** Theorems about angles and coordinates. *)
From Coq Require Import Reals List Bool Lra Lia Psatz ZArith.
From Verif Require Import Common GeoModel GeoSpec GeoProofs.
Import ListNotations.
Open Scope R_scope.

(** * C63: normalize *)

(** For a positive constant the loops end, in range, a whole number of turns
    away; angles in range are unchanged; the result does not depend on the
    bound given to the model. *)
Theorem C63_normalize : forall pi x, 0 < pi -> exists r, normalizes pi x r /\
  (forall s, normalizes pi x s -> s = r) /\
  - pi <= r <= pi /\ (exists n : Z, r = x + IZR n * (2 * pi)) /\ (- pi <= x <= pi -> r = x).
Proof.
  intros pi x P. destruct (normalize_ends pi x P) as [r [H [B C]]]. exists r. split; [exact H|].
  split; [intros s S; apply (normalizes_unique pi x s r S H)|]. split; [exact B|exact C].
Qed.
Print Assumptions C63_normalize.
(** With any other value in the constants file the loops run forever (for 0:
    on every angle but 0). *)
Theorem C63_needs_positive : forall pi, (forall x, exists r, normalizes pi x r) <-> 0 < pi.
Proof.
  intro pi. split.
  - intro H. destruct (Rlt_dec 0 pi) as [P|P]; [exact P|]. exfalso. destruct (H 1) as [r [f F]].
    rewrite (normalize_stuck pi 1) in F; [discriminate|]. lra.
  - intros P x. destruct (normalize_ends pi x P) as [r [H _]]. exists r. exact H.
Qed.
Print Assumptions C63_needs_positive.
Example C63_example : normalizes 3 10 (-2) /\ normalizes 3 (-20) (-2) /\ normalizes 3 3 3.
Proof.
  split; [|split]; exists 5%nat; unfold normalize; cbn [turn_up turn_down];
  repeat (destruct (Rlt_dec _ _); try lra; try (f_equal; lra)).
Qed.

(** * C64: geodetic to Cartesian coordinates *)


(** Altitude zero is the reference ellipsoid. *)
Theorem C64_surface : forall k lat lon, oblate k ->
  on_ellipsoid (k_major k) (k_minor k) (lla2ecef k false (V lat lon 0)).
Proof.
  intros k lat lon O. rewrite lla2ecef_eq by exact O. unfold on_ellipsoid. cbv zeta. cbn [vx vy vz].
  pose proof (quotient k O) as Q. destruct O as [B A].
  assert (A0 : 0 < k_major k) by lra.
  pose proof (N_sq (k_major k) (k_minor k / k_major k) lat A0 Q) as NS.
  set (N := N_of (k_major k) (k_minor k / k_major k) lat) in *. clearbody N.
  pose proof (sin2_cos2 lat) as T. pose proof (sin2_cos2 lon) as T2.
  assert (E : ((N + 0) * cos lat * cos lon) ^ 2 / k_major k ^ 2 + ((N + 0) * cos lat * sin lon) ^ 2 / k_major k ^ 2 +
          ((N * (k_minor k / k_major k) ^ 2 + 0) * sin lat) ^ 2 / k_minor k ^ 2 =
          N ^ 2 * (cos lat ^ 2 * (sin lon ^ 2 + cos lon ^ 2) + (k_minor k / k_major k) ^ 2 * sin lat ^ 2) / k_major k ^ 2).
  { field. lra. }
  rewrite E, T2. replace (cos lat ^ 2) with (1 - sin lat ^ 2) by lra.
  replace ((1 - sin lat ^ 2) * 1 + (k_minor k / k_major k) ^ 2 * sin lat ^ 2)
    with (1 - (1 - (k_minor k / k_major k) ^ 2) * sin lat ^ 2) by ring.
  rewrite NS. field. lra.
Qed.
Print Assumptions C64_surface.
(** The altitude moves the point along the outward normal of the ellipsoid at
    the foot point, a unit vector, by exactly the altitude. *)
Theorem C64_normal : forall k lat lon, oblate k ->
  sq (zenith lat lon) = 1 /\
  (exists c, 0 < c /\ gradient (k_major k) (k_minor k) (lla2ecef k false (V lat lon 0)) = vscale c (zenith lat lon)) /\
  (forall alt, lla2ecef k false (V lat lon alt) = vadd (lla2ecef k false (V lat lon 0)) (vscale alt (zenith lat lon))) /\
  (forall h1 h2, distance (lla2ecef k false (V lat lon h1)) (lla2ecef k false (V lat lon h2)) = Rabs (h1 - h2)).
Proof.
  intros k lat lon O.
  assert (U : sq (zenith lat lon) = 1).
  { unfold sq, zenith. cbn [vx vy vz]. pose proof (sin2_cos2 lat). pose proof (sin2_cos2 lon).
    replace ((cos lat * cos lon) ^ 2 + (cos lat * sin lon) ^ 2 + sin lat ^ 2)
      with (cos lat ^ 2 * (sin lon ^ 2 + cos lon ^ 2) + sin lat ^ 2) by ring. rewrite H0. lra. }
  split; [exact U|]. split; [|split].
  - pose proof (quotient k O) as Q. assert (A0 : 0 < k_major k) by (destruct O; lra).
    pose proof (N_pos (k_major k) (k_minor k / k_major k) lat A0 Q) as NP.
    exists (2 * N_of (k_major k) (k_minor k / k_major k) lat / k_major k ^ 2). split.
    + apply Rdiv_lt_0_compat; [lra|apply pow_lt; exact A0].
    + rewrite lla2ecef_eq by exact O. unfold gradient, vscale, zenith. cbv zeta. cbn [vx vy vz]. destruct O.
      f_equal; field; lra.
  - intro alt. apply at_height. exact O.
  - intros h1 h2. rewrite (at_height k lat lon h1 O), (at_height k lat lon h2 O).
    generalize (lla2ecef k false (V lat lon 0)). intros [x y z]. unfold distance, vadd, vscale. cbn [vx vy vz].
    unfold sq in U. destruct (zenith lat lon) as [nx ny nz]. cbn [vx vy vz] in U |- *.
    replace ((x + h1 * nx - (x + h2 * nx)) ^ 2 + (y + h1 * ny - (y + h2 * ny)) ^ 2 + (z + h1 * nz - (z + h2 * nz)) ^ 2)
      with ((h1 - h2) ^ 2 * (nx ^ 2 + ny ^ 2 + nz ^ 2)) by ring.
    rewrite U, Rmult_1_r. rewrite <- (sqrt_Rsqr_abs (h1 - h2)). f_equal. unfold Rsqr. ring.
Qed.
Print Assumptions C64_normal.
(** Periodic in longitude, symmetric about the equator and about the prime
    meridian; degrees are converted. *)
Theorem C64_symmetry : forall k lat lon alt,
  (forall n : Z, lla2ecef k false (V lat (lon + IZR n * (2 * PI)) alt) = lla2ecef k false (V lat lon alt)) /\
  (forall r : vec, r = lla2ecef k false (V lat lon alt) ->
     lla2ecef k false (V (- lat) lon alt) = V (vx r) (vy r) (- vz r) /\
     lla2ecef k false (V lat (- lon) alt) = V (vx r) (- vy r) (vz r)) /\
  lla2ecef k true (V lat lon alt) = lla2ecef k false (V (lat * PI / 180) (lon * PI / 180) alt).
Proof.
  assert (Pn : forall t (m : nat), sin (t + INR m * (2 * PI)) = sin t /\ cos (t + INR m * (2 * PI)) = cos t).
  { intros t m. replace (t + INR m * (2 * PI)) with (t + 2 * INR m * PI) by ring.
    split; [apply sin_period|apply cos_period]. }
  assert (Pz : forall t (n : Z), sin (t + IZR n * (2 * PI)) = sin t /\ cos (t + IZR n * (2 * PI)) = cos t).
  { intros t n. destruct (Z.le_ge_cases 0 n) as [H|H].
    - rewrite <- (Z2Nat.id n H), <- INR_IZR_INZ. apply Pn.
    - destruct (Pn (t + IZR n * (2 * PI)) (Z.to_nat (- n))) as [A B].
      rewrite INR_IZR_INZ, Z2Nat.id, opp_IZR in A, B by lia.
      replace (t + IZR n * (2 * PI) + - IZR n * (2 * PI)) with t in A, B by ring. split; symmetry; assumption. }
  intros k lat lon alt. split; [|split].
  - intro n. unfold lla2ecef. cbn [vx vy vz]. cbv zeta. destruct (Pz lon n) as [A B]. rewrite A, B. reflexivity.
  - intros r ->. unfold lla2ecef. cbn [vx vy vz]. cbv zeta. rewrite !sin_neg, !cos_neg.
    split; f_equal; try ring;
    repeat match goal with |- context [(?e * - sin lat) ^ 2] => replace ((e * - sin lat) ^ 2) with ((e * sin lat) ^ 2) by ring end; ring.
  - reflexivity.
Qed.
Print Assumptions C64_symmetry.
Definition unit_k : consts := {| k_c := 1; k_pi := PI; k_major := 2; k_minor := 1; k_flat := 1 / 2; k_day := 1 |}.
Example C64_example : oblate unit_k /\ lla2ecef unit_k false (V 0 0 3) = V 5 0 0 /\
  lla2ecef unit_k false (V (PI / 2) 0 3) = V 0 0 4.
Proof.
  assert (O : oblate unit_k) by (unfold oblate; cbn; lra). split; [exact O|].
  rewrite !lla2ecef_eq by exact O. cbv zeta. unfold N_of. cbn [k_major k_minor unit_k].
  rewrite sin_0, cos_0, sin_PI2, cos_PI2. split.
  - replace (1 - (1 - (1 / 2) ^ 2) * 0 ^ 2) with 1 by field. rewrite sqrt_1. f_equal; field.
  - replace (1 - (1 - (1 / 2) ^ 2) * 1 ^ 2) with ((1 / 2) ^ 2) by field. rewrite sqrt_pow2 by lra. f_equal; field.
Qed.

(** * C65: near the poles *)

Lemma near_alt : forall k v, 0 < k_major k -> 0 <= k_flat k < 1 -> Rabs (vx v) < 1 -> Rabs (vy v) < 1 ->
  vz (ecef2lla k v) = vz v - (1 - k_flat k) * k_major k /\
  vz (ecef2lla_element k v) = Rabs (vz v) - (1 - k_flat k) * k_major k.
Proof.
  intros k v A F X Y. unfold ecef2lla, ecef2lla_element. rewrite (raw_eq k v A F). cbv zeta.
  rewrite (proj2 (near_axis_spec v) (conj X Y)). split; reflexivity.
Qed.

(** On the northern side the altitude is the height above the pole; given as an
    array, on both sides. *)
Theorem C65_north_partial : forall k v, 0 < k_major k -> 0 <= k_flat k < 1 ->
  Rabs (vx v) < 1 -> Rabs (vy v) < 1 ->
  (0 <= vz v -> vz (ecef2lla k v) = Rabs (vz v) - (1 - k_flat k) * k_major k) /\
  vz (ecef2lla_element k v) = Rabs (vz v) - (1 - k_flat k) * k_major k.
Proof.
  intros k v A F X Y. destruct (near_alt k v A F X Y) as [H1 H2]. split; [|exact H2].
  intro Z. rewrite H1, Rabs_right by lra. reflexivity.
Qed.
Print Assumptions C65_north_partial.
(** On the southern side it is wrong for every single point, by twice the
    distance from the equatorial plane. *)
Theorem C65_south : forall k v, 0 < k_major k -> 0 <= k_flat k < 1 ->
  Rabs (vx v) < 1 -> Rabs (vy v) < 1 -> vz v < 0 ->
  vz (ecef2lla k v) = (Rabs (vz v) - (1 - k_flat k) * k_major k) - 2 * Rabs (vz v).
Proof.
  intros k v A F X Y Z. destruct (near_alt k v A F X Y) as [H1 _]. rewrite H1, Rabs_left by exact Z. ring.
Qed.
Print Assumptions C65_south.
Theorem C65_south_refuted : exists k v,
  0 < k_major k /\ 0 <= k_flat k < 1 /\ Rabs (vx v) < 1 /\ Rabs (vy v) < 1 /\
  vz (ecef2lla k v) <> Rabs (vz v) - (1 - k_flat k) * k_major k /\
  vz (ecef2lla k v) = -12713504.
Proof.
  exists {| k_c := 299792458; k_pi := 3; k_major := 6378137; k_minor := 6356752; k_flat := 21385 / 6378137; k_day := 86400 |},
         (V 0 0 (-6356752)).
  match goal with |- context [ecef2lla ?k ?v] => destruct (near_alt k v) as [H _] end;
    cbn [k_major k_flat vx vy vz] in *; rewrite ?Rabs_R0; try lra.
  rewrite H. rewrite Rabs_left by lra. repeat split; lra.
Qed.
Print Assumptions C65_south_refuted.
Example C65_example : exists k, 0 < k_major k /\ 0 <= k_flat k < 1 /\ vz (ecef2lla k (V 0 0 6356762)) = 10.
Proof.
  exists {| k_c := 299792458; k_pi := 3; k_major := 6378137; k_minor := 6356752; k_flat := 21385 / 6378137; k_day := 86400 |}.
  match goal with |- context [ecef2lla ?k ?v] => destruct (near_alt k v) as [H _] end;
    cbn [k_major k_flat vx vy vz] in *; rewrite ?Rabs_R0; try lra.
Qed.

(** * C81: the conversions agree on the ellipsoid *)

(** For constants that agree with each other, every point of altitude zero not
    near the axis is converted back exactly, with the longitude in [0, 2 pi). *)
Theorem C81_round_trip_partial : forall k lat lon, oblate k -> consistent k ->
  - (PI / 2) < lat < PI / 2 -> - PI < lon <= PI ->
  let v := lla2ecef k false (V lat lon 0) in
  ~ (Rabs (vx v) < 1 /\ Rabs (vy v) < 1) ->
  exists lon', ecef2lla k v = V lat lon' 0 /\ 0 <= lon' < 2 * PI /\ (lon' = lon \/ lon' = lon + 2 * PI).
Proof.
  intros k lat lon O K L Ln v F. pose proof PI_RGT_0 as P. pose proof (quotient k O) as Q.
  assert (A : 0 < k_major k) by (destruct O; lra).
  assert (EQ : 1 - k_flat k = k_minor k / k_major k) by (rewrite K; field; lra).
  assert (Fl : 0 <= k_flat k < 1) by lra.
  exists (rmod lon (2 * PI)). split; [|apply rmod_lon; exact Ln].
  assert (C : 0 < cos lat) by (apply cos_gt_0; lra).
  unfold ecef2lla. rewrite (raw_eq k v A Fl). cbv zeta.
  destruct (near_axis v) eqn:NA; [exfalso; apply F; apply near_axis_spec; exact NA|].
  rewrite EQ. unfold v in *. rewrite lla2ecef_eq in * by exact O. cbv zeta in *. rewrite !Rplus_0_r in *.
  set (q := k_minor k / k_major k) in *.
  destruct (bowring (k_major k) q lat lon A Q) as [B1 B2]; [lra|exact C|]. cbv zeta in B1, B2.
  rewrite B1, B2. cbn [vx vy]. pose proof (N_pos (k_major k) q lat A Q) as NP.
  f_equal.
  - rewrite atan2_unique; [reflexivity|apply Rmult_lt_0_compat; assumption|exact Ln].
  - change (k_major k / sqrt (1 - (1 - q ^ 2) * sin lat ^ 2)) with (N_of (k_major k) q lat). field. lra.
Qed.
Print Assumptions C81_round_trip_partial.
(** The longitude is recovered at every altitude. *)
Theorem C81_longitude : forall k lat lon alt, oblate k -> - (PI / 2) < lat < PI / 2 -> - PI < lon <= PI ->
  - k_minor k < alt ->
  let r := vy (ecef2lla k (lla2ecef k false (V lat lon alt))) in
  0 <= r < 2 * PI /\ (r = lon \/ r = lon + 2 * PI).
Proof.
  intros k lat lon alt O L Ln H r. pose proof (quotient k O) as Q.
  assert (A : 0 < k_major k) by (destruct O; lra).
  assert (C : 0 < cos lat) by (apply cos_gt_0; lra).
  replace r with (rmod lon (2 * PI)); [apply rmod_lon; exact Ln|].
  unfold r, ecef2lla, ecef2lla_raw. cbv zeta.
  rewrite lla2ecef_eq by exact O. cbv zeta. cbn [vx vy vz].
  set (N := N_of (k_major k) (k_minor k / k_major k) lat).
  assert (NA : k_major k <= N).
  { unfold N, N_of. set (D := 1 - (1 - (k_minor k / k_major k) ^ 2) * sin lat ^ 2).
    assert (DP : 0 < D) by (apply root_pos; exact Q).
    assert (D1 : D <= 1). { unfold D. assert (0 <= sin lat ^ 2) by nra. assert ((k_minor k / k_major k) ^ 2 <= 1) by nra. nra. }
    assert (S : 0 < sqrt D) by (apply sqrt_lt_R0; exact DP).
    assert (S1 : sqrt D <= 1) by (rewrite <- sqrt_1; apply sqrt_le_1_alt; exact D1).
    apply (Rmult_le_reg_r (sqrt D)); [exact S|]. unfold Rdiv. rewrite Rmult_assoc, Rinv_l by lra. nra. }
  assert (P : 0 < (N + alt) * cos lat) by (apply Rmult_lt_0_compat; [destruct O; lra|exact C]).
  destruct (near_axis _); cbn [vy]; rewrite atan2_unique by assumption; reflexivity.
Qed.
Print Assumptions C81_longitude.
(** On the equator every altitude is converted back exactly. *)
Theorem C81_equator : forall k lon alt, oblate k -> consistent k -> - PI < lon <= PI ->
  let v := lla2ecef k false (V 0 lon alt) in
  - (k_minor k ^ 2 / k_major k) < alt -> ~ (Rabs (vx v) < 1 /\ Rabs (vy v) < 1) ->
  exists lon', ecef2lla k v = V 0 lon' alt /\ (lon' = lon \/ lon' = lon + 2 * PI).
Proof.
  intros k lon alt O K Ln v H F. pose proof (quotient k O) as Q.
  assert (A : 0 < k_major k) by (destruct O; lra).
  assert (EQ : 1 - k_flat k = k_minor k / k_major k) by (rewrite K; field; lra).
  assert (Fl : 0 <= k_flat k < 1) by lra.
  exists (rmod lon (2 * PI)). split; [|apply rmod_lon; exact Ln].
  assert (E : v = V ((k_major k + alt) * cos lon) ((k_major k + alt) * sin lon) 0).
  { unfold v. rewrite lla2ecef_eq by exact O. cbv zeta. unfold N_of. rewrite sin_0, cos_0.
    replace (1 - (1 - (k_minor k / k_major k) ^ 2) * 0 ^ 2) with 1 by ring. rewrite sqrt_1. f_equal; field; lra. }
  assert (MM : k_minor k ^ 2 / k_major k <= k_major k).
  { replace (k_minor k ^ 2 / k_major k) with (k_major k * (k_minor k / k_major k) ^ 2) by (field; lra).
    assert (QQ : (k_minor k / k_major k) ^ 2 <= 1) by nra. generalize dependent ((k_minor k / k_major k) ^ 2). intros; nra. }
  assert (R0 : 0 < k_major k + alt) by lra.
  unfold ecef2lla. rewrite (raw_eq k v A Fl). cbv zeta.
  destruct (near_axis v) eqn:NA; [exfalso; apply F; apply near_axis_spec; exact NA|]. clear F NA.
  rewrite E in *. cbn [vx vy]. rewrite EQ. set (q := k_minor k / k_major k) in *.
  assert (P : sqrt (((k_major k + alt) * cos lon) ^ 2 + ((k_major k + alt) * sin lon) ^ 2) = k_major k + alt).
  { replace (((k_major k + alt) * cos lon) ^ 2 + ((k_major k + alt) * sin lon) ^ 2)
      with ((k_major k + alt) ^ 2 * (sin lon ^ 2 + cos lon ^ 2)) by ring.
    rewrite sin2_cos2, Rmult_1_r. apply sqrt_pow2. lra. }
  assert (Z : forall c, 0 < c -> atan2 0 c = 0).
  { intros c Hc. replace 0 with (c * sin 0) at 1 by (rewrite sin_0; ring).
    replace c with (c * cos 0) at 2 by (rewrite cos_0; ring). apply atan2_unique; [exact Hc|]. pose proof PI_RGT_0. lra. }
  assert (La : lat_of (k_major k) q (V ((k_major k + alt) * cos lon) ((k_major k + alt) * sin lon) 0) = 0).
  { unfold lat_of. cbv zeta. cbn [vx vy vz]. rewrite P. rewrite Rmult_0_r.
    rewrite Z by (apply Rmult_lt_0_compat; [apply Rmult_lt_0_compat; [apply Q|exact A]|exact R0]).
    rewrite sin_0, cos_0. replace (0 + (1 - q ^ 2) / q * k_major k * 0 ^ 3) with 0 by (field; lra).
    apply Z. replace (k_minor k ^ 2 / k_major k) with (k_major k * q ^ 2) in H by (unfold q; field; lra). lra. }
  rewrite La, P, cos_0, sin_0. replace (1 - (1 - q ^ 2) * 0 ^ 2) with 1 by ring. rewrite sqrt_1.
  rewrite atan2_unique by assumption. f_equal. field.
Qed.
Print Assumptions C81_equator.
(** The result is symmetric about the equator (away from the axis). *)
Theorem C81_symmetric : forall k v, 0 < k_major k -> 0 <= k_flat k < 1 -> ~ (Rabs (vx v) < 1 /\ Rabs (vy v) < 1) ->
  - PI / 2 < vx (ecef2lla k v) < PI / 2 ->
  let r := ecef2lla k v in
  ecef2lla k (V (vx v) (vy v) (- vz v)) = V (- vx r) (vy r) (vz r).
Proof.
  intros k v A F N La r.
  assert (Neg : forall y x, 0 < x -> atan2 (- y) x = - atan2 y x).
  { intros y x X. unfold atan2. destruct (Rlt_dec 0 x); [|contradiction]. rewrite <- atan_opp. f_equal. field. lra. }
  assert (Pos : forall y x, - PI / 2 < atan2 y x < PI / 2 -> 0 < x \/ (x = 0 /\ y = 0)).
  { intros y x H. unfold atan2 in H. pose proof PI_RGT_0. destruct (Rlt_dec 0 x); [left; assumption|].
    destruct (Rlt_dec x 0) as [X|X].
    - pose proof (atan_bound (y / x)). destruct (Rle_dec 0 y) as [Y|Y].
      + lra.
      + lra.
    - destruct (Rlt_dec 0 y); [lra|]. destruct (Rlt_dec y 0); [lra|]. right. lra. }
  assert (NA : forall z, near_axis (V (vx v) (vy v) z) = false).
  { intro z. destruct (near_axis _) eqn:E; [|reflexivity]. exfalso. apply N. apply near_axis_spec in E. exact E. }
  assert (Vv : v = V (vx v) (vy v) (vz v)) by (destruct v; reflexivity).
  unfold r in *. clear r. unfold ecef2lla in *. rewrite Vv in La |- *. cbn [vx vy vz] in *. rewrite !NA in *.
  rewrite !(raw_eq k _ A F) in *. cbv zeta in *. cbn [vx vy vz] in *.
  set (q := 1 - k_flat k) in *. set (p := sqrt (vx v ^ 2 + vy v ^ 2)) in *.
  assert (PP : 0 < p).
  { apply sqrt_lt_R0. destruct (Req_dec (vx v) 0) as [X|X]; [|nra]. destruct (Req_dec (vy v) 0) as [Y|Y]; [|nra].
    exfalso. apply N. rewrite X, Y, Rabs_R0. lra. }
  assert (QP : 0 < q) by (unfold q; lra).
  assert (S : lat_of (k_major k) q (V (vx v) (vy v) (- vz v)) = - lat_of (k_major k) q (V (vx v) (vy v) (vz v))).
  { unfold lat_of in *. cbv zeta in *. cbn [vx vy vz] in *. fold p in La |- *.
    replace (k_major k * - vz v) with (- (k_major k * vz v)) by ring.
    rewrite Neg by (apply Rmult_lt_0_compat; [apply Rmult_lt_0_compat|]; lra).
    rewrite sin_neg, cos_neg. set (th := atan2 (k_major k * vz v) (q * k_major k * p)) in *.
    replace (- vz v + (1 - q ^ 2) / q * k_major k * (- sin th) ^ 3)
      with (- (vz v + (1 - q ^ 2) / q * k_major k * sin th ^ 3)) by (field; lra).
    destruct (Pos _ _ La) as [X|[X Y]]; [apply Neg; exact X|]. rewrite X, Y.
    unfold atan2. destruct (Rlt_dec 0 0); [lra|]. destruct (Rlt_dec 0 (- 0)); [lra|]. destruct (Rlt_dec (- 0) 0); lra. }
  rewrite S, cos_neg, sin_neg. f_equal. f_equal. f_equal. f_equal. ring.
Qed.
Print Assumptions C81_symmetric.
Example C81_example : oblate unit_k /\ consistent unit_k /\
  let v := lla2ecef unit_k false (V 0 0 0) in ~ (Rabs (vx v) < 1 /\ Rabs (vy v) < 1).
Proof.
  split; [unfold oblate; cbn; lra|]. split; [unfold consistent; cbn; lra|].
  cbv zeta. rewrite lla2ecef_eq by (unfold oblate; cbn; lra). cbv zeta. unfold N_of. cbn [k_major k_minor unit_k vx vy].
  rewrite sin_0, cos_0. replace (1 - (1 - (1 / 2) ^ 2) * 0 ^ 2) with 1 by field. rewrite sqrt_1.
  intros [X _]. rewrite Rabs_right in X; lra.
Qed.

(** * C66: the angle between vectors *)

(** Defined exactly for two non-zero vectors of one length; symmetric; in
    [0, pi]; its cosine is the cosine of the enclosed angle. *)
Theorem C66_angle : forall u v, length u = length v ->
  angle_between u v = angle_between v u /\
  (angle_between u v = None <-> norm u = 0 \/ norm v = 0) /\
  (forall t, angle_between u v = Some t -> 0 <= t <= PI /\ dot u v = norm u * norm v * cos t).
Proof.
  intros u v L. split; [|split].
  - unfold angle_between. rewrite (dot_comm u v), (Rmult_comm (norm u)). reflexivity.
  - split.
    + intro H. destruct (Req_dec (norm u) 0) as [A|A]; [left; exact A|]. destruct (Req_dec (norm v) 0) as [B|B]; [right; exact B|].
      rewrite angle_eq in H by assumption. discriminate.
    + intro H. unfold angle_between. destruct (Req_EM_T (norm u * norm v) 0) as [_|E]; [reflexivity|].
      exfalso. apply E. destruct H as [->| ->]; ring.
  - intros t H. destruct (Req_dec (norm u) 0) as [A|A].
    { unfold angle_between in H. rewrite A, Rmult_0_l in H. destruct (Req_EM_T 0 0); [discriminate|contradiction]. }
    destruct (Req_dec (norm v) 0) as [B|B].
    { unfold angle_between in H. rewrite B, Rmult_0_r in H. destruct (Req_EM_T 0 0); [discriminate|contradiction]. }
    rewrite angle_eq in H by assumption. injection H as <-. split; [apply acos_bound|].
    rewrite cos_acos; [field; split; assumption|]. apply cosine_range; [exact L|].
    apply Rmult_integral_contrapositive_currified; assumption.
Qed.
Print Assumptions C66_angle.
(** Independent of positive lengths; opposite vectors give the supplement. *)
Theorem C66_scale : forall u v a b, length u = length v -> 0 < a -> 0 < b ->
  angle_between (map (Rmult a) u) (map (Rmult b) v) = angle_between u v /\
  angle_between (map (Rmult (- a)) u) v = option_map (Rminus PI) (angle_between u v).
Proof.
  intros u v a b L A B.
  assert (Q : forall k (w : list R), k <> 0 -> norm (map (Rmult k) w) = 0 <-> norm w = 0).
  { intros k w K. rewrite norm_scale. assert (Rabs k <> 0) by (apply Rabs_no_R0; exact K). split.
    - intro H0. apply Rmult_integral in H0. destruct H0; [contradiction|assumption].
    - intros ->. ring. }
  assert (Nn : forall u v, norm u = 0 \/ norm v = 0 -> angle_between u v = None).
  { intros u0 v0 H. unfold angle_between. destruct (Req_EM_T (norm u0 * norm v0) 0) as [_|E]; [reflexivity|].
    exfalso. apply E. destruct H as [->| ->]; ring. }
  destruct (Req_dec (norm u) 0) as [U|U].
  { rewrite (Nn u v (or_introl U)), !Nn; [split; reflexivity|left; apply Q; lra|left; apply Q; lra]. }
  destruct (Req_dec (norm v) 0) as [W|W].
  { rewrite (Nn u v (or_intror W)), !Nn; [split; reflexivity|right; exact W|right; apply Q; lra]. }
  rewrite !angle_eq; try rewrite !map_length; try assumption;
    try (intro H; apply Q in H; [contradiction|lra]).
  rewrite !norm_scale, !dot_scale_l, !dot_scale_r. rewrite Rabs_Ropp, !Rabs_right by lra. split.
  - f_equal. f_equal. field. repeat split; lra || assumption.
  - cbn [option_map]. rewrite <- acos_opp. f_equal. f_equal. field. repeat split; lra || assumption.
Qed.
Print Assumptions C66_scale.
(** Parallel vectors give 0, opposite ones pi, orthogonal ones pi/2; conversely
    the angle is 0 only if they are parallel. *)
Theorem C66_special : forall u v, norm u <> 0 ->
  (forall k, 0 < k -> angle_between u (map (Rmult k) u) = Some 0) /\
  (forall k, 0 < k -> angle_between u (map (Rmult (- k)) u) = Some PI) /\
  (length u = length v -> norm v <> 0 -> (angle_between u v = Some (PI / 2) <-> dot u v = 0)) /\
  (length u = length v -> angle_between u v = Some 0 -> map (Rmult (norm v)) u = map (Rmult (norm u)) v).
Proof.
  intros u v U.
  assert (S : angle_between u u = Some 0).
  { rewrite angle_eq by (try reflexivity; assumption). rewrite <- norm_sq.
    replace (norm u ^ 2 / (norm u * norm u)) with 1 by (field; exact U). rewrite acos_1. reflexivity. }
  assert (M1 : map (Rmult 1) u = u).
  { rewrite <- (map_id u) at 2. apply map_ext. intro x. ring. }
  split; [|split; [|split]].
  - intros k K. rewrite <- M1 at 1. destruct (C66_scale u u 1 k eq_refl Rlt_0_1 K) as [H _]. rewrite H. exact S.
  - intros k K. destruct (C66_angle u (map (Rmult (- k)) u)) as [H _]; [rewrite map_length; reflexivity|]. rewrite H.
    destruct (C66_scale u u k 1 eq_refl K Rlt_0_1) as [_ H2]. rewrite H2, S. cbn. f_equal. ring.
  - intros L W. rewrite angle_eq by assumption. split.
    + intro H. injection H as H. destruct (C66_angle u v L) as [_ [_ H2]].
      destruct (H2 (PI / 2)) as [_ H3]; [rewrite angle_eq by assumption; f_equal; exact H|].
      rewrite H3, cos_PI2. ring.
    + intros ->. unfold Rdiv at 1. rewrite Rmult_0_l, acos_0. reflexivity.
  - intros L H. destruct (C66_angle u v L) as [_ [_ H2]]. destruct (H2 0 H) as [_ D]. rewrite cos_0, Rmult_1_r in D.
    assert (Z : forall x y, exists w, length w = length u /\
              map (Rmult x) u = map (fun p => fst p + snd p) (combine w (map (Rmult y) v)) /\
              dot w w = x ^ 2 * dot u u - 2 * x * y * dot u v + y ^ 2 * dot v v).
    { intros x y. clear - L. revert v L. induction u as [|p u IH]; intros [|q v] L; try discriminate.
      - exists []. split; [reflexivity|]. split; [reflexivity|]. cbn. ring.
      - injection L as L. destruct (IH v L) as [w [W1 [W2 W3]]]. exists ((x * p - y * q) :: w).
        split; [cbn; f_equal; exact W1|]. split.
        + cbn [map combine fst snd]. rewrite <- W2. f_equal. ring.
        + cbn [dot]. rewrite W3. ring. }
    destruct (Z (norm v) (norm u)) as [w [W1 [W2 W3]]].
    assert (W0 : dot w w = 0) by (rewrite W3, D, <- !norm_sq; ring).
    pose proof (dot_self_0 w W0) as A0. rewrite W2.
    assert (LL : length w = length (map (Rmult (norm u)) v)) by (rewrite map_length; congruence).
    revert LL A0. generalize (map (Rmult (norm u)) v). clear. induction w as [|x w IH]; intros [|y l] L A; try discriminate; [reflexivity|].
    cbn [combine map fst snd]. rewrite (A x (or_introl eq_refl)). f_equal; [ring|]. apply IH; [injection L; auto|].
    intros z I. apply A. right. exact I.
Qed.
Print Assumptions C66_special.
Example C66_example : angle_between [1; 0; 0] [0; 2; 0] = Some (PI / 2) /\ angle_between [1; 0] [0; 0] = None.
Proof.
  split.
  - apply C66_special.
    + unfold norm. cbn. replace (1 * 1 + (0 * 0 + (0 * 0 + 0))) with 1 by ring. rewrite sqrt_1. lra.
    + reflexivity.
    + unfold norm. cbn. replace (0 * 0 + (2 * 2 + (0 * 0 + 0))) with (2 ^ 2) by ring. rewrite sqrt_pow2; lra.
    + cbn. ring.
  - apply (C66_angle [1; 0] [0; 0] eq_refl). right. unfold norm. cbn.
    replace (0 * 0 + (0 * 0 + 0)) with 0 by ring. apply sqrt_0.
Qed.
