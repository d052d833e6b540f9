(** How accurate the conversion from Cartesian to geodetic coordinates is. *)
From Coq Require Import Reals List Bool Lra Psatz.
From Verif Require Import Common GeoModel GeoSpec GeoProofs AccProofs.
Import ListNotations.
Open Scope R_scope.

(** The ellipsoid of the shipped constants file
    (dedop/ui/data/config/CST.json:13-27), with the numbers as written there;
    the flattening is rounded, so it does not agree exactly with the axes. *)
Definition shipped_k : consts :=
  {| k_c := 299792458; k_pi := 31415926535897932 / 10 ^ 16; k_major := 6378137; k_minor := 63567523142 / 10 ^ 4;
     k_flat := 335281067183084 / 10 ^ 17; k_day := 86400 |}.

(** * C111: accuracy of the conversion *)

Lemma convert : forall k lat lon h, oblate k -> 0 <= k_flat k < 1 ->
  let v := lla2ecef k false (V lat lon h) in
  let a := k_major k in let q := k_minor k / a in let r := 1 - k_flat k in
  let N := N_of a q lat in
  let w := V ((N + h) * cos lat * cos lon) ((N + h) * cos lat * sin lon) ((N * q ^ 2 + h) * sin lat) in
  let la := lat_of a r w in
  v = w /\ vx (ecef2lla k v) = la /\
  (~ (Rabs (vx v) < 1 /\ Rabs (vy v) < 1) ->
   vz (ecef2lla k v) = sqrt (vx w ^ 2 + vy w ^ 2) / cos la - a / sqrt (1 - (1 - r ^ 2) * sin la ^ 2)).
Proof.
  intros k lat lon h O F v a q r N w la.
  assert (A : 0 < k_major k) by (destruct O; lra).
  assert (E : v = w) by (unfold v; rewrite lla2ecef_eq by exact O; reflexivity).
  split; [exact E|]. unfold ecef2lla. rewrite E, (raw_eq k w A F). cbv zeta. fold a r. fold la. split.
  - destruct (near_axis w); reflexivity.
  - intro NA. destruct (near_axis w) eqn:NE; [exfalso; apply NA, near_axis_spec; exact NE|]. reflexivity.
Qed.

Lemma gain_bound : forall a q h, 0 < a -> 9 / 10 <= q <= 1 -> 0 <= h ->
  let e2 := 1 - q ^ 2 in let kap := e2 * h / (q ^ 2 * (h + a * q ^ 2)) in
  0 < h + a * q ^ 2 - (1 - q ^ 2) * a / q /\ 0 <= kap <= 3 / 10 /\
  a / q * Rabs (q ^ 2 - q ^ 2) + Rabs h * (1 - q ^ 2) <= kap * (q ^ 2 * (h + a * q ^ 2)) /\
  lat_gain a q q h kap <= 4 * e2 ^ 3 * (h / (h + a)) ^ 2.
Proof.
  intros a q h A Q H e2 kap.
  assert (E : 0 <= e2 <= 19 / 100) by (unfold e2; split; nra).
  assert (Q2 : 81 / 100 <= q ^ 2 <= 1) by nra.
  assert (EQ : e2 / q <= 2112 / 10000) by (apply div_le; nra).
  assert (G : 5988 / 10000 * a <= h + a * q ^ 2 - e2 * a / q).
  { replace (e2 * a / q) with (a * (e2 / q)) by (field; lra). nra. }
  assert (D : 6561 / 10000 * (h + a) <= q ^ 2 * (h + a * q ^ 2)).
  { assert (81 / 100 * (h + a) <= h + a * q ^ 2) by nra. nra. }
  assert (DP : 0 < q ^ 2 * (h + a * q ^ 2)) by lra.
  set (t := h / (h + a)).
  assert (T : 0 <= t <= 1).
  { unfold t. split; [apply Rmult_le_pos; [lra|left; apply Rinv_0_lt_compat; lra]|apply div_le; lra]. }
  assert (HT : h = t * (h + a)) by (unfold t; field; lra).
  assert (K0 : 0 <= kap).
  { unfold kap. apply Rmult_le_pos; [nra|left; apply Rinv_0_lt_compat; exact DP]. }
  assert (K1 : kap <= 153 / 100 * e2 * t).
  { unfold kap. apply div_le; [exact DP|]. apply Rle_trans with (153 / 100 * e2 * t * (6561 / 10000 * (h + a))).
    - replace (153 / 100 * e2 * t * (6561 / 10000 * (h + a))) with (1003833 / 1000000 * (e2 * (t * (h + a)))) by field.
      rewrite <- HT. nra.
    - apply Rmult_le_compat_l; [|exact D]. nra. }
  assert (ET : 0 <= e2 * t <= 19 / 100) by nra.
  split; [unfold e2 in *; lra|]. split; [lra|]. split.
  { replace (q ^ 2 - q ^ 2) with 0 by ring. rewrite Rabs_R0, (Rabs_right h) by lra. fold e2. unfold kap. right. field. split; nra. }
  unfold lat_gain. replace (q ^ 2 - q ^ 2) with 0 by ring. rewrite Rabs_R0, Rmult_0_r, Rplus_0_r. fold e2 t.
  apply div_le; [unfold e2 in *; lra|].
  assert (IQ : 0 < / q <= 11112 / 10000).
  { split; [apply Rinv_0_lt_compat; lra|]. rewrite <- (Rmult_1_l (/ q)). apply div_le; lra. }
  assert (S1 : 3 / q * kap ^ 2 + kap ^ 3 <= 852 / 100 * (e2 * t) ^ 2).
  { assert (K2 : kap ^ 2 <= (153 / 100 * e2 * t) ^ 2) by (apply pow_incr; lra).
    assert (K3 : 0 <= kap ^ 2) by (apply pow2_ge_0).
    replace (3 / q * kap ^ 2 + kap ^ 3) with ((3 * / q + kap) * kap ^ 2) by (field; lra).
    apply Rle_trans with ((3 * (11112 / 10000) + 3 / 10) * (153 / 100 * e2 * t) ^ 2).
    - apply Rmult_le_compat; lra.
    - replace ((153 / 100 * e2 * t) ^ 2) with (23409 / 10000 * (e2 * t) ^ 2) by field. pose proof (pow2_ge_0 (e2 * t)). lra. }
  apply Rle_trans with (e2 * (a * (11112 / 10000)) * (852 / 100 * (e2 * t) ^ 2) / 4).
  - unfold Rdiv at 1. apply Rmult_le_compat_r; [lra|].
    assert (0 <= 3 / q * kap ^ 2 + kap ^ 3).
    { apply Rplus_le_le_0_compat; [apply Rmult_le_pos; [unfold Rdiv; lra|apply pow2_ge_0]|apply pow_le; exact K0]. }
    apply Rmult_le_compat; [apply Rmult_le_pos; [lra|unfold Rdiv; nra]|assumption| |exact S1].
    apply Rmult_le_compat_l; [lra|]. unfold Rdiv. apply Rmult_le_compat_l; lra.
  - apply Rle_trans with (4 * e2 ^ 3 * t ^ 2 * (5988 / 10000 * a)).
    + replace (e2 * (a * (11112 / 10000)) * (852 / 100 * (e2 * t) ^ 2) / 4) with (2366856 / 1000000 * (e2 ^ 3 * t ^ 2 * a)) by field.
      replace (4 * e2 ^ 3 * t ^ 2 * (5988 / 10000 * a)) with (23952 / 10000 * (e2 ^ 3 * t ^ 2 * a)) by field.
      assert (0 <= e2 ^ 3 * t ^ 2 * a) by (apply Rmult_le_pos; [apply Rmult_le_pos; [apply pow_le; lra|apply pow2_ge_0]|lra]). lra.
    + apply Rmult_le_compat_l; [|unfold e2 in *; lra]. apply Rmult_le_pos; [|apply pow2_ge_0]. apply Rmult_le_pos; [lra|apply pow_le; lra].
Qed.

(** The error of the latitude is of the third order in the square [e2] of the
    eccentricity, of the second in the altitude, and vanishes at the equator
    and towards the poles. *)
Theorem C111_latitude : forall k lat lon h, oblate k -> consistent k -> k_flat k <= 1 / 10 ->
  - (PI / 2) < lat < PI / 2 -> 0 <= h ->
  let e2 := 1 - (k_minor k / k_major k) ^ 2 in
  Rabs (vx (ecef2lla k (lla2ecef k false (V lat lon h))) - lat) <=
  Rabs (sin lat * cos lat) * (4 * e2 ^ 3 * (h / (h + k_major k)) ^ 2).
Proof.
  intros k lat lon h O C F L H e2. assert (A : 0 < k_major k) by (destruct O; lra).
  pose proof (quotient k O) as Q.
  assert (EQ : 1 - k_flat k = k_minor k / k_major k) by (rewrite C; field; lra).
  destruct (convert k lat lon h O ltac:(lra)) as [_ [E _]]. rewrite E. rewrite EQ. unfold e2. clear E e2.
  set (q := k_minor k / k_major k) in *.
  destruct (gain_bound (k_major k) q h A ltac:(lra) H) as [G [K [KH B]]].
  destruct (lat_error (k_major k) q q lat lon h _ A ltac:(lra) ltac:(lra) L G (proj1 K) KH) as [_ [_ [X [TX _]]]].
  eapply Rle_trans; [apply angle_le_tan; exact X|]. eapply Rle_trans; [exact TX|].
  apply Rmult_le_compat_l; [apply Rabs_pos|exact B].
Qed.
Print Assumptions C111_latitude.

(** The error of the altitude, everywhere outside the zone near the axis. *)
Theorem C111_altitude : forall k lat lon h, oblate k -> consistent k -> k_flat k <= 1 / 20 ->
  - (PI / 2) < lat < PI / 2 -> 0 <= h ->
  let v := lla2ecef k false (V lat lon h) in ~ (Rabs (vx v) < 1 /\ Rabs (vy v) < 1) ->
  let e2 := 1 - (k_minor k / k_major k) ^ 2 in
  Rabs (vz (ecef2lla k v) - h) <= 5 * e2 ^ 3 * (h ^ 2 / (h + k_major k)).
Proof.
  intros k lat lon h O C F L H v NA e2. assert (A : 0 < k_major k) by (destruct O; lra).
  pose proof (quotient k O) as Q.
  assert (EQ : 1 - k_flat k = k_minor k / k_major k) by (rewrite C; field; lra).
  destruct (convert k lat lon h O ltac:(lra)) as [_ [_ E]]. specialize (E NA); unfold v; rewrite E. clear E. rewrite EQ. unfold e2. clear e2.
  clear NA v. set (q := k_minor k / k_major k) in *. set (a := k_major k) in *.
  destruct (gain_bound a q h A ltac:(lra) H) as [G [K [KH B]]].
  set (kap := (1 - q ^ 2) * h / (q ^ 2 * (h + a * q ^ 2))) in *. set (e2 := 1 - q ^ 2) in *.
  assert (E2 : 0 <= e2 <= 975 / 10000) by (unfold e2; split; nra).
  set (t := h / (h + a)) in *.
  assert (T : 0 <= t <= 1).
  { unfold t. split; [apply Rmult_le_pos; [lra|left; apply Rinv_0_lt_compat; lra]|apply div_le; lra]. }
  assert (T2 : 0 <= t ^ 2 <= 1) by nra.
  assert (E3 : 0 <= e2 ^ 3 <= 1 / 1000).
  { split; [apply pow_le; lra|]. apply Rle_trans with ((975 / 10000) ^ 3); [apply pow_incr; lra|lra]. }
  set (g := lat_gain a q q h kap) in *.
  assert (GS : 4 * e2 ^ 3 * t ^ 2 <= 1 / 100) by nra.
  pose proof (alt_error a q q lat lon h kap A ltac:(lra) ltac:(lra) L G (proj1 K) KH ltac:(fold g; lra)) as AE.
  cbv zeta in AE. fold g in AE. eapply Rle_trans; [exact AE|]. clear AE.
  replace (q ^ 2 - q ^ 2) with 0 by ring. rewrite Rabs_R0, Rplus_0_r. fold e2.
  assert (HT : h = t * (h + a)) by (unfold t; field; lra).
  replace (h ^ 2 / (h + a)) with (t ^ 2 * (h + a)) by (unfold t; field; lra).
  assert (AQ : a / q <= 10527 / 10000 * a) by (apply div_le; nra).
  set (m := 4 * e2 ^ 3 * t ^ 2) in *.
  apply Rle_trans with ((a / q + h) * (21 / 20 * m) + a * (e2 * m)).
  - assert (0 <= a / q) by (apply Rmult_le_pos; [lra|left; apply Rinv_0_lt_compat; lra]).
    apply Rplus_le_compat; [apply Rmult_le_compat_l; lra|]. apply Rmult_le_compat_l; [lra|]. apply Rmult_le_compat_l; lra.
  - assert (M0 : 0 <= m) by (unfold m; apply Rmult_le_pos; lra).
    replace (5 * e2 ^ 3 * (t ^ 2 * (h + a))) with (125 / 100 * m * (h + a)) by (unfold m; field).
    assert (P1 : (a / q + h) * (21 / 20 * m) <= (10527 / 10000 * a + h) * (21 / 20 * m)) by (apply Rmult_le_compat_r; lra).
    assert (P2 : a * (e2 * m) <= a * (975 / 10000 * m)) by (apply Rmult_le_compat_l; [lra|]; apply Rmult_le_compat_r; lra).
    assert (P3 : 0 <= a * m) by (apply Rmult_le_pos; lra). assert (P4 : 0 <= h * m) by (apply Rmult_le_pos; lra). lra.
Qed.
Print Assumptions C111_altitude.

(** The conversion is never exact above the ellipsoid, but at the equator: on
    the northern hemisphere the latitude comes out too large. *)
Theorem C111_too_far_north : forall k lat lon h, oblate k -> consistent k -> 0 < k_flat k <= 1 / 10 ->
  0 < lat < PI / 2 -> 0 < h ->
  lat < vx (ecef2lla k (lla2ecef k false (V lat lon h))).
Proof.
  intros k lat lon h O C F L H. assert (A : 0 < k_major k) by (destruct O; lra).
  pose proof (quotient k O) as Q. pose proof PI_RGT_0.
  assert (EQ : 1 - k_flat k = k_minor k / k_major k) by (rewrite C; field; lra).
  destruct (convert k lat lon h O ltac:(lra)) as [_ [E _]]. rewrite E. rewrite EQ. clear E.
  set (q := k_minor k / k_major k) in *.
  destruct (gain_bound (k_major k) q h A ltac:(lra) ltac:(lra)) as [G [K [KH B]]].
  destruct (lat_error (k_major k) q q lat lon h _ A ltac:(lra) ltac:(lra) ltac:(lra) G (proj1 K) KH) as [_ [_ [_ [_ P]]]].
  assert (S : 0 < sin lat) by (apply sin_gt_0; lra).
  specialize (P eq_refl S H ltac:(lra) (proj2 K)). lra.
Qed.
Print Assumptions C111_too_far_north.

(** ** The shipped constants *)

Lemma shipped_oblate : oblate shipped_k.
Proof. unfold oblate, shipped_k. cbn [k_major k_minor]. lra. Qed.

Section Shipped.
Let a : R := 6378137.
Let q : R := 63567523142 / 10 ^ 4 / 6378137.
Let r : R := 1 - 335281067183084 / 10 ^ 17.

Lemma shipped_facts : 0 < a /\ 9966 / 10000 <= q <= 9967 / 10000 /\ 9966 / 10000 <= r <= 9967 / 10000 /\
  66943800 / 10 ^ 10 <= 1 - r ^ 2 <= 66943801 / 10 ^ 10 /\ Rabs (q ^ 2 - r ^ 2) <= 3 / 10 ^ 16 /\ 99330561 / 10 ^ 8 <= q ^ 2 /\ 99330561 / 10 ^ 8 <= r ^ 2.
Proof.
  unfold a, q, r. repeat split; try lra.
  apply Rabs_le. split; lra.
Qed.
Lemma shipped_gain : forall h kap K, -10000 <= h -> 0 <= kap -> kap <= 1 / 100 ->
  1 / 4 * (66943801 / 10 ^ 10 * (a * (10035 / 10000)) * ((30105 / 10000 + kap) * kap ^ 2)) + 2 * a * (3 / 10 ^ 16) <=
    K * (6282590) -> 0 <= K ->
  0 < h + a * q ^ 2 - (1 - r ^ 2) * a / r /\ lat_gain a q r h kap <= K.
Proof.
  intros h kap K H K0 K1 B KP. destruct shipped_facts as (A & Q & R & E & D & Q2 & R2).
  assert (IR : 0 < / r <= 10035 / 10000).
  { split; [apply Rinv_0_lt_compat; lra|]. rewrite <- (Rmult_1_l (/ r)). apply div_le; lra. }
  assert (AE : a = 6378137) by reflexivity.
  assert (G : 6282590 <= h + a * q ^ 2 - (1 - r ^ 2) * a / r).
  { assert (X : (1 - r ^ 2) * a / r <= 42844).
    { apply div_le; [lra|]. apply Rle_trans with (66943801 / 10 ^ 10 * a); [apply Rmult_le_compat_r; lra|].
      rewrite AE. apply Rle_trans with (42844 * (9966 / 10000)); lra. }
    assert (6335439 <= a * q ^ 2) by (rewrite AE; lra). lra. }
  split; [lra|]. unfold lat_gain. apply div_le; [lra|].
  apply Rle_trans with (K * 6282590); [|apply Rmult_le_compat_l; lra].
  eapply Rle_trans; [|exact B].
  assert (P : 0 <= kap ^ 2) by apply pow2_ge_0.
  assert (T2 : 2 * a * Rabs (q ^ 2 - r ^ 2) <= 2 * a * (3 / 10 ^ 16)) by (apply Rmult_le_compat_l; lra).
  assert (T1 : (1 - r ^ 2) * (a / r) * (3 / r * kap ^ 2 + kap ^ 3) <=
    66943801 / 10 ^ 10 * (a * (10035 / 10000)) * ((30105 / 10000 + kap) * kap ^ 2)).
  { replace (3 / r * kap ^ 2 + kap ^ 3) with ((3 * / r + kap) * kap ^ 2) by (field; lra).
    assert (0 <= a / r) by (apply Rmult_le_pos; lra).
    apply Rmult_le_compat.
    - apply Rmult_le_pos; lra.
    - apply Rmult_le_pos; lra.
    - apply Rmult_le_compat; try lra. unfold Rdiv. apply Rmult_le_compat_l; lra.
    - apply Rmult_le_compat_r; lra. }
  unfold Rdiv at 1. lra.
Qed.

Lemma shipped_kap : forall h kap, -10000 <= h -> Rabs h <= 1500000 -> 0 <= kap ->
  2 / 10 ^ 9 + Rabs h * (66943801 / 10 ^ 10) <= kap * (99330561 / 10 ^ 8 * (h + 6335439)) ->
  a / q * Rabs (q ^ 2 - r ^ 2) + Rabs h * (1 - r ^ 2) <= kap * (r ^ 2 * (h + a * q ^ 2)).
Proof.
  intros h kap H H2 K B. destruct shipped_facts as (A & Q & R & E & D & Q2 & R2).
  assert (AE : a = 6378137) by reflexivity.
  assert (6335439 <= a * q ^ 2) by (unfold a, q; lra).
  assert (AQ : a / q <= 6400000) by (apply div_le; [lra|]; rewrite AE; lra).
  assert (AQ0 : 0 <= a / q) by (apply Rmult_le_pos; [lra|left; apply Rinv_0_lt_compat; lra]).
  assert (X1 : a / q * Rabs (q ^ 2 - r ^ 2) <= 2 / 10 ^ 9).
  { apply Rle_trans with (6400000 * (3 / 10 ^ 16)); [|lra]. apply Rmult_le_compat; try lra. apply Rabs_pos. }
  assert (X2 : Rabs h * (1 - r ^ 2) <= Rabs h * (66943801 / 10 ^ 10)) by (apply Rmult_le_compat_l; [apply Rabs_pos|lra]).
  eapply Rle_trans; [apply Rplus_le_compat; [exact X1|exact X2]|]. eapply Rle_trans; [exact B|].
  apply Rmult_le_compat_l; [exact K|]. apply Rmult_le_compat; lra.
Qed.

Lemma shipped_error : forall lat lon h kap K, - (PI / 2) < lat < PI / 2 -> -10000 <= h -> Rabs h <= 1500000 ->
  0 <= kap -> kap <= 1 / 100 ->
  2 / 10 ^ 9 + Rabs h * (66943801 / 10 ^ 10) <= kap * (99330561 / 10 ^ 8 * (h + 6335439)) ->
  1 / 4 * (66943801 / 10 ^ 10 * (a * (10035 / 10000)) * ((30105 / 10000 + kap) * kap ^ 2)) + 2 * a * (3 / 10 ^ 16) <=
    K * (6282590) -> 0 <= K -> K <= 1 / 100 ->
  let v := lla2ecef shipped_k false (V lat lon h) in
  Rabs (vx (ecef2lla shipped_k v) - lat) <= K / 2 /\
  (~ (Rabs (vx v) < 1 /\ Rabs (vy v) < 1) ->
   Rabs (vz (ecef2lla shipped_k v) - h) <= (6400000 + Rabs h) * (21 / 20 * K) + 6378137 * (67 / 10000 * K + 3 / 10 ^ 16)).
Proof.
  intros lat lon h kap K L H H2 K0 K1 KK B KP KS v.
  destruct shipped_facts as (A & Q & R & E & D & Q2 & R2).
  destruct (shipped_gain h kap K H K0 K1 B KP) as [G LG].
  pose proof (shipped_kap h kap H H2 K0 KK) as KH.
  destruct (convert shipped_k lat lon h shipped_oblate) as [_ [EX EZ]]; [unfold shipped_k; cbn [k_flat]; lra|].
  split.
  - unfold v. rewrite EX. clear EX EZ. unfold shipped_k; cbn [k_major k_minor k_flat]. fold a q r.
    destruct (lat_error a q r lat lon h kap A ltac:(lra) ltac:(lra) L G K0 KH) as [_ [_ [X [TX _]]]].
    eapply Rle_trans; [apply angle_le_tan; exact X|]. eapply Rle_trans; [exact TX|].
    assert (SC : Rabs (sin lat * cos lat) <= 1 / 2).
    { pose proof (sin2_cos2 lat) as P. unfold Rsqr in P. pose proof (pow2_ge_0 (sin lat - cos lat)). pose proof (pow2_ge_0 (sin lat + cos lat)).
      apply Rabs_le. split; lra. }
    pose proof (Rabs_pos (sin lat * cos lat)) as SP.
    apply Rle_trans with (Rabs (sin lat * cos lat) * K); [apply Rmult_le_compat_l; assumption|].
    apply Rle_trans with (1 / 2 * K); [apply Rmult_le_compat_r; assumption|lra].
  - intro NA. specialize (EZ NA). unfold v. rewrite EZ. clear EX EZ NA v. unfold shipped_k; cbn [k_major k_minor k_flat]. fold a q r.
    eapply Rle_trans; [apply (alt_error a q r lat lon h kap A ltac:(lra) ltac:(lra) L G K0 KH)|]; [lra|].
    assert (AQ : a / q <= 6400000) by (apply div_le; [lra|]; unfold a; lra).
    assert (AQ0 : 6300000 <= a / q).
    { assert (a <= a / q); [|unfold a in *; lra]. unfold Rdiv. rewrite <- (Rmult_1_r a) at 1. apply Rmult_le_compat_l; [lra|].
      rewrite <- Rinv_1. apply Rinv_le_contravar; lra. }
    pose proof (Rle_abs h).
    assert (LG0 : 0 <= lat_gain a q r h kap).
    { unfold lat_gain. apply Rmult_le_pos; [|left; apply Rinv_0_lt_compat; exact G].
      assert (IR : 0 < / r) by (apply Rinv_0_lt_compat; lra).
      assert (0 <= 3 / r * kap ^ 2 + kap ^ 3).
      { apply Rplus_le_le_0_compat; [apply Rmult_le_pos; [unfold Rdiv; lra|apply pow2_ge_0]|apply pow_le; exact K0]. }
      assert (0 <= (1 - r ^ 2) * (a / r)) by (apply Rmult_le_pos; [lra|]; apply Rmult_le_pos; lra).
      assert (0 <= (1 - r ^ 2) * (a / r) * (3 / r * kap ^ 2 + kap ^ 3)) by (apply Rmult_le_pos; assumption).
      assert (0 <= 2 * a * Rabs (q ^ 2 - r ^ 2)) by (apply Rmult_le_pos; [lra|apply Rabs_pos]). lra. }
    apply Rplus_le_compat.
    + apply Rmult_le_compat; lra.
    + change 6378137 with a. apply Rmult_le_compat_l; [lra|]. apply Rplus_le_compat; [|exact D]. apply Rmult_le_compat; lra.
Qed.
End Shipped.

(** With the shipped constants, up to an altitude of 1500 km: within 5 billionths
    of a radian (3.2 cm on the ground) and 10 cm of altitude. *)
Theorem C111_satellite : forall lat lon h, - (PI / 2) < lat < PI / 2 -> 0 <= h <= 1500000 ->
  let v := lla2ecef shipped_k false (V lat lon h) in
  Rabs (vx (ecef2lla shipped_k v) - lat) <= 5 / 10 ^ 9 /\
  (~ (Rabs (vx v) < 1 /\ Rabs (vy v) < 1) -> Rabs (vz (ecef2lla shipped_k v) - h) <= 1 / 10).
Proof.
  intros lat lon h L H.
  assert (AH : Rabs h = h) by (apply Rabs_right; lra).
  destruct (shipped_error lat lon h (13 / 10000) (9 / 10 ^ 9) L) as [X Y]; rewrite ?AH; try lra.
Qed.
Print Assumptions C111_satellite.

(** For points within 10 km of the ellipsoid, as the surfaces are: within a
    picoradian and 5 micrometres. *)
Theorem C111_ground : forall lat lon h, - (PI / 2) < lat < PI / 2 -> Rabs h <= 10000 ->
  let v := lla2ecef shipped_k false (V lat lon h) in
  Rabs (vx (ecef2lla shipped_k v) - lat) <= 1 / 10 ^ 12 /\
  (~ (Rabs (vx v) < 1 /\ Rabs (vy v) < 1) -> Rabs (vz (ecef2lla shipped_k v) - h) <= 5 / 10 ^ 6).
Proof.
  intros lat lon h L H.
  assert (HB : -10000 <= h). { pose proof (Rle_abs (- h)). rewrite Rabs_Ropp in *. lra. }
  destruct (shipped_error lat lon h (11 / 10 ^ 6) (7 / 10 ^ 13) L) as [X Y]; try lra.
Qed.
Print Assumptions C111_ground.

(** The shipped flattening does not agree with the shipped axes exactly. *)
Theorem C111_shipped_inconsistent : ~ consistent shipped_k /\
  Rabs (k_flat shipped_k - (k_major shipped_k - k_minor shipped_k) / k_major shipped_k) <= 2 / 10 ^ 16.
Proof.
  unfold consistent, shipped_k. cbn [k_flat k_major k_minor]. split; [lra|]. apply Rabs_le. lra.
Qed.
Print Assumptions C111_shipped_inconsistent.
Definition tenth_k : consts := {| k_c := 1; k_pi := PI; k_major := 10; k_minor := 9; k_flat := 1 / 10; k_day := 1 |}.
Example C111_example : oblate tenth_k /\ consistent tenth_k /\ 0 < k_flat tenth_k <= 1 / 10 /\
  PI / 4 < vx (ecef2lla tenth_k (lla2ecef tenth_k false (V (PI / 4) 1 5))) /\
  (let v := lla2ecef shipped_k false (V 0 0 700000) in v = V 7078137 0 0 /\ ~ (Rabs (vx v) < 1 /\ Rabs (vy v) < 1)).
Proof.
  pose proof PI_RGT_0.
  assert (O : oblate tenth_k) by (unfold oblate, tenth_k; cbn [k_major k_minor]; lra).
  assert (C : consistent tenth_k) by (unfold consistent, tenth_k; cbn [k_major k_minor k_flat]; lra).
  assert (F : 0 < k_flat tenth_k <= 1 / 10) by (unfold tenth_k; cbn [k_flat]; lra).
  split; [exact O|]. split; [exact C|]. split; [exact F|]. split; [apply C111_too_far_north; try assumption; lra|].
  cbv zeta.
  assert (E : lla2ecef shipped_k false (V 0 0 700000) = V 7078137 0 0).
  { rewrite lla2ecef_eq by exact shipped_oblate. unfold N_of. rewrite sin_0, cos_0. unfold shipped_k; cbn [k_major k_minor].
    match goal with |- context [sqrt ?e] => replace e with 1 by ring end. rewrite sqrt_1. f_equal; field. }
  rewrite E. split; [reflexivity|]. cbn [vx vy]. intros [A _]. rewrite Rabs_right in A by lra. lra.
Qed.
