(** Properties of the conversion from Cartesian to geodetic coordinates by
    iteration. *)
From Coq Require Import Reals List Bool Lra Lia Psatz.
From Verif Require Import Common GeoModel GeoSpec GeoProofs AccProofs AccProps IterModel IterSpec IterProofs IterConv.
Import ListNotations.
Open Scope R_scope.

(** * C125: the conversion by iteration *)

(** On the axis of the Earth the answer is exact, on both sides. *)
Theorem C125_axis : forall k z, earthlike k -> k_pi k = PI -> z <> 0 ->
  exists lla, ecef2lla_iterative k (V 0 0 z) = Located lla /\ denotes (k_major k) (polar k) lla (V 0 0 z).
Proof.
  intros k z [A F] PIe Z. unfold ecef2lla_iterative, on_axis. cbn [vx vy vz].
  assert (B : 0 < polar k) by (unfold polar; nra).
  destruct (Req_EM_T 0 0) as [_|N]; [|contradiction]. rewrite PIe.
  destruct (Rlt_dec 0 z) as [P|P]; [|destruct (Rlt_dec z 0) as [M|M]; [|lra]].
  - eexists. split; [reflexivity|]. exists (V 0 0 (polar k)), (2 / polar k). unfold on_ellipsoid, gradient, zenith, vscale, vadd. cbn [vx vy vz].
    rewrite cos_PI2, sin_PI2, sin_0, cos_0. rewrite Rabs_right by lra.
    split; [field; split; lra|]. split; [apply Rdiv_lt_0_compat; lra|]. fold (polar k).
    split; f_equal; try (field; lra); try ring.
  - eexists. split; [reflexivity|]. exists (V 0 0 (- polar k)), (2 / polar k). unfold on_ellipsoid, gradient, zenith, vscale, vadd. cbn [vx vy vz].
    replace (- PI / 2) with (- (PI / 2)) by field. rewrite cos_neg, sin_neg, cos_PI2, sin_PI2, sin_0, cos_0. rewrite Rabs_left by lra.
    split; [field; split; lra|]. split; [apply Rdiv_lt_0_compat; lra|]. fold (polar k).
    split; f_equal; try (field; lra); try ring.
Qed.
Print Assumptions C125_axis.

(** Only the centre of the Earth is refused. *)
Theorem C125_centre : forall k v, ecef2lla_iterative k v = Centre <-> v = V 0 0 0.
Proof.
  intros k [x y z]. unfold ecef2lla_iterative, on_axis. cbn [vx vy vz].
  assert (Off : off_axis k (V x y z) <> Centre).
  { unfold off_axis. destruct (loop k (V x y z)) as [[[? ?]|]|]; discriminate. }
  destruct (Req_EM_T x 0) as [X|X]; [destruct (Req_EM_T y 0) as [Y|Y]|].
  - subst. destruct (Rlt_dec 0 z) as [P|P]; [split; [discriminate|intros H; injection H as H; lra]|].
    destruct (Rlt_dec z 0) as [M|M]; [split; [discriminate|intros H; injection H as H; lra]|].
    split; [intros _; f_equal; lra|reflexivity].
  - split; [contradiction|intros H; injection H as H1 H2 H3; contradiction].
  - split; [contradiction|intros H; injection H as H1 H2 H3; contradiction].
Qed.
Print Assumptions C125_centre.

(** The longitude is the right one, for every point off the axis. *)
Theorem C125_longitude : forall k v lla, k_pi k = PI -> (vx v, vy v) <> (0, 0) -> ecef2lla_iterative k v = Located lla ->
  let p := sqrt (vx v ^ 2 + vy v ^ 2) in
  - PI < vy lla <= PI /\ vx v = p * cos (vy lla) /\ vy v = p * sin (vy lla).
Proof.
  intros k v lla PIe O E p. pose proof PI_RGT_0 as PP.
  assert (L : vy lla = longitude k (vx v) (vy v)).
  { unfold ecef2lla_iterative in E. assert (off_axis k v = Located lla) as H.
    { destruct (Req_EM_T (vx v) 0) as [X|X]; [destruct (Req_EM_T (vy v) 0) as [Y|Y]|]; try exact E.
      rewrite X, Y in O. contradiction. }
    unfold off_axis in H. destruct (loop k v) as [[[s n]|]|]; try discriminate. injection H as <-. reflexivity. }
  rewrite L. unfold longitude. destruct (Req_EM_T (vx v) 0) as [X|X].
  - unfold p. rewrite X in *. destruct (Req_EM_T (vy v) 0) as [Y|Y]; [rewrite Y in O; contradiction|].
    replace (0 ^ 2 + vy v ^ 2) with (vy v ^ 2) by ring. rewrite PIe.
    destruct (Rlt_dec 0 (vy v)) as [P|P].
    + rewrite sqrt_pow2 by lra. rewrite cos_PI2, sin_PI2. repeat split; lra.
    + destruct (Rlt_dec (vy v) 0) as [M|M]; [|lra]. replace (vy v ^ 2) with ((- vy v) ^ 2) by ring.
      rewrite sqrt_pow2 by lra. replace (- PI / 2) with (- (PI / 2)) by field. rewrite cos_neg, sin_neg, cos_PI2, sin_PI2.
      repeat split; lra.
  - destruct (atan2_polar (vy v) (vx v) O) as (H1 & H2 & H3). fold p in H1, H2. split; [exact H3|]. split; symmetry; assumption.
Qed.
Print Assumptions C125_longitude.

(** Every point around the Earth is located: ten iterations are enough and
    nothing is divided by zero. *)
Theorem C125_located : forall k v, earthlike k -> around k v -> exists lla, ecef2lla_iterative k v = Located lla.
Proof.
  intros k v K Ar. destruct (loop_settles k v K Ar) as (t & c & E). pose proof (proj1 Ar) as O.
  assert (exists lla, off_axis k v = Located lla) as [lla H].
  { unfold off_axis. rewrite E. eexists. reflexivity. }
  exists lla. unfold ecef2lla_iterative.
  destruct (Req_EM_T (vx v) 0) as [X|X]; [destruct (Req_EM_T (vy v) 0) as [Y|Y]|]; try exact H.
  rewrite X, Y in O. contradiction.
Qed.
Print Assumptions C125_located.

(** Over the equator the answer is exact. *)
Theorem C125_equator : forall k v, earthlike k -> k_pi k = PI -> vz v = 0 -> 9 / 10 * k_major k <= sqrt (sq v) ->
  exists lla, ecef2lla_iterative k v = Located lla /\ denotes (k_major k) (polar k) lla v.
Proof.
  intros k v K PIe Z R1.
  assert (O : (vx v, vy v) <> (0, 0)).
  { intros H. injection H as X Y. unfold sq in R1. rewrite X, Y, Z in R1.
    replace (0 ^ 2 + 0 ^ 2 + 0 ^ 2) with 0 in R1 by ring. rewrite sqrt_0 in R1. destruct K. lra. }
  pose proof (hyp_pos v O) as P. pose proof (hyp_eq v) as HE. pose proof (ecc_range k K) as E2. pose proof (proj1 K) as A.
  set (p := sqrt (vx v ^ 2 + vy v ^ 2)) in *. set (a := k_major k) in *.
  assert (Pr : p = sqrt (sq v)) by (rewrite <- HE, Z; replace (p ^ 2 + 0 ^ 2) with (p ^ 2) by ring; rewrite sqrt_pow2 by lra; reflexivity).
  assert (La : forall u, la p 0 u = 0) by (intros u; unfold la, Rdiv; rewrite Rmult_0_l; apply atan_0).
  assert (Once : forall alt, once k p 0 (St a 0 alt) = Some (St a 0 (p - a))).
  { intros alt. unfold once. cbn [s_lat s_x0]. rewrite sin_0, cos_0. fold a.
    replace (1 - ecc_sqr k * (0 * 0)) with 1 by ring. rewrite sqrt_1.
    replace (a / 1) with a by field. replace (p / 1) with p by field.
    rewrite (latitude_eq k p 0 P a (p - a) (ecc_sqr k * a / (a + (p - a)))); [rewrite La; reflexivity|lra|reflexivity|].
    replace (a + (p - a)) with p by ring. apply div_le; [exact P|]. rewrite Pr. nra. }
  assert (L : exists n, loop k v = Some (Some (St a 0 (p - a), n))).
  { unfold loop. cbv zeta. fold p. destruct (start_eq k v K O R1) as (u & alt & -> & _ & _). fold p a.
    rewrite Z. unfold state_of. rewrite La.
    change (rounds coord_iters k p 0 (St a 0 alt) 0) with
      (match once k p 0 (St a 0 alt) with
       | None => None
       | Some t => if settled k (St a 0 alt) t then Some (Some (t, 1%nat)) else rounds 9 k p 0 t 1
       end).
    rewrite Once. destruct (settled _ _ _); [eexists; reflexivity|].
    change (rounds 9 k p 0 (St a 0 (p - a)) 1) with
      (match once k p 0 (St a 0 (p - a)) with
       | None => None
       | Some t => if settled k (St a 0 (p - a)) t then Some (Some (t, 2%nat)) else rounds 8 k p 0 t 2
       end).
    rewrite Once. replace (settled _ _ _) with true; [eexists; reflexivity|].
    unfold settled. cbn [s_lat s_alt]. rewrite !Rminus_eq_0, Rabs_R0. unfold geodetic_err.
    destruct (Rlt_dec 0 (1 / 10 ^ 9)) as [_|N]; [|exfalso; apply N; lra].
    destruct (Rlt_dec (0 / k_major k) (1 / 10 ^ 9)) as [_|N]; [reflexivity|exfalso; apply N]. unfold Rdiv at 1. rewrite Rmult_0_l. lra. }
  destruct L as [n L].
  assert (E : ecef2lla_iterative k v = Located (V 0 (longitude k (vx v) (vy v)) (p - a))).
  { assert (H : off_axis k v = Located (V 0 (longitude k (vx v) (vy v)) (p - a))) by (unfold off_axis; rewrite L; reflexivity).
    unfold ecef2lla_iterative. destruct (Req_EM_T (vx v) 0) as [X|X]; [destruct (Req_EM_T (vy v) 0) as [Y|Y]|]; try exact H.
    rewrite X, Y in O. contradiction. }
  eexists. split; [exact E|].
  destruct (C125_longitude k v _ PIe O E) as (_ & H1 & H2). cbn [vy] in H1, H2. fold p in H1, H2.
  set (lon := longitude k (vx v) (vy v)) in *.
  assert (B : 0 < polar k) by (unfold polar; fold a; destruct K; nra).
  exists (V (a * cos lon) (a * sin lon) 0), (2 / a). unfold on_ellipsoid, gradient, zenith, vscale, vadd. cbn [vx vy vz].
  rewrite sin_0, cos_0. pose proof (sin2_cos2 lon) as S.
  split; [replace ((a * cos lon) ^ 2 / a ^ 2 + (a * sin lon) ^ 2 / a ^ 2 + 0 ^ 2 / polar k ^ 2) with (sin lon ^ 2 + cos lon ^ 2) by (field; lra); exact S|].
  split; [apply Rdiv_lt_0_compat; lra|]. split; [f_equal; field; lra|].
  destruct v as [x y z]. cbn [vx vy vz] in *. f_equal; [rewrite H1|rewrite H2|rewrite Z]; ring.
Qed.
Print Assumptions C125_equator.

(** The error of the answer after [n] iterations falls like the [n]-th power of
    the squared eccentricity; the altitude is one iteration behind. *)
Theorem C125_bound : forall k lat lon h v s n, earthlike k -> denotes (k_major k) (polar k) (V lat lon h) v ->
  - (PI / 2) < lat < PI / 2 -> - k_major k / 20 <= h -> loop k v = Some (Some (s, S n)) ->
  let q := 13 / 5 * eccentric k in
  (S n <= 10)%nat /\
  Rabs (s_lat s - lat) <= 2 / 3 * eccentric k * q ^ S n /\
  Rabs (s_alt s - h) <= 6 / 5 * eccentric k * (109 / 100 * sqrt (sq v) + k_major k) * q ^ n.
Proof.
  intros k lat lon h v s n K D L H E q. unfold q. clear q. rewrite eccentric_eq.
  destruct (stays k lat lon h v K D L H) as (O & R1 & Ok & U & N & X & La & W).
  pose proof (hyp_pos v O) as P. pose proof (hyp_eq v) as HE. pose proof (ecc_range k K) as E2. pose proof (proj1 K) as A.
  set (p := sqrt (vx v ^ 2 + vy v ^ 2)) in *.
  set (ns := k_major k / sqrt (1 - ecc_sqr k * sin lat ^ 2)) in *. set (us := ecc_sqr k * ns / (ns + h)) in *.
  unfold loop in E. cbv zeta in E. destruct (start_eq k v K O R1) as (u & alt & Es & Uu & Ou). rewrite Es in E. fold p in E.
  rewrite <- HE in R1 |- *.
  destruct (nn_range _ _ p (vz v) A E2 P us (proj1 Ok)) as [N1 N2]. rewrite N in N1, N2.
  assert (Ap : apart (k_major k) (k_major k) u ns us (6 / 5 * ecc_sqr k)).
  { split; [apply Rabs_le; lra|]. rewrite Rabs_minus_sym, Rabs_right by lra. nra. }
  destruct (rounds_near k p (vz v) K P R1 ns us Ok (eq_sym N) (eq_sym X) coord_iters _ _ _ 0 _ s (S n) Ou Ap E) as (j & [J1 J2] & B1 & B2).
  cbn [Nat.add] in J1. injection J1 as <-. unfold coord_iters in J2. split; [exact J2|].
  rewrite La in B1. rewrite W in B2.
  assert (Q : 0 <= (13 / 5 * ecc_sqr k) ^ S n) by (apply pow_le; lra).
  split.
  - eapply Rle_trans; [exact B1|]. apply Rmult_le_compat_r; [exact Q|lra].
  - eapply Rle_trans; [exact B2|]. right. ring.
Qed.
Print Assumptions C125_bound.

(** With the shipped constants, up to 1500 km, four iterations give the
    altitude to a metre and five to two centimetres. *)
Theorem C125_shipped : forall lat lon h v s n, denotes (k_major shipped_k) (polar shipped_k) (V lat lon h) v ->
  - (PI / 2) < lat < PI / 2 -> - 300000 <= h -> sqrt (sq v) <= 8000000 -> loop shipped_k v = Some (Some (s, n)) ->
  ((4 <= n)%nat -> Rabs (s_lat s - lat) <= 1 / 10 ^ 9 /\ Rabs (s_alt s - h) <= 1) /\
  ((5 <= n)%nat -> Rabs (s_lat s - lat) <= 1 / 10 ^ 11 /\ Rabs (s_alt s - h) <= 2 / 100).
Proof.
  intros lat lon h v s n D L H Rv E.
  assert (K : earthlike shipped_k) by (unfold earthlike, shipped_k; cbn [k_major k_flat]; lra).
  assert (H' : - k_major shipped_k / 20 <= h) by (unfold shipped_k; cbn [k_major]; lra).
  assert (Ee : 0 <= eccentric shipped_k <= 67 / 10000) by (unfold eccentric, shipped_k; cbn [k_flat]; lra).
  assert (A : k_major shipped_k = 6378137) by reflexivity.
  pose proof (sqrt_pos (sq v)) as Sv.
  assert (Main : forall m c, (S m <= n)%nat -> 0 <= c -> (13 / 5 * (67 / 10000)) ^ m <= c ->
    Rabs (s_lat s - lat) <= 2 / 3 * (67 / 10000) * (13 / 5 * (67 / 10000)) * c /\
    Rabs (s_alt s - h) <= 6 / 5 * (67 / 10000) * (109 / 100 * 8000000 + 6378137) * c).
  { intros m c Hm Hc Hp. destruct n as [|n]; [lia|].
    destruct (C125_bound shipped_k lat lon h v s n K D L H' E) as (_ & B1 & B2). rewrite A in B2.
    set (e := eccentric shipped_k) in *.
    assert (Q : 0 <= (13 / 5 * e) ^ n <= c).
    { split; [apply pow_le; lra|]. apply Rle_trans with ((13 / 5 * e) ^ m).
      - replace n with (m + (n - m))%nat by lia. rewrite pow_add. assert (0 <= (13 / 5 * e) ^ m) by (apply pow_le; lra).
        assert ((13 / 5 * e) ^ (n - m) <= 1) by (rewrite <- (pow1 (n - m)); apply pow_incr; lra).
        nra.
      - eapply Rle_trans; [|exact Hp]. apply pow_incr. lra. }
    split.
    - eapply Rle_trans; [exact B1|]. cbn [pow]. rewrite <- Rmult_assoc. apply Rmult_le_compat; try lra; [|].
      + apply Rmult_le_pos; lra.
      + apply Rmult_le_compat; lra.
    - eapply Rle_trans; [exact B2|]. apply Rmult_le_compat; try lra.
      + apply Rmult_le_pos; lra.
      + apply Rmult_le_compat; lra. }
  split; intros Hn.
  - destruct (Main 3%nat (53 / 10 ^ 7)) as [M1 M2]; [lia|lra|lra|]. split; lra.
  - destruct (Main 4%nat (93 / 10 ^ 9)) as [M1 M2]; [lia|lra|lra|]. split; lra.
Qed.
Print Assumptions C125_shipped.

(** The answer is not always near: at one latitude the first test already holds,
    because the altitude is computed with the radius of curvature of the
    equator, and the answer is off by kilometres. *)
Lemma first_test : forall k, earthlike k -> 0 < k_flat k ->
  let f := k_flat k in let lat := asin (sqrt (f / (1 - (1 - f) ^ 4))) in
  let v := V (k_major k * cos lat) 0 (k_major k * ((1 - f) ^ 2 * sin lat)) in
  1 / 4 <= sin lat ^ 2 /\ - (PI / 2) < lat < PI / 2 /\ around k v /\
  ecef2lla_iterative k v = Located (V lat 0 0).
Proof.
  intros k K F0 f lat v. destruct K as [A F]. fold f in F, F0. set (a := k_major k) in *.
  set (d := 1 - (1 - f) ^ 4). assert (D : 0 < d <= 4 * f /\ 3 * f <= d) by (unfold d; nra).
  assert (Q : 1 / 4 <= f / d <= 1 / 3).
  { split; [|apply div_le; lra]. apply (Rmult_le_reg_r d); [lra|]. unfold Rdiv at 2. rewrite Rmult_assoc, Rinv_l by lra. lra. }
  pose proof (pow2_sqrt (f / d) ltac:(lra)) as Sq. pose proof (sqrt_pos (f / d)) as S0.
  assert (S1 : sqrt (f / d) < 1) by nra.
  assert (Sin : sin lat = sqrt (f / d)) by (unfold lat; fold d; apply sin_asin; lra).
  assert (Rg : - (PI / 2) < lat < PI / 2) by (unfold lat; fold d; apply asin_bound_lt; lra).
  assert (C : 0 < cos lat) by (apply cos_gt_0; lra).
  pose proof (sin2_cos2 lat) as SC. pose proof PI_RGT_0 as PP.
  assert (S2 : sin lat ^ 2 = f / d) by (rewrite Sin; exact Sq).
  assert (Hsq : sq v = a ^ 2 * (1 - f)).
  { unfold sq, v. cbn [vx vy vz].
    replace ((a * cos lat) ^ 2 + 0 ^ 2 + (a * ((1 - f) ^ 2 * sin lat)) ^ 2) with (a ^ 2 * (cos lat ^ 2 + (1 - f) ^ 4 * sin lat ^ 2)) by ring.
    f_equal. replace (cos lat ^ 2) with (1 - sin lat ^ 2) by lra. rewrite S2. unfold d. field. unfold d in D. lra. }
  assert (Hr : sqrt (sq v) = a * sqrt (1 - f)) by (rewrite Hsq, sqrt_mult by nra; rewrite sqrt_pow2 by lra; reflexivity).
  assert (Q1 : 99 / 100 <= sqrt (1 - f) <= 1).
  { pose proof (sqrt_pos (1 - f)). pose proof (pow2_sqrt (1 - f) ltac:(lra)). nra. }
  assert (PC : 0 < a * cos lat) by nra.
  assert (O : (vx v, vy v) <> (0, 0)) by (intros Z; injection Z as Z; lra).
  split; [lra|]. split; [exact Rg|]. split; [split; [exact O|]; rewrite Hr; fold a; nra|].
  assert (Pe : sqrt (vx v ^ 2 + vy v ^ 2) = a * cos lat).
  { unfold v. cbn [vx vy]. replace ((a * cos lat) ^ 2 + 0 ^ 2) with ((a * cos lat) ^ 2) by ring. apply sqrt_pow2. lra. }
  assert (Lat : forall xn, 0 < xn -> latitude k (a * cos lat) (vz v) xn 0 = Some lat).
  { intros xn X. rewrite (latitude_eq k _ (vz v) PC xn 0 (ecc_sqr k)); [|lra|field; lra|unfold ecc_sqr; fold f; nra].
    f_equal. unfold la. transitivity (atan (tan lat)); [|apply atan_tan; lra]. f_equal. unfold v, tan, ecc_sqr. cbn [vz]. fold f. field. repeat split; nra. }
  assert (Start : start k v = Some (St a lat 0)).
  { unfold start. cbv zeta. rewrite Pe. change (vx v ^ 2 + vy v ^ 2 + vz v ^ 2) with (sq v). rewrite Hr. fold a f.
    replace (a * sqrt (1 - f) - a * sqrt (1 - f)) with 0 by ring. rewrite Lat by exact A. reflexivity. }
  assert (L : exists x, loop k v = Some (Some (St x lat 0, 1%nat))).
  { unfold loop. cbv zeta. rewrite Start, Pe.
    change (rounds coord_iters k (a * cos lat) (vz v) (St a lat 0) 0) with
      (match once k (a * cos lat) (vz v) (St a lat 0) with
       | None => None
       | Some t => if settled k (St a lat 0) t then Some (Some (t, 1%nat)) else rounds 9 k (a * cos lat) (vz v) t 1
       end).
    unfold once. cbn [s_lat s_x0]. cbv zeta. replace (a * cos lat / cos lat - a) with 0 by (field; lra).
    rewrite Lat.
    - replace (settled _ _ _) with true; [eexists; reflexivity|].
      unfold settled. cbn [s_lat s_alt]. rewrite !Rminus_eq_0, Rabs_R0. unfold geodetic_err.
      destruct (Rlt_dec 0 (1 / 10 ^ 9)) as [_|N]; [|exfalso; apply N; lra].
      destruct (Rlt_dec (0 / k_major k) (1 / 10 ^ 9)) as [_|N]; [reflexivity|exfalso; apply N]. unfold Rdiv at 1. rewrite Rmult_0_l. lra.
    - apply Rdiv_lt_0_compat; [exact A|]. apply sqrt_lt_R0.
      replace (sin lat * sin lat) with (sin lat ^ 2) by ring. rewrite S2. unfold ecc_sqr. fold f. nra. }
  destruct L as [x L].
  assert (Lo : longitude k (vx v) (vy v) = 0).
  { unfold longitude, v. cbn [vx vy]. destruct (Req_EM_T (a * cos lat) 0) as [Z|Z]; [lra|].
    unfold atan2. destruct (Rlt_dec 0 (a * cos lat)) as [_|N]; [|contradiction]. unfold Rdiv. rewrite Rmult_0_l. apply atan_0. }
  unfold ecef2lla_iterative. destruct (Req_EM_T (vx v) 0) as [X|X]; [exfalso; unfold v in X; cbn [vx] in X; lra|].
  unfold off_axis. rewrite L, Lo. reflexivity.
Qed.

Theorem C125_near_refuted : exists v lla, around shipped_k v /\ ecef2lla_iterative shipped_k v = Located lla /\
  forall w, denotes (k_major shipped_k) (polar shipped_k) lla w -> 5000 < distance v w.
Proof.
  assert (K : earthlike shipped_k) by (unfold earthlike, shipped_k; cbn [k_major k_flat]; lra).
  assert (F0 : 0 < k_flat shipped_k) by (unfold shipped_k; cbn [k_flat]; lra).
  pose proof (first_test shipped_k K F0) as H. cbv zeta in H.
  set (lat := asin _) in H. destruct H as (S & Rg & Ar & E).
  eexists _, _. split; [exact Ar|]. split; [exact E|]. intros w D.
  pose proof (denoted shipped_k lat 0 0 w K D) as W. cbv zeta in W.
  assert (Ee : 669 / 100000 <= ecc_sqr shipped_k <= 67 / 10000) by (unfold ecc_sqr, shipped_k; cbn [k_flat]; lra).
  assert (E1 : (1 - k_flat shipped_k) ^ 2 = 1 - ecc_sqr shipped_k) by (unfold ecc_sqr; ring).
  rewrite E1. change (k_major shipped_k) with 6378137 in *. set (e := ecc_sqr shipped_k) in *.
  assert (C : 0 < cos lat) by (apply cos_gt_0; lra). pose proof (sin2_cos2 lat) as SC.
  assert (S' : sin lat ^ 2 <= 1) by nra.
  set (g := 1 - e * sin lat ^ 2) in *. assert (G : 9 / 10 <= g <= 1 - 669 / 400000) by (unfold g; nra).
  pose proof (sqrt_pos g) as Q0. pose proof (pow2_sqrt g ltac:(lra)) as Q. set (q := sqrt g) in *.
  assert (Qr : 9 / 10 <= q <= 1 - 669 / 800000) by nra.
  set (n := 6378137 / q) in *.
  assert (N : 6378137 + 5330 <= n).
  { unfold n. apply (Rmult_le_reg_r q); [lra|]. unfold Rdiv. rewrite Rmult_assoc, Rinv_l by lra. lra. }
  unfold distance. rewrite W. cbn [vx vy vz]. rewrite sin_0, cos_0.
  apply Rlt_le_trans with (sqrt ((5330 * (1 - 67 / 10000)) ^ 2)).
  - rewrite sqrt_pow2 by lra. lra.
  - apply sqrt_le_1_alt.
    replace ((6378137 * cos lat - (n + 0) * cos lat * 1) ^ 2 + (0 - (n + 0) * cos lat * 0) ^ 2 +
             (6378137 * ((1 - e) * sin lat) - (n * (1 - e) + 0) * sin lat) ^ 2)
      with ((n - 6378137) ^ 2 * (cos lat ^ 2 + (1 - e) ^ 2 * sin lat ^ 2)) by ring.
    assert ((1 - 67 / 10000) ^ 2 <= cos lat ^ 2 + (1 - e) ^ 2 * sin lat ^ 2).
    { replace (cos lat ^ 2) with (1 - sin lat ^ 2) by lra. assert ((1 - 67 / 10000) ^ 2 <= (1 - e) ^ 2 <= 1) by nra.
      assert (0 <= sin lat ^ 2) by nra. nra. }
    assert (5330 ^ 2 <= (n - 6378137) ^ 2) by nra.
    replace ((5330 * (1 - 67 / 10000)) ^ 2) with (5330 ^ 2 * (1 - 67 / 10000) ^ 2) by ring.
    apply Rmult_le_compat; try assumption; apply pow2_ge_0.
Qed.
Print Assumptions C125_near_refuted.

(** Points off and on the axis, over the equator and elsewhere *)
Example C125_example :
  earthlike shipped_k /\ around shipped_k (V 4510731 0 4510731) /\
  denotes (k_major shipped_k) (polar shipped_k) (V 0 0 700000) (V 7078137 0 0) /\
  exists s n, loop shipped_k (V 7078137 0 0) = Some (Some (s, S n)).
Proof.
  assert (K : earthlike shipped_k) by (unfold earthlike, shipped_k; cbn [k_major k_flat]; lra).
  assert (B : 0 < polar shipped_k) by (unfold polar, shipped_k; cbn [k_major k_flat]; lra).
  split; [exact K|]. split.
  - split; [intros H; injection H as H; lra|]. unfold sq. cbn [vx vy vz]. change (k_major shipped_k) with 6378137.
    split.
    + rewrite <- (sqrt_pow2 (9 / 10 * 6378137)) by lra. apply sqrt_le_1_alt. lra.
    + rewrite <- (sqrt_pow2 (10 * 6378137)) by lra. apply sqrt_le_1_alt. lra.
  - split.
    + exists (V 6378137 0 0), (2 / 6378137). unfold on_ellipsoid, gradient, zenith, vscale, vadd. cbn [vx vy vz].
      change (k_major shipped_k) with 6378137. rewrite sin_0, cos_0.
      split; [field; lra|]. split; [lra|]. split; f_equal; field; lra.
    + assert (Ar : around shipped_k (V 7078137 0 0)).
      { split; [intros H; injection H as H; lra|]. unfold sq. cbn [vx vy vz]. change (k_major shipped_k) with 6378137.
        replace (7078137 ^ 2 + 0 ^ 2 + 0 ^ 2) with (7078137 ^ 2) by ring. rewrite sqrt_pow2 by lra. lra. }
      destruct (loop_settles _ _ K Ar) as (t & [|c] & E); [|exists t, c; exact E].
      exfalso. unfold loop in E. cbv zeta in E. destruct (start _ _) as [s|]; [|discriminate].
      revert E. generalize (0%nat) at 1. assert (Z : forall n c k p z s t d, rounds n k p z s d = Some (Some (t, c)) -> (d < c)%nat).
      { clear. induction n as [|n IH]; intros c k p z s t d E; [discriminate|]. cbn [rounds] in E.
        destruct (once k p z s) as [s'|]; [|discriminate]. destruct (settled k s s'); [injection E as <- <-; lia|].
        specialize (IH _ _ _ _ _ _ _ E). lia. }
      intros m E. specialize (Z _ _ _ _ _ _ _ _ E). lia.
Qed.
