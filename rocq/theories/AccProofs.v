(** How accurate the conversion from Cartesian to geodetic coordinates is. *)
From Coq Require Import Reals List Bool Lra Psatz.
From Verif Require Import Common GeoModel GeoSpec GeoProofs.
Import ListNotations.
Open Scope R_scope.

(** * The cubic form of Bowring's formula *)

Lemma cubic_form : forall sb cb s c, sb ^ 2 + cb ^ 2 = 1 -> s ^ 2 + c ^ 2 = 1 ->
  let sd := s * cb - c * sb in let cd := c * cb + s * sb in
  sd ^ 2 + cd ^ 2 = 1 /\
  s ^ 3 * cb + c ^ 3 * sb - sb * cb = sb * cb * ((1 - cd) * (2 * cd ^ 2 + 2 * cd - 1)) + sd ^ 3 * (cb ^ 2 - sb ^ 2).
Proof.
  intros sb cb s c B T sd cd.
  assert (D : sd ^ 2 + cd ^ 2 = 1).
  { unfold sd, cd. replace ((s * cb - c * sb) ^ 2 + (c * cb + s * sb) ^ 2) with ((s ^ 2 + c ^ 2) * (sb ^ 2 + cb ^ 2)) by ring.
    rewrite B, T. ring. }
  split; [exact D|].
  assert (Es : s = sb * cd + cb * sd).
  { unfold sd, cd. replace (sb * (c * cb + s * sb) + cb * (s * cb - c * sb)) with (s * (sb ^ 2 + cb ^ 2)) by ring. rewrite B. ring. }
  assert (Ec : c = cb * cd - sb * sd).
  { unfold sd, cd. replace (cb * (c * cb + s * sb) - sb * (s * cb - c * sb)) with (c * (sb ^ 2 + cb ^ 2)) by ring. rewrite B. ring. }
  clearbody sd cd. subst s c.
  assert (SD : sd ^ 2 = 1 - cd ^ 2) by lra.
  replace ((sb * cd + cb * sd) ^ 3 * cb + (cb * cd - sb * sd) ^ 3 * sb - sb * cb)
    with (sb * cb * (cd ^ 3 * (sb ^ 2 + cb ^ 2) + 3 * cd * sd ^ 2 * (sb ^ 2 + cb ^ 2) - 1) + sd ^ 3 * ((cb ^ 2 - sb ^ 2) * (sb ^ 2 + cb ^ 2))) by ring.
  rewrite B, SD. ring.
Qed.

Lemma Rabs_le_1 : forall x, x ^ 2 <= 1 -> Rabs x <= 1.
Proof. intros x H. apply Rabs_le. split; nra. Qed.

Lemma cubic_bound : forall sb cb s c, sb ^ 2 + cb ^ 2 = 1 -> s ^ 2 + c ^ 2 = 1 -> 0 <= c * cb + s * sb ->
  let sd := s * cb - c * sb in
  Rabs (s ^ 3 * cb + c ^ 3 * sb - sb * cb) <= 3 * Rabs (sb * cb) * Rabs sd ^ 2 + Rabs sd ^ 3.
Proof.
  intros sb cb s c B T P sd. destruct (cubic_form sb cb s c B T) as [D E]. rewrite E.
  fold sd in D |- *. set (cd := c * cb + s * sb) in *. clearbody sd cd. clear E.
  assert (C1 : cd <= 1) by nra.
  eapply Rle_trans; [apply Rabs_triang|]. apply Rplus_le_compat.
  - rewrite Rabs_mult. replace (3 * Rabs (sb * cb) * Rabs sd ^ 2) with (Rabs (sb * cb) * (3 * Rabs sd ^ 2)) by ring.
    apply Rmult_le_compat_l; [apply Rabs_pos|]. rewrite pow2_abs, Rabs_mult.
    rewrite (Rabs_right (1 - cd)) by lra.
    assert (H1 : 1 - cd <= sd ^ 2) by nra.
    assert (H2 : Rabs (2 * cd ^ 2 + 2 * cd - 1) <= 3) by (apply Rabs_le; split; nra).
    pose proof (Rabs_pos (2 * cd ^ 2 + 2 * cd - 1)). nra.
  - rewrite Rabs_mult, <- RPow_abs. rewrite <- (Rmult_1_r (Rabs sd ^ 3)) at 2.
    apply Rmult_le_compat_l; [apply pow_le, Rabs_pos|]. apply Rabs_le. split; nra.
Qed.

(** * An angle is at most its tangent *)

Lemma sin_minus_pos : forall x, 0 <= x < PI / 2 -> x * cos x <= sin x.
Proof.
  intros x [X0 X1].
  destruct (Req_dec x 0) as [->|Z]; [rewrite sin_0; lra|].
  set (g := fun t => sin t - t * cos t).
  assert (Dg : forall t, derivable_pt_lim g t (cos t - (1 * cos t + t * (- sin t)))).
  { intro t. unfold g. apply derivable_pt_lim_minus; [apply derivable_pt_lim_sin|].
    apply (derivable_pt_lim_mult (fun u => u) cos); [apply derivable_pt_lim_id|apply derivable_pt_lim_cos]. }
  destruct (MVT_cor2 g (fun t => cos t - (1 * cos t + t * (- sin t))) 0 x) as [c [E I]]; [lra|intros; apply Dg|].
  unfold g in E. rewrite sin_0 in E.
  assert (0 <= sin c) by (apply sin_ge_0; lra).
  assert (0 <= c * sin c * x) by (apply Rmult_le_pos; [apply Rmult_le_pos|]; lra).
  nra.
Qed.
Lemma angle_le_tan : forall x, - (PI / 2) < x < PI / 2 -> Rabs x <= Rabs (tan x).
Proof.
  intros x [X0 X1].
  assert (C : 0 < cos x) by (apply cos_gt_0; lra).
  assert (K : forall y, 0 <= y < PI / 2 -> y <= tan y).
  { intros y Y. assert (0 < cos y) by (apply cos_gt_0; lra). unfold tan.
    apply (Rmult_le_reg_r (cos y)); [assumption|]. unfold Rdiv. rewrite Rmult_assoc, Rinv_l by lra.
    rewrite Rmult_1_r. apply sin_minus_pos. exact Y. }
  destruct (Rle_dec 0 x) as [P|P].
  - rewrite Rabs_right by lra. eapply Rle_trans; [apply K; lra|]. apply Rle_abs.
  - rewrite Rabs_left by lra. eapply Rle_trans; [apply (K (- x)); lra|]. rewrite tan_neg, <- Rabs_Ropp. apply Rle_abs.
Qed.
(** where the cosine is positive *)
Lemma cos_pos_range : forall x, - (3 * (PI / 2)) < x < 3 * (PI / 2) -> 0 < cos x -> - (PI / 2) < x < PI / 2.
Proof.
  intros x [X0 X1] C. pose proof PI_RGT_0.
  assert (U : forall y, PI / 2 <= y -> y < 3 * (PI / 2) -> cos y <= 0).
  { intros y Y0 Y1. apply cos_le_0; lra. }
  split; apply Rnot_le_lt; intro Z.
  - assert (cos (- x) <= 0) by (apply U; lra). rewrite cos_neg in *. lra.
  - assert (cos x <= 0) by (apply U; lra). lra.
Qed.

(** * The error of the latitude *)

Lemma N_range : forall a q lat, 0 < a -> 0 < q <= 1 -> a <= N_of a q lat <= a / q.
Proof.
  intros a q lat A Q. pose proof (N_pos a q lat A Q) as P. pose proof (N_sq a q lat A Q) as S.
  set (D := 1 - (1 - q ^ 2) * sin lat ^ 2) in S.
  assert (D1 : D <= 1). { unfold D. pose proof (pow2_ge_0 (sin lat)). assert (q ^ 2 <= 1) by nra. nra. }
  assert (D2 : q ^ 2 <= D).
  { unfold D. pose proof (sin2_cos2 lat). pose proof (pow2_ge_0 (cos lat)). assert (q ^ 2 <= 1) by nra. nra. }
  set (N := N_of a q lat) in *. clearbody N D. split.
  - apply Rnot_lt_le. intro L. assert (N ^ 2 < a ^ 2) by nra. assert (N ^ 2 * D <= N ^ 2 * 1) by (apply Rmult_le_compat_l; nra). lra.
  - apply (Rmult_le_reg_r q); [lra|]. unfold Rdiv. rewrite Rmult_assoc, Rinv_l, Rmult_1_r by lra.
    apply Rnot_lt_le. intro L. assert (a ^ 2 < (N * q) ^ 2) by nra.
    assert (N ^ 2 * q ^ 2 <= N ^ 2 * D) by (apply Rmult_le_compat_l; nra). rewrite Rpow_mult_distr in H. lra.
Qed.

Lemma half_prod : forall S C, S ^ 2 + C ^ 2 = 1 -> Rabs (S * C) ^ 2 <= 1 / 4.
Proof.
  intros S C H. rewrite pow2_abs. replace ((S * C) ^ 2) with (S ^ 2 * C ^ 2) by ring. replace (C ^ 2) with (1 - S ^ 2) by lra.
  pose proof (pow2_ge_0 (S ^ 2 - 1 / 2)). nra.
Qed.

(** the two ellipsoids differ little *)
Lemma mismatch : forall a q r lat, 0 < a -> 9 / 10 <= q <= 1 -> 9 / 10 <= r <= 1 ->
  Rabs ((1 - r ^ 2) * N_of a r lat - (1 - q ^ 2) * N_of a q lat) <= 2 * a * Rabs (q ^ 2 - r ^ 2).
Proof.
  intros a q r lat A Q R. unfold N_of.
  pose proof (root_pos r lat ltac:(lra)) as PU. pose proof (root_pos q lat ltac:(lra)) as PV.
  assert (T : 0 <= sin lat ^ 2 <= 1).
  { pose proof (sin2_cos2 lat). pose proof (pow2_ge_0 (cos lat)). pose proof (pow2_ge_0 (sin lat)). lra. }
  set (x := 1 - r ^ 2) in *. set (y := 1 - q ^ 2) in *. set (t := sin lat ^ 2) in *.
  assert (X : 0 <= x <= 19 / 100) by (unfold x; split; nra).
  assert (Y : 0 <= y <= 19 / 100) by (unfold y; split; nra).
  assert (LU : 9 / 10 <= sqrt (1 - x * t)).
  { apply Rsqr_incr_0_var; [|apply sqrt_pos]. rewrite Rsqr_sqrt by lra. unfold Rsqr. nra. }
  assert (LV : 9 / 10 <= sqrt (1 - y * t)).
  { apply Rsqr_incr_0_var; [|apply sqrt_pos]. rewrite Rsqr_sqrt by lra. unfold Rsqr. nra. }
  assert (UU : sqrt (1 - x * t) <= 1). { rewrite <- sqrt_1 at 2. apply sqrt_le_1_alt. nra. }
  assert (UV : sqrt (1 - y * t) <= 1). { rewrite <- sqrt_1 at 2. apply sqrt_le_1_alt. nra. }
  assert (SU : sqrt (1 - x * t) ^ 2 = 1 - x * t) by (apply pow2_sqrt; lra).
  assert (SV : sqrt (1 - y * t) ^ 2 = 1 - y * t) by (apply pow2_sqrt; lra).
  set (U := sqrt (1 - x * t)) in *. set (W := sqrt (1 - y * t)) in *.
  assert (E : x * (a / U) - y * (a / W) = a * (x - y) * ((W + y * (t / (W + U))) / (U * W))).
  { assert (WU : W - U = (x - y) * (t / (W + U))).
    { apply (Rmult_eq_reg_r (W + U)); [|lra]. replace ((W - U) * (W + U)) with (W ^ 2 - U ^ 2) by ring. rewrite SU, SV. field. lra. }
    replace (x * (a / U) - y * (a / W)) with (a * ((x - y) * W + y * (W - U)) / (U * W)) by (field; lra).
    rewrite WU. field. lra. }
  rewrite E. rewrite !Rabs_mult, (Rabs_right a) by lra.
  replace (q ^ 2 - r ^ 2) with (x - y) by (unfold x, y; ring).
  replace (2 * a * Rabs (x - y)) with (a * Rabs (x - y) * 2) by ring.
  apply Rmult_le_compat_l; [apply Rmult_le_pos; [lra|apply Rabs_pos]|].
  assert (TW : 0 <= t / (W + U) <= 1).
  { split; [apply Rmult_le_pos; [lra|]; left; apply Rinv_0_lt_compat; lra|].
    apply (Rmult_le_reg_r (W + U)); [lra|]. unfold Rdiv. rewrite Rmult_assoc, Rinv_l by lra. lra. }
  assert (NP : 0 <= W + y * (t / (W + U)) <= 12 / 10) by nra.
  assert (DP : 81 / 100 <= U * W) by nra.
  rewrite Rabs_right by (apply Rle_ge, Rmult_le_pos; [lra|]; left; apply Rinv_0_lt_compat; lra).
  apply (Rmult_le_reg_r (U * W)); [lra|]. unfold Rdiv. rewrite Rmult_assoc, Rinv_l by lra. lra.
Qed.

Lemma div_le : forall x y z, 0 < y -> x <= z * y -> x / y <= z.
Proof. intros x y z Y H. apply (Rmult_le_reg_r y); [exact Y|]. unfold Rdiv. rewrite Rmult_assoc, Rinv_l by lra. lra. Qed.

Definition lat_gain (a q r h kap : R) : R :=
  ((1 - r ^ 2) * (a / r) * (3 / r * kap ^ 2 + kap ^ 3) / 4 + 2 * a * Rabs (q ^ 2 - r ^ 2)) /
  (h + a * q ^ 2 - (1 - r ^ 2) * a / r).

Lemma prod_le_1 : forall a b c d, a ^ 2 + b ^ 2 = 1 -> c ^ 2 + d ^ 2 = 1 -> Rabs (a * c) <= 1.
Proof.
  intros a b c d H K. apply Rabs_le_1. replace ((a * c) ^ 2) with (a ^ 2 * c ^ 2) by ring.
  pose proof (pow2_ge_0 a). pose proof (pow2_ge_0 b). pose proof (pow2_ge_0 c). pose proof (pow2_ge_0 d). nra.
Qed.
Lemma cubic_pos : forall sb cb s c, sb ^ 2 + cb ^ 2 = 1 -> s ^ 2 + c ^ 2 = 1 -> 0 <= c * cb + s * sb ->
  0 < s * cb - c * sb -> s * cb - c * sb <= 15 / 100 -> s * cb - c * sb < sb * cb / 2 ->
  0 < s ^ 3 * cb + c ^ 3 * sb - sb * cb.
Proof.
  intros sb cb s c B T CD SD0 SD1 SD2. destruct (cubic_form sb cb s c B T) as [D2 FE]. rewrite FE. clear FE.
  set (sd := s * cb - c * sb) in *. set (cd := c * cb + s * sb) in *. clearbody sd cd. set (m := sb * cb) in *.
  assert (C5 : - 1 <= cb ^ 2 - sb ^ 2) by (pose proof (pow2_ge_0 sb); pose proof (pow2_ge_0 cb); lra).
  set (k := cb ^ 2 - sb ^ 2) in *. clearbody m k. clear B T.
  assert (CD1 : 7 / 10 <= cd) by nra. assert (CDU : cd <= 1) by nra.
  assert (C2 : 1 <= 2 * cd ^ 2 + 2 * cd - 1) by nra.
  assert (C3 : sd ^ 2 / 2 <= 1 - cd) by nra.
  assert (C4 : sd ^ 2 / 2 <= (1 - cd) * (2 * cd ^ 2 + 2 * cd - 1)).
  { eapply Rle_trans; [exact C3|]. rewrite <- (Rmult_1_r (1 - cd)) at 1. apply Rmult_le_compat_l; lra. }
  assert (P2 : 0 < sd ^ 2) by (apply pow_lt; exact SD0).
  assert (P3 : 0 < sd ^ 3) by (apply pow_lt; exact SD0).
  apply Rlt_le_trans with (m * (sd ^ 2 / 2) + sd ^ 3 * - 1).
  - replace (m * (sd ^ 2 / 2) + sd ^ 3 * - 1) with (sd ^ 2 * (m / 2 - sd)) by field.
    apply Rmult_lt_0_compat; lra.
  - apply Rplus_le_compat; [apply Rmult_le_compat_l; [lra|exact C4]|apply Rmult_le_compat_l; lra].
Qed.
Lemma pos_of_sin : forall x D E, - (PI / 2) < x < PI / 2 -> 0 < D -> D * sin x = E -> 0 < E -> 0 < x.
Proof.
  intros x D E X DP H P. apply Rnot_le_lt. intro Z.
  assert (sin x <= 0). { destruct (Req_dec x 0) as [->|N]; [rewrite sin_0; lra|]. left. apply sin_lt_0_var; lra. }
  nra.
Qed.
Lemma lat_error : forall a q r lat lon h kap,
  0 < a -> 9 / 10 <= q <= 1 -> 9 / 10 <= r <= 1 -> - (PI / 2) < lat < PI / 2 ->
  0 < h + a * q ^ 2 - (1 - r ^ 2) * a / r ->
  0 <= kap -> a / q * Rabs (q ^ 2 - r ^ 2) + Rabs h * (1 - r ^ 2) <= kap * (r ^ 2 * (h + a * q ^ 2)) ->
  let N := N_of a q lat in
  let v := V ((N + h) * cos lat * cos lon) ((N + h) * cos lat * sin lon) ((N * q ^ 2 + h) * sin lat) in
  let x := lat_of a r v - lat in
  sqrt (vx v ^ 2 + vy v ^ 2) = (N + h) * cos lat /\ 0 < N + h /\
  - (PI / 2) < x < PI / 2 /\ Rabs (tan x) <= Rabs (sin lat * cos lat) * lat_gain a q r h kap /\
  (q = r -> 0 < sin lat -> 0 < h -> r < 1 -> kap <= 3 / 10 -> 0 < x).
Proof.
  intros a q r lat lon h kap A Q R L G0 K0 K N v x.
  assert (Q' : 0 < q <= 1) by lra. assert (R' : 0 < r <= 1) by lra.
  assert (C : 0 < cos lat) by (apply cos_gt_0; lra).
  pose proof (N_range a q lat A Q') as NR. fold N in NR.
  pose proof (N_range a r lat A R') as MR. pose proof (N_sq a r lat A R') as MS.
  pose proof (mismatch a q r lat A Q R) as MM. fold N in MM.
  set (M := N_of a r lat) in *. clearbody M.
  pose proof (sin2_cos2 lat) as SC. pose proof (half_prod _ _ SC) as HP.
  set (S := sin lat) in *. set (c0 := cos lat) in *.
  assert (R2 : 0 <= 1 - r ^ 2) by nra. assert (Q2 : 0 < q ^ 2 <= 1) by nra.
  assert (RA : 0 <= (1 - r ^ 2) * a / r).
  { apply Rmult_le_pos; [nra|]. left. apply Rinv_0_lt_compat. lra. }
  assert (HA : 0 < h + a * q ^ 2) by lra.
  assert (NH : 0 < N + h) by nra.
  assert (P : sqrt (vx v ^ 2 + vy v ^ 2) = (N + h) * c0).
  { unfold v. cbn [vx vy]. pose proof (sin2_cos2 lon) as T.
    replace (((N + h) * c0 * cos lon) ^ 2 + ((N + h) * c0 * sin lon) ^ 2) with (((N + h) * c0) ^ 2 * (sin lon ^ 2 + cos lon ^ 2)) by ring.
    rewrite T, Rmult_1_r. apply sqrt_pow2. nra. }
  split; [exact P|]. split; [exact NH|].
  unfold x. clear x. unfold lat_of. rewrite P. change (vz v) with ((N * q ^ 2 + h) * S). clear P v. cbv zeta.
  clearbody N.
  set (p := (N + h) * c0) in *. set (z := (N * q ^ 2 + h) * S) in *.
  assert (PP : 0 < p) by (apply Rmult_lt_0_compat; lra).
  assert (RAP : 0 < r * a * p) by (apply Rmult_lt_0_compat; [apply Rmult_lt_0_compat|]; lra).
  destruct (atan2_polar (a * z) (r * a * p)) as [H1 [H2 _]].
  { intro E. injection E as E1 E2. lra. }
  set (th := atan2 (a * z) (r * a * p)) in *.
  set (rho := sqrt ((r * a * p) ^ 2 + (a * z) ^ 2)) in *.
  assert (RP : 0 < rho) by (apply sqrt_lt_R0; nra).
  assert (RS : rho ^ 2 = (r * a * p) ^ 2 + (a * z) ^ 2) by (apply pow2_sqrt; nra).
  clearbody rho. pose proof (sin2_cos2 th) as T. set (s := sin th) in *. set (c := cos th) in *. clearbody s c. clear th.
  (* projection on the vertical *)
  assert (PZ : p * c0 + z * S = h + N * (c0 ^ 2 + q ^ 2 * S ^ 2)).
  { unfold p, z. replace ((N + h) * c0 * c0 + (N * q ^ 2 + h) * S * S) with (h * (S ^ 2 + c0 ^ 2) + N * (c0 ^ 2 + q ^ 2 * S ^ 2)) by ring.
    rewrite SC. ring. }
  assert (WQ : q ^ 2 <= c0 ^ 2 + q ^ 2 * S ^ 2).
  { replace (c0 ^ 2) with (1 - S ^ 2) by lra. pose proof (pow2_ge_0 c0). pose proof (pow2_ge_0 S). nra. }
  assert (PZ1 : h + a * q ^ 2 <= p * c0 + z * S) by (rewrite PZ; nra).
  assert (RL : r * a * (p * c0 + z * S) <= rho).
  { apply Rsqr_incr_0_var; [|lra]. unfold Rsqr.
    replace (rho * rho) with (rho ^ 2) by ring. rewrite RS.
    apply Rle_trans with ((r * a) ^ 2 * (p ^ 2 + z ^ 2)).
    - replace (r * a * (p * c0 + z * S) * (r * a * (p * c0 + z * S))) with ((r * a) ^ 2 * (p * c0 + z * S) ^ 2) by ring.
      apply Rmult_le_compat_l; [apply pow2_ge_0|].
      replace (p ^ 2 + z ^ 2) with ((p ^ 2 + z ^ 2) * (S ^ 2 + c0 ^ 2)) by (rewrite SC; ring).
      pose proof (pow2_ge_0 (p * S - z * c0)). nra.
    - replace ((r * a * p) ^ 2 + (a * z) ^ 2) with ((r * a) ^ 2 * (p ^ 2 + z ^ 2) + (1 - r ^ 2) * (a * z) ^ 2) by ring.
      pose proof (pow2_ge_0 (a * z)). nra. }
  (* the reduced latitude *)
  set (sb := M * r * S / a). set (cb := M * c0 / a).
  assert (B : sb ^ 2 + cb ^ 2 = 1).
  { unfold sb, cb. replace ((M * r * S / a) ^ 2 + (M * c0 / a) ^ 2) with (M ^ 2 * (c0 ^ 2 + r ^ 2 * S ^ 2) / a ^ 2) by (field; lra).
    replace (c0 ^ 2 + r ^ 2 * S ^ 2) with (1 - (1 - r ^ 2) * S ^ 2) by lra. rewrite MS. field. lra. }
  assert (SD : s * cb - c * sb = M * (S * c0) * (N * (q ^ 2 - r ^ 2) + h * (1 - r ^ 2)) / rho).
  { apply (Rmult_eq_reg_l rho); [|lra].
    replace (rho * (s * cb - c * sb)) with ((rho * s) * cb - (rho * c) * sb) by ring. rewrite H1, H2.
    unfold sb, cb, p, z. field. lra. }
  assert (CD : 0 <= c * cb + s * sb).
  { apply (Rmult_le_reg_l rho); [lra|]. rewrite Rmult_0_r.
    replace (rho * (c * cb + s * sb)) with ((rho * c) * cb + (rho * s) * sb) by ring. rewrite H1, H2.
    unfold sb, cb. replace (r * a * p * (M * c0 / a) + a * z * (M * r * S / a)) with (r * M * (p * c0 + z * S)) by (field; lra).
    apply Rmult_le_pos; [apply Rmult_le_pos|]; lra. }
  pose proof (cubic_bound sb cb s c B T CD) as FB. cbv zeta in FB.
  assert (SDB : Rabs (s * cb - c * sb) <= kap * Rabs (S * c0)).
  { rewrite SD. unfold Rdiv. rewrite !Rabs_mult, Rabs_inv, (Rabs_right rho), (Rabs_right M) by lra.
    apply div_le; [exact RP|].
    assert (T1 : Rabs (N * (q ^ 2 - r ^ 2) + h * (1 - r ^ 2)) <= kap * (r ^ 2 * (h + a * q ^ 2))).
    { eapply Rle_trans; [apply Rabs_triang|]. eapply Rle_trans; [|exact K]. rewrite !Rabs_mult, (Rabs_right N), (Rabs_right (1 - r ^ 2)) by lra.
      apply Rplus_le_compat_r. apply Rmult_le_compat_r; [apply Rabs_pos|lra]. }
    assert (T2 : M * (kap * (r ^ 2 * (h + a * q ^ 2))) <= kap * rho).
    { apply Rle_trans with (kap * (r * a * (h + a * q ^ 2))).
      - replace (M * (kap * (r ^ 2 * (h + a * q ^ 2)))) with (kap * ((M * r) * (r * (h + a * q ^ 2)))) by ring.
        apply Rmult_le_compat_l; [exact K0|]. replace (r * a * (h + a * q ^ 2)) with (a * (r * (h + a * q ^ 2))) by ring.
        apply Rmult_le_compat_r; [nra|]. destruct MR as [_ MR]. apply (Rmult_le_compat_r r) in MR; [|lra].
        unfold Rdiv in MR. rewrite Rmult_assoc, Rinv_l in MR by lra. lra.
      - apply Rmult_le_compat_l; [exact K0|]. eapply Rle_trans; [|exact RL].
        apply Rmult_le_compat_l; [nra|exact PZ1]. }
    replace (M * (Rabs S * Rabs c0) * Rabs (N * (q ^ 2 - r ^ 2) + h * (1 - r ^ 2)))
      with ((Rabs S * Rabs c0) * (M * Rabs (N * (q ^ 2 - r ^ 2) + h * (1 - r ^ 2)))) by ring.
    replace (kap * (Rabs S * Rabs c0) * rho) with ((Rabs S * Rabs c0) * (kap * rho)) by ring.
    apply Rmult_le_compat_l; [apply Rmult_le_pos; apply Rabs_pos|].
    eapply Rle_trans; [|exact T2]. apply Rmult_le_compat_l; [lra|exact T1]. }
  set (F := s ^ 3 * cb + c ^ 3 * sb - sb * cb) in *.
  set (w := Rabs (S * c0)) in *. assert (W0 : 0 <= w) by apply Rabs_pos. assert (W1 : w <= 1 / 2) by nra.
  assert (SB : Rabs (sb * cb) <= w / r).
  { replace (sb * cb) with ((M ^ 2 * r / a ^ 2) * (S * c0)) by (unfold sb, cb; field; lra).
    rewrite Rabs_mult. fold w. unfold Rdiv at 2. rewrite (Rmult_comm w). apply Rmult_le_compat_r; [exact W0|].
    assert (MR2 : M * r <= a).
    { destruct MR as [_ MR]. apply (Rmult_le_compat_r r) in MR; [|lra]. unfold Rdiv in MR. rewrite Rmult_assoc, Rinv_l in MR by lra. lra. }
    assert (M0 : 0 < M * r) by (apply Rmult_lt_0_compat; lra).
    assert (A2 : 0 < a ^ 2) by nra.
    rewrite Rabs_right.
    - apply div_le; [exact A2|]. apply (Rmult_le_reg_l r); [lra|].
      replace (r * (/ r * a ^ 2)) with (a ^ 2) by (field; lra). replace (r * (M ^ 2 * r)) with ((M * r) ^ 2) by ring. nra.
    - apply Rle_ge, Rmult_le_pos; [|left; apply Rinv_0_lt_compat; exact A2]. apply Rmult_le_pos; [apply pow2_ge_0|lra]. }
  assert (IR : 0 < / r) by (apply Rinv_0_lt_compat; lra).
  assert (K3 : 0 <= 3 / r * kap ^ 2 + kap ^ 3).
  { apply Rplus_le_le_0_compat; [|apply pow_le; exact K0]. apply Rmult_le_pos; [|apply pow_le; exact K0]. unfold Rdiv. nra. }
  assert (FW : Rabs F <= w * ((3 / r * kap ^ 2 + kap ^ 3) / 4)).
  { eapply Rle_trans; [exact FB|]. set (d := Rabs (s * cb - c * sb)) in *.
    assert (D0 : 0 <= d) by apply Rabs_pos. clearbody d.
    assert (D2 : d ^ 2 <= (kap * w) ^ 2) by (apply pow_incr; lra).
    assert (D3 : d ^ 3 <= (kap * w) ^ 3) by (apply pow_incr; lra).
    apply Rle_trans with (3 * (w / r) * (kap * w) ^ 2 + (kap * w) ^ 3).
    - apply Rplus_le_compat; [|exact D3]. apply Rmult_le_compat; [|apply pow_le; exact D0| |exact D2].
      + apply Rmult_le_pos; [lra|apply Rabs_pos].
      + apply Rmult_le_compat_l; [lra|exact SB].
    - replace (3 * (w / r) * (kap * w) ^ 2 + (kap * w) ^ 3) with (w * (w ^ 2 * (3 / r * kap ^ 2 + kap ^ 3))) by (field; lra).
      apply Rmult_le_compat_l; [exact W0|]. nra. }
  set (Y := z + (1 - r ^ 2) / r * a * s ^ 3). set (X := p - (1 - r ^ 2) * a * c ^ 3).
  assert (EE : Y * c0 - X * S = (1 - r ^ 2) * (a ^ 2 / (M * r)) * F + ((1 - r ^ 2) * M - (1 - q ^ 2) * N) * (S * c0)).
  { unfold Y, X, F, p, z. assert (M1 : M <> 0) by lra.
    assert (E1 : a ^ 2 / (M * r) * (s ^ 3 * cb + c ^ 3 * sb - sb * cb) = a * (s ^ 3 * c0 / r + c ^ 3 * S) - M * (S * c0)).
    { unfold sb, cb. field. lra. }
    rewrite (Rmult_assoc (1 - r ^ 2) (a ^ 2 / (M * r))), E1. field. lra. }
  assert (EB : Rabs (Y * c0 - X * S) <= w * ((1 - r ^ 2) * (a / r) * (3 / r * kap ^ 2 + kap ^ 3) / 4 + 2 * a * Rabs (q ^ 2 - r ^ 2))).
  { rewrite EE. eapply Rle_trans; [apply Rabs_triang|]. rewrite Rmult_plus_distr_l. apply Rplus_le_compat.
    - rewrite Rabs_mult.
      assert (AM : 0 <= a ^ 2 / (M * r) <= a / r).
      { assert (0 < M * r) by (apply Rmult_lt_0_compat; lra). split.
        - apply Rmult_le_pos; [apply pow2_ge_0|left; apply Rinv_0_lt_compat; assumption].
        - apply div_le; [assumption|]. replace (a / r * (M * r)) with (a * M) by (field; lra). nra. }
      rewrite Rabs_right by (apply Rle_ge, Rmult_le_pos; lra).
      apply Rle_trans with ((1 - r ^ 2) * (a / r) * (w * ((3 / r * kap ^ 2 + kap ^ 3) / 4))).
      + apply Rmult_le_compat; [apply Rmult_le_pos; lra|apply Rabs_pos| |exact FW]. apply Rmult_le_compat_l; lra.
      + right. field. lra.
    - rewrite Rabs_mult. fold w. rewrite Rmult_comm. apply Rmult_le_compat_l; [exact W0|exact MM]. }
  assert (POS : q = r -> 0 < S -> 0 < h -> r < 1 -> kap <= 3 / 10 -> 0 < Y * c0 - X * S).
  { intros EQ S0 H0 R1 K1. rewrite EE. subst r.
    replace (q ^ 2 - q ^ 2) with 0 in * by ring. rewrite Rabs_R0, Rmult_0_r in MM.
    assert (MZ : (1 - q ^ 2) * M - (1 - q ^ 2) * N = 0).
    { pose proof (Rle_abs ((1 - q ^ 2) * M - (1 - q ^ 2) * N)). pose proof (Rle_abs (- ((1 - q ^ 2) * M - (1 - q ^ 2) * N))) as Z.
      rewrite Rabs_Ropp in Z. lra. }
    rewrite MZ, Rmult_0_l, Rplus_0_r.
    assert (M0 : 0 < M * q) by (apply Rmult_lt_0_compat; lra).
    assert (S1 : 0 < S * c0) by (apply Rmult_lt_0_compat; lra).
    assert (WE : w = S * c0) by (unfold w; apply Rabs_right; lra).
    apply Rmult_lt_0_compat.
    { apply Rmult_lt_0_compat; [nra|]. apply Rdiv_lt_0_compat; [apply pow_lt; lra|exact M0]. }
    assert (SD0 : 0 < s * cb - c * sb).
    { rewrite SD. apply Rdiv_lt_0_compat; [|exact RP]. rewrite Rmult_0_r, Rplus_0_l.
      apply Rmult_lt_0_compat; [apply Rmult_lt_0_compat; lra|]. apply Rmult_lt_0_compat; [lra|].
      assert (q * q < 1 * 1) by (apply Rmult_le_0_lt_compat; lra). lra. }
    rewrite (Rabs_right (s * cb - c * sb)) in SDB by lra. rewrite WE in SDB, W1.
    assert (SK : kap * (S * c0) <= 3 / 10 * (S * c0)) by (apply Rmult_le_compat_r; lra).
    assert (SB1 : 9 / 10 * (S * c0) <= sb * cb).
    { replace (sb * cb) with ((M ^ 2 * q / a ^ 2) * (S * c0)) by (unfold sb, cb; field; lra).
      apply Rmult_le_compat_r; [lra|]. apply Rle_trans with (1 * q); [lra|].
      replace (M ^ 2 * q / a ^ 2) with ((M / a) ^ 2 * q) by (field; lra). apply Rmult_le_compat_r; [lra|].
      assert (1 <= M / a) by (apply (Rmult_le_reg_r a); [lra|]; unfold Rdiv; rewrite Rmult_assoc, Rinv_l by lra; lra).
      rewrite <- (pow1 2). apply pow_incr. lra. }
    unfold F. apply cubic_pos; [exact B|exact T|exact CD|exact SD0|lra|lra]. }
  assert (GG : h + a * q ^ 2 - (1 - r ^ 2) * a / r <= X * c0 + Y * S).
  { unfold X, Y.
    replace ((p - (1 - r ^ 2) * a * c ^ 3) * c0 + (z + (1 - r ^ 2) / r * a * s ^ 3) * S)
      with ((p * c0 + z * S) + (1 - r ^ 2) * a * / r * (s ^ 3 * S - r * (c ^ 3 * c0))) by (field; lra).
    assert (V1 : -1 <= s ^ 3 * S - r * (c ^ 3 * c0)).
    { assert (S1 : Rabs (s ^ 3 * S) <= s ^ 2).
      { replace (s ^ 3 * S) with (s ^ 2 * (s * S)) by ring. rewrite Rabs_mult, (Rabs_right (s ^ 2)) by (apply Rle_ge, pow2_ge_0).
        rewrite <- (Rmult_1_r (s ^ 2)) at 2. apply Rmult_le_compat_l; [apply pow2_ge_0|]. apply (prod_le_1 s c S c0 T SC). }
      assert (C1 : Rabs (r * (c ^ 3 * c0)) <= c ^ 2).
      { replace (r * (c ^ 3 * c0)) with (c ^ 2 * (r * (c * c0))) by ring. rewrite Rabs_mult, (Rabs_right (c ^ 2)) by (apply Rle_ge, pow2_ge_0).
        rewrite <- (Rmult_1_r (c ^ 2)) at 2. apply Rmult_le_compat_l; [apply pow2_ge_0|]. rewrite Rabs_mult, (Rabs_right r) by lra.
        assert (Rabs (c * c0) <= 1).
        { apply (prod_le_1 c s c0 S); lra. }
        pose proof (Rabs_pos (c * c0)). clear - H H0 R. nra. }
      pose proof (Rle_abs (- (s ^ 3 * S))) as V1. rewrite Rabs_Ropp in V1. pose proof (Rle_abs (r * (c ^ 3 * c0))). lra. }
    unfold Rdiv in RA. fold (Rdiv ((1 - r ^ 2) * a) r) in RA. unfold Rdiv in RA |- *.
    assert (- ((1 - r ^ 2) * a * / r) <= (1 - r ^ 2) * a * / r * (s ^ 3 * S - r * (c ^ 3 * c0))) by nra. lra. }
  assert (GP : 0 < X * c0 + Y * S) by lra.
  destruct (atan2_polar Y X) as [J1 [J2 J3]].
  { intro E. injection E as E1 E2. rewrite E1, E2 in GP. lra. }
  set (la := atan2 Y X) in *. set (D := sqrt (X ^ 2 + Y ^ 2)) in *.
  assert (DP : 0 < D).
  { apply sqrt_lt_R0. clearbody X Y. clear - GP. destruct (Req_dec X 0) as [X0|X0]; [|nra]. destruct (Req_dec Y 0) as [Y0|Y0]; [|nra]. rewrite X0, Y0 in GP. lra. }
  assert (Dc : D * cos (la - lat) = X * c0 + Y * S).
  { rewrite cos_minus. fold c0 S. rewrite <- J1, <- J2. ring. }
  assert (Ds : D * sin (la - lat) = Y * c0 - X * S).
  { rewrite sin_minus. fold c0 S. rewrite <- J1, <- J2. ring. }
  clearbody D.
  assert (CX : 0 < cos (la - lat)) by (apply (Rmult_lt_reg_l D); [exact DP|]; rewrite Rmult_0_r, Dc; exact GP).
  assert (XR : - (PI / 2) < la - lat < PI / 2) by (apply cos_pos_range; [lra|exact CX]).
  split; [exact XR|]. split; [|exact (fun e s0 h0 r1 k1 => pos_of_sin _ D _ XR DP Ds (POS e s0 h0 r1 k1))].
  replace (tan (la - lat)) with ((Y * c0 - X * S) / (X * c0 + Y * S)) by (rewrite <- Dc, <- Ds; unfold tan; field; lra).
  unfold Rdiv. rewrite Rabs_mult, Rabs_inv, (Rabs_right (X * c0 + Y * S)) by lra.
  unfold lat_gain. set (B0 := (1 - r ^ 2) * (a / r) * (3 / r * kap ^ 2 + kap ^ 3) / 4 + 2 * a * Rabs (q ^ 2 - r ^ 2)) in *.
  set (g0 := h + a * q ^ 2 - (1 - r ^ 2) * a / r) in *.
  assert (BP : 0 <= B0).
  { unfold B0. apply Rplus_le_le_0_compat.
    - apply Rmult_le_pos; [|lra]. apply Rmult_le_pos; [|exact K3]. apply Rmult_le_pos; [lra|]. unfold Rdiv. apply Rmult_le_pos; lra.
    - apply Rmult_le_pos; [lra|apply Rabs_pos]. }
  apply div_le; [exact GP|]. eapply Rle_trans; [exact EB|]. rewrite Rmult_assoc. apply Rmult_le_compat_l; [exact W0|].
  unfold Rdiv. rewrite Rmult_assoc. rewrite <- (Rmult_1_r B0) at 1. apply Rmult_le_compat_l; [exact BP|].
  apply (Rmult_le_reg_l g0); [exact G0|]. rewrite <- Rmult_assoc, Rinv_r, Rmult_1_l by lra. lra.
Qed.

(** * The error of the altitude *)

Lemma N_diff : forall a q r lat la d, 0 < a -> 9 / 10 <= q <= 1 -> 9 / 10 <= r <= 1 -> Rabs (sin (la - lat)) <= d ->
  Rabs (N_of a r la - N_of a q lat) <= a * ((1 - r ^ 2) * d + Rabs (q ^ 2 - r ^ 2)).
Proof.
  intros a q r lat la d A Q R D. unfold N_of.
  assert (T : forall t, 0 <= sin t ^ 2 <= 1).
  { intro t. pose proof (sin2_cos2 t). pose proof (pow2_ge_0 (cos t)). pose proof (pow2_ge_0 (sin t)). lra. }
  assert (DS : Rabs (sin la ^ 2 - sin lat ^ 2) <= d).
  { replace (sin la ^ 2 - sin lat ^ 2) with (sin (la + lat) * sin (la - lat)).
    - rewrite Rabs_mult. pose proof (Rabs_pos (sin (la - lat))).
      assert (Rabs (sin (la + lat)) <= 1) by (apply Rabs_le; apply SIN_bound). nra.
    - rewrite sin_plus, sin_minus. pose proof (sin2_cos2 la). pose proof (sin2_cos2 lat). nra. }
  pose proof (T la) as T1. pose proof (T lat) as T2. clear T D.
  set (u := sin la ^ 2) in *. set (t := sin lat ^ 2) in *. clearbody u t.
  set (x := 1 - r ^ 2) in *. set (y := 1 - q ^ 2) in *.
  assert (X : 0 <= x <= 19 / 100) by (unfold x; split; nra).
  assert (Y : 0 <= y <= 19 / 100) by (unfold y; split; nra).
  assert (LU : 9 / 10 <= sqrt (1 - x * u)).
  { apply Rsqr_incr_0_var; [|apply sqrt_pos]. rewrite Rsqr_sqrt by nra. unfold Rsqr. nra. }
  assert (LV : 9 / 10 <= sqrt (1 - y * t)).
  { apply Rsqr_incr_0_var; [|apply sqrt_pos]. rewrite Rsqr_sqrt by nra. unfold Rsqr. nra. }
  assert (SU : sqrt (1 - x * u) ^ 2 = 1 - x * u) by (apply pow2_sqrt; nra).
  assert (SV : sqrt (1 - y * t) ^ 2 = 1 - y * t) by (apply pow2_sqrt; nra).
  set (U := sqrt (1 - x * u)) in *. set (W := sqrt (1 - y * t)) in *. clearbody U W.
  assert (E : a / U - a / W = a * ((x * (u - t) + (x - y) * t) * / (U * W * (U + W)))).
  { replace (x * (u - t) + (x - y) * t) with (W ^ 2 - U ^ 2) by (rewrite SU, SV; ring). field. lra. }
  rewrite E, Rabs_mult, (Rabs_right a) by lra. apply Rmult_le_compat_l; [lra|].
  assert (UW : 81 / 100 <= U * W) by nra.
  assert (I : 1 <= U * W * (U + W)) by nra.
  rewrite Rabs_mult, Rabs_inv, (Rabs_right (U * W * (U + W))) by lra. apply div_le; [lra|].
  replace (q ^ 2 - r ^ 2) with (x - y) by (unfold x, y; ring).
  assert (B : Rabs (x * (u - t) + (x - y) * t) <= x * d + Rabs (x - y)).
  { eapply Rle_trans; [apply Rabs_triang|]. rewrite !Rabs_mult, (Rabs_right x), (Rabs_right t) by lra.
    apply Rplus_le_compat; [apply Rmult_le_compat_l; lra|]. pose proof (Rabs_pos (x - y)). nra. }
  assert (0 <= x * d + Rabs (x - y)) by (eapply Rle_trans; [apply Rabs_pos|exact B]). nra.
Qed.

Lemma alt_error : forall a q r lat lon h kap,
  0 < a -> 9 / 10 <= q <= 1 -> 9 / 10 <= r <= 1 -> - (PI / 2) < lat < PI / 2 ->
  0 < h + a * q ^ 2 - (1 - r ^ 2) * a / r ->
  0 <= kap -> a / q * Rabs (q ^ 2 - r ^ 2) + Rabs h * (1 - r ^ 2) <= kap * (r ^ 2 * (h + a * q ^ 2)) ->
  let K := lat_gain a q r h kap in K <= 1 / 100 ->
  let N := N_of a q lat in
  let v := V ((N + h) * cos lat * cos lon) ((N + h) * cos lat * sin lon) ((N * q ^ 2 + h) * sin lat) in
  let la := lat_of a r v in
  Rabs (sqrt (vx v ^ 2 + vy v ^ 2) / cos la - a / sqrt (1 - (1 - r ^ 2) * sin la ^ 2) - h) <=
  (a / q + h) * (21 / 20 * K) + a * ((1 - r ^ 2) * K + Rabs (q ^ 2 - r ^ 2)).
Proof.
  intros a q r lat lon h kap A Q R L G0 K0 KH K KS N v la.
  destruct (lat_error a q r lat lon h kap A Q R L G0 K0 KH) as [P [NH [XR [TX _]]]].
  fold N in P, NH, XR, TX. fold v in P, XR, TX. fold la in XR, TX. fold K in TX. rewrite P.
  pose proof (N_range a q lat A ltac:(lra)) as NR. fold N in NR.
  assert (C : 0 < cos lat) by (apply cos_gt_0; lra).
  pose proof (sin2_cos2 lat) as SC. pose proof (half_prod _ _ SC) as HP.
  set (w := Rabs (sin lat * cos lat)) in *. assert (W0 : 0 <= w) by apply Rabs_pos. assert (W1 : w <= 1 / 2) by nra.
  set (x := la - lat) in *. assert (CX : 0 < cos x) by (apply cos_gt_0; lra).
  assert (CX1 : cos x <= 1) by apply COS_bound.
  assert (KP : 0 <= K).
  { unfold K, lat_gain. apply Rmult_le_pos; [|left; apply Rinv_0_lt_compat; exact G0]. apply Rplus_le_le_0_compat.
    - apply Rmult_le_pos; [|lra]. assert (0 < / r) by (apply Rinv_0_lt_compat; lra). assert (0 <= 1 - r ^ 2) by nra.
      assert (0 <= kap ^ 2) by (apply pow_le; exact K0). assert (0 <= kap ^ 3) by (apply pow_le; exact K0).
      apply Rmult_le_pos; [|unfold Rdiv; nra]. unfold Rdiv. apply Rmult_le_pos; [assumption|nra].
    - apply Rmult_le_pos; [lra|apply Rabs_pos]. }
  clearbody K.
  assert (SX : Rabs (sin x) <= Rabs (tan x)).
  { unfold tan. unfold Rdiv. rewrite Rabs_mult, Rabs_inv, (Rabs_right (cos x)) by lra.
    rewrite <- (Rmult_1_r (Rabs (sin x))) at 1. apply Rmult_le_compat_l; [apply Rabs_pos|].
    rewrite <- Rinv_1. apply Rinv_le_contravar; lra. }
  assert (SX2 : Rabs (sin x) <= w * K) by lra.
  assert (SX3 : Rabs (sin x) <= K) by nra.
  pose proof (N_diff a q r lat la K A Q R SX3) as ND. fold N in ND. unfold N_of at 1 in ND.
  set (M := a / sqrt (1 - (1 - r ^ 2) * sin la ^ 2)) in *.
  set (u := cos x - sin lat / cos lat * sin x).
  assert (EU : cos la = cos lat * u).
  { replace la with (lat + x) by (unfold x; ring). rewrite cos_plus. unfold u. field. lra. }
  assert (U1 : Rabs (u - 1) <= 101 / 100 * K).
  { assert (V1 : Rabs (sin lat / cos lat * sin x) <= K).
    { rewrite Rabs_mult. apply Rle_trans with (Rabs (sin lat / cos lat) * (w * K)).
      - apply Rmult_le_compat_l; [apply Rabs_pos|exact SX2].
      - unfold w. rewrite <- Rmult_assoc, <- Rabs_mult.
        replace (sin lat / cos lat * (sin lat * cos lat)) with (sin lat ^ 2) by (field; lra).
        rewrite Rabs_right by (apply Rle_ge, pow2_ge_0). pose proof (pow2_ge_0 (cos lat)). pose proof (pow2_ge_0 (sin lat)). nra. }
    assert (V2 : 0 <= 1 - cos x <= K / 100).
    { split; [lra|]. pose proof (sin2_cos2 x) as S2. pose proof (Rabs_pos (sin x)).
      assert (sin x ^ 2 <= K ^ 2) by (rewrite <- (pow2_abs (sin x)); apply pow_incr; lra). nra. }
    replace (u - 1) with (- (1 - cos x) + - (sin lat / cos lat * sin x)) by (unfold u; ring).
    eapply Rle_trans; [apply Rabs_triang|]. rewrite !Rabs_Ropp, (Rabs_right (1 - cos x)) by lra. lra. }
  clearbody u.
  assert (UB : 98 / 100 <= u) by (pose proof (Rle_abs (- (u - 1))) as V1; rewrite Rabs_Ropp in V1; lra).
  rewrite EU. replace ((N + h) * cos lat / (cos lat * u) - M - h) with ((N + h) * ((1 - u) * / u) + - (M - N)) by (field; lra).
  eapply Rle_trans; [apply Rabs_triang|]. rewrite Rabs_Ropp. apply Rplus_le_compat; [|exact ND].
  rewrite Rabs_mult, (Rabs_right (N + h)) by lra. apply Rmult_le_compat; [lra|apply Rabs_pos|lra|].
  rewrite Rabs_mult, Rabs_inv, (Rabs_right u) by lra. apply div_le; [lra|].
  replace (1 - u) with (- (u - 1)) by ring. rewrite Rabs_Ropp. nra.
Qed.
