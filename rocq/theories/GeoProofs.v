(** Proofs about angles and coordinates. *)
From Coq Require Import Reals List Bool Lra Lia Psatz ZArith.
From Verif Require Import Common GeoModel GeoSpec.
Import ListNotations.
Open Scope R_scope.

(** * normalize *)

Lemma up_more : forall pi f x y g, turn_up f pi x = Some y -> (f <= g)%nat -> turn_up g pi x = Some y.
Proof.
  intros pi. induction f as [|f IH]; intros x y g H L; [discriminate|]. destruct g as [|g]; [lia|].
  cbn [turn_up] in *. destruct (Rlt_dec x (- pi)); [|exact H]. apply IH; [exact H|lia].
Qed.
Lemma down_more : forall pi f x y g, turn_down f pi x = Some y -> (f <= g)%nat -> turn_down g pi x = Some y.
Proof.
  intros pi. induction f as [|f IH]; intros x y g H L; [discriminate|]. destruct g as [|g]; [lia|].
  cbn [turn_down] in *. destruct (Rlt_dec pi x); [|exact H]. apply IH; [exact H|lia].
Qed.
Lemma normalize_more : forall pi f x y g, normalize f pi x = Some y -> (f <= g)%nat -> normalize g pi x = Some y.
Proof.
  intros pi f x y g H L. unfold normalize in *. destruct (turn_up f pi x) as [z|] eqn:E; [|discriminate].
  rewrite (up_more _ _ _ _ _ E L). apply (down_more _ _ _ _ _ H L).
Qed.
Lemma normalizes_unique : forall pi x r s, normalizes pi x r -> normalizes pi x s -> r = s.
Proof.
  intros pi x r s [f F] [g G].
  pose proof (normalize_more _ _ _ _ (max f g) F (Nat.le_max_l f g)) as F'.
  pose proof (normalize_more _ _ _ _ (max f g) G (Nat.le_max_r f g)) as G'. congruence.
Qed.

Lemma enough_turns : forall d pi, 0 < pi -> exists n : nat, d <= INR n * (2 * pi).
Proof.
  intros d pi P. destruct (archimed (d / (2 * pi))) as [A _].
  exists (Z.to_nat (up (d / (2 * pi)))). rewrite INR_IZR_INZ.
  assert (B : IZR (up (d / (2 * pi))) <= IZR (Z.of_nat (Z.to_nat (up (d / (2 * pi)))))) by (apply IZR_le; lia).
  assert (C : d / (2 * pi) * (2 * pi) = d) by (field; lra).
  rewrite <- C at 1. apply Rmult_le_compat_r; lra.
Qed.

Lemma up_ends : forall pi, 0 < pi -> forall n x, - pi <= x + INR n * (2 * pi) ->
  exists y (k : nat), turn_up (S n) pi x = Some y /\ y = x + INR k * (2 * pi) /\ - pi <= y /\
    (x < - pi -> y < pi) /\ (- pi <= x -> y = x).
Proof.
  intros pi P. induction n as [|n IH]; intros x H.
  - cbn [INR] in H. exists x, O. cbn [turn_up INR]. destruct (Rlt_dec x (- pi)); [lra|].
    repeat split; try lra; reflexivity.
  - cbn [turn_up]. destruct (Rlt_dec x (- pi)) as [L|L].
    + rewrite S_INR in H. destruct (IH (x + 2 * pi)) as [y [k [E [Ey [B [U1 U2]]]]]]; [lra|].
      exists y, (S k). split; [exact E|]. rewrite S_INR. split; [lra|]. split; [exact B|]. split; [|lra].
      intros _. destruct (Rlt_dec (x + 2 * pi) (- pi)); [apply U1; lra|]. rewrite U2 by lra. lra.
    + exists x, O. cbn [INR]. repeat split; lra.
Qed.
Lemma down_ends : forall pi, 0 < pi -> forall n x, x - INR n * (2 * pi) <= pi ->
  exists y (k : nat), turn_down (S n) pi x = Some y /\ y = x - INR k * (2 * pi) /\ y <= pi /\
    (pi < x -> - pi < y) /\ (x <= pi -> y = x).
Proof.
  intros pi P. induction n as [|n IH]; intros x H.
  - cbn [INR] in H. exists x, O. cbn [turn_down INR]. destruct (Rlt_dec pi x); [lra|].
    repeat split; try lra; reflexivity.
  - cbn [turn_down]. destruct (Rlt_dec pi x) as [L|L].
    + rewrite S_INR in H. destruct (IH (x - 2 * pi)) as [y [k [E [Ey [B [U1 U2]]]]]]; [lra|].
      exists y, (S k). split; [exact E|]. rewrite S_INR. split; [lra|]. split; [exact B|]. split; [|lra].
      intros _. destruct (Rlt_dec pi (x - 2 * pi)); [apply U1; lra|]. rewrite U2 by lra. lra.
    + exists x, O. cbn [INR]. repeat split; lra.
Qed.

Lemma normalize_ends : forall pi x, 0 < pi -> exists r, normalizes pi x r /\ - pi <= r <= pi /\
  (exists n : Z, r = x + IZR n * (2 * pi)) /\ (- pi <= x <= pi -> r = x).
Proof.
  intros pi x P.
  destruct (enough_turns (- pi - x) pi P) as [n Hn].
  destruct (up_ends pi P n x) as [y [k [E [Ey [B [U1 U2]]]]]]; [lra|].
  destruct (enough_turns (y - pi) pi P) as [m Hm].
  destruct (down_ends pi P m y) as [r [j [F [Er [C [W1 W2]]]]]]; [lra|].
  exists r. split.
  { exists (max (S n) (S m)). unfold normalize. rewrite (up_more _ _ _ _ _ E (Nat.le_max_l _ _)).
    apply (down_more _ _ _ _ _ F (Nat.le_max_r _ _)). }
  split.
  { split; [|exact C]. destruct (Rlt_dec pi y); [left; apply W1; assumption|]. rewrite W2; lra. }
  split.
  { exists (Z.of_nat k - Z.of_nat j)%Z. rewrite minus_IZR, <- !INR_IZR_INZ. lra. }
  intros [A D]. rewrite W2; [apply U2; exact A|]. rewrite U2 by exact A. exact D.
Qed.

Lemma up_stuck : forall pi, pi <= 0 -> forall f x, x < - pi -> turn_up f pi x = None.
Proof.
  intros pi P. induction f as [|f IH]; intros x H; [reflexivity|]. cbn [turn_up].
  destruct (Rlt_dec x (- pi)); [|lra]. apply IH. lra.
Qed.
Lemma down_stuck : forall pi, pi <= 0 -> forall f x, pi < x -> turn_down f pi x = None.
Proof.
  intros pi P. induction f as [|f IH]; intros x H; [reflexivity|]. cbn [turn_down].
  destruct (Rlt_dec pi x); [|lra]. apply IH. lra.
Qed.
Lemma normalize_stuck : forall pi x, pi < 0 \/ (pi = 0 /\ x <> 0) -> forall f, normalize f pi x = None.
Proof.
  intros pi x H f. unfold normalize. destruct (Rlt_dec x (- pi)) as [L|L].
  - rewrite up_stuck; [reflexivity|destruct H; lra|exact L].
  - destruct f as [|f]; [reflexivity|]. cbn [turn_up]. destruct (Rlt_dec x (- pi)); [lra|].
    apply down_stuck; destruct H as [H|[H N]]; lra.
Qed.

(** * lla2ecef *)

Lemma sin2_cos2 : forall t, sin t ^ 2 + cos t ^ 2 = 1.
Proof. intro t. pose proof (sin2_cos2 t) as H. unfold Rsqr in H. nra. Qed.

(** the square of the eccentricity *)
Lemma ecc : forall a b, 0 < b <= a -> let f := (a - b) / a in
  sqrt (f * (2 - f)) ^ 2 = 1 - (b / a) ^ 2 /\ 0 <= 1 - (b / a) ^ 2 < 1.
Proof.
  intros a b H f.
  assert (Q : 0 < b / a <= 1).
  { split; [apply Rdiv_lt_0_compat; lra|]. apply (Rmult_le_reg_r a); [lra|]. unfold Rdiv. rewrite Rmult_assoc, Rinv_l by lra. lra. }
  assert (E : f * (2 - f) = 1 - (b / a) ^ 2) by (unfold f; field; lra).
  assert (B : 0 <= 1 - (b / a) ^ 2 < 1) by nra.
  split; [|exact B]. rewrite E. rewrite pow2_sqrt; lra.
Qed.

Definition N_of (a q lat : R) : R := a / sqrt (1 - (1 - q ^ 2) * sin lat ^ 2).

Lemma root_pos : forall q lat, 0 < q <= 1 -> 0 < 1 - (1 - q ^ 2) * sin lat ^ 2.
Proof.
  intros q lat Q. pose proof (sin2_cos2 lat). assert (0 <= cos lat ^ 2) by nra. assert (0 <= sin lat ^ 2) by nra.
  assert (0 < q ^ 2 <= 1) by nra.
  replace (1 - (1 - q ^ 2) * sin lat ^ 2) with (cos lat ^ 2 + q ^ 2 * sin lat ^ 2) by nra.
  destruct (Req_dec (sin lat) 0) as [Z|Z]; [rewrite Z in *; nra|].
  assert (0 < sin lat ^ 2) by nra. nra.
Qed.

Lemma lla2ecef_eq : forall k lat lon alt, oblate k ->
  lla2ecef k false (V lat lon alt) =
  let q := k_minor k / k_major k in let N := N_of (k_major k) q lat in
  V ((N + alt) * cos lat * cos lon) ((N + alt) * cos lat * sin lon) ((N * q ^ 2 + alt) * sin lat).
Proof.
  intros k lat lon alt H. unfold lla2ecef. cbn [vx vy vz]. cbv zeta.
  destruct (ecc (k_major k) (k_minor k) H) as [E _]. rewrite !Rpow_mult_distr, !E. unfold N_of.
  replace (1 - (1 - (k_minor k / k_major k) ^ 2)) with ((k_minor k / k_major k) ^ 2) by ring. reflexivity.
Qed.

Lemma quotient : forall k, oblate k -> 0 < k_minor k / k_major k <= 1.
Proof.
  intros k [A B]. split; [apply Rdiv_lt_0_compat; lra|]. apply (Rmult_le_reg_r (k_major k)); [lra|].
  unfold Rdiv. rewrite Rmult_assoc, Rinv_l by lra. lra.
Qed.
Lemma N_pos : forall a q lat, 0 < a -> 0 < q <= 1 -> 0 < N_of a q lat.
Proof. intros a q lat A Q. unfold N_of. apply Rdiv_lt_0_compat; [exact A|]. apply sqrt_lt_R0, root_pos, Q. Qed.
Lemma N_sq : forall a q lat, 0 < a -> 0 < q <= 1 ->
  N_of a q lat ^ 2 * (1 - (1 - q ^ 2) * sin lat ^ 2) = a ^ 2.
Proof.
  intros a q lat A Q. pose proof (root_pos q lat Q) as P. unfold N_of.
  rewrite <- (pow2_sqrt (1 - (1 - q ^ 2) * sin lat ^ 2)) at 2 by lra. field. apply Rgt_not_eq, sqrt_lt_R0, P.
Qed.

(** * arctan2 *)

Lemma atan2_unique : forall c t, 0 < c -> - PI < t <= PI -> atan2 (c * sin t) (c * cos t) = t.
Proof.
  intros c t C [L U]. pose proof PI_RGT_0 as P. unfold atan2.
  assert (Q : forall u, cos u <> 0 -> c * sin u / (c * cos u) = tan u) by (intros; unfold tan; field; split; [assumption|lra]).
  destruct (Rlt_dec t (- (PI / 2))) as [A|A].
  { assert (N : cos t < 0) by (rewrite <- cos_neg; apply cos_lt_0; lra).
    assert (S : sin t < 0).
    { assert (0 < sin (- t)) by (apply sin_gt_0; lra). rewrite sin_neg in H. lra. }
    destruct (Rlt_dec 0 (c * cos t)); [nra|]. destruct (Rlt_dec (c * cos t) 0); [|nra].
    destruct (Rle_dec 0 (c * sin t)); [nra|]. rewrite Q by lra.
    replace (tan t) with (tan (t + PI)).
    - rewrite atan_tan by lra. lra.
    - unfold tan. rewrite neg_sin, neg_cos. field. lra. }
  destruct (Req_dec t (- (PI / 2))) as [->|A2].
  { rewrite sin_neg, cos_neg, sin_PI2, cos_PI2.
    destruct (Rlt_dec 0 (c * 0)); [lra|]. destruct (Rlt_dec (c * 0) 0); [lra|].
    destruct (Rlt_dec 0 (c * - (1))); [lra|]. destruct (Rlt_dec (c * - (1)) 0); lra. }
  destruct (Rlt_dec t (PI / 2)) as [B|B].
  { assert (S : 0 < cos t) by (apply cos_gt_0; lra).
    destruct (Rlt_dec 0 (c * cos t)); [|nra]. rewrite Q by lra. apply atan_tan. lra. }
  destruct (Req_dec t (PI / 2)) as [->|B2].
  { rewrite sin_PI2, cos_PI2. destruct (Rlt_dec 0 (c * 0)); [lra|]. destruct (Rlt_dec (c * 0) 0); [lra|].
    destruct (Rlt_dec 0 (c * 1)); lra. }
  assert (N : cos t < 0) by (apply cos_lt_0; lra).
  assert (S : 0 <= sin t) by (apply sin_ge_0; lra).
  destruct (Rlt_dec 0 (c * cos t)); [nra|]. destruct (Rlt_dec (c * cos t) 0); [|nra].
  destruct (Rle_dec 0 (c * sin t)); [|nra]. rewrite Q by lra.
  replace (tan t) with (tan (t - PI)).
  - rewrite atan_tan by lra. lra.
  - replace (t - PI) with (- (PI - t)) by ring. unfold tan. rewrite sin_neg, cos_neg.
    rewrite <- (sin_PI_x t). replace (cos (PI - t)) with (- cos t); [field; lra|].
    rewrite Rtrigo_facts.cos_pi_minus. reflexivity.
Qed.

Lemma polar_atan : forall x y, 0 < x ->
  sqrt (x ^ 2 + y ^ 2) * cos (atan (y / x)) = x /\ sqrt (x ^ 2 + y ^ 2) * sin (atan (y / x)) = y.
Proof.
  intros x y X.
  assert (E : sqrt (x ^ 2 + y ^ 2) = x * sqrt (1 + (y / x)²)).
  { rewrite <- (sqrt_pow2 x) at 2 by lra. rewrite <- sqrt_mult; [|nra|pose proof (Rle_0_sqr (y / x)); lra].
    f_equal. unfold Rsqr. field. lra. }
  assert (S : 0 < sqrt (1 + (y / x)²)) by (apply sqrt_lt_R0; pose proof (Rle_0_sqr (y / x)); lra).
  rewrite E, cos_atan, sin_atan. split; field; lra.
Qed.

Lemma atan2_polar : forall y x, (x, y) <> (0, 0) ->
  sqrt (x ^ 2 + y ^ 2) * cos (atan2 y x) = x /\ sqrt (x ^ 2 + y ^ 2) * sin (atan2 y x) = y /\
  - PI < atan2 y x <= PI.
Proof.
  intros y x H. pose proof PI_RGT_0 as P. unfold atan2.
  destruct (Rlt_dec 0 x) as [X|X].
  { destruct (polar_atan x y X) as [A B]. pose proof (atan_bound (y / x)). repeat split; try assumption; lra. }
  destruct (Rlt_dec x 0) as [X2|X2].
  - destruct (polar_atan (- x) (- y)) as [A B]; [lra|].
    replace ((- x) ^ 2 + (- y) ^ 2) with (x ^ 2 + y ^ 2) in * by ring.
    replace (- y / - x) with (y / x) in * by (field; lra).
    pose proof (atan_bound (y / x)) as D.
    destruct (Rle_dec 0 y) as [Y|Y].
    + rewrite neg_cos, neg_sin. split; [nra|]. split; [nra|].
      assert (y / x <= 0). { apply Rge_le, Rle_ge. unfold Rdiv. assert (/ x < 0) by (apply Rinv_lt_0_compat; lra). nra. }
      assert (atan (y / x) <= 0). { rewrite <- atan_0. destruct (Req_dec (y / x) 0) as [->|N]; [lra|]. left. apply atan_increasing. lra. }
      lra.
    + replace (atan (y / x) - PI) with (- (PI - atan (y / x))) by ring.
      rewrite cos_neg, sin_neg, Rtrigo_facts.cos_pi_minus, <- sin_PI_x.
      replace (PI - (PI - atan (y / x))) with (atan (y / x)) by ring. split; [nra|]. split; [nra|].
      assert (0 < y / x). { unfold Rdiv. assert (/ x < 0) by (apply Rinv_lt_0_compat; lra). nra. }
      assert (0 < atan (y / x)). { rewrite <- atan_0. apply atan_increasing. lra. }
      lra.
  - assert (x = 0) by lra. subst x.
    assert (Y : y <> 0) by (intros ->; apply H; reflexivity).
    replace (0 ^ 2 + y ^ 2) with (y ^ 2) by ring.
    destruct (Rlt_dec 0 y) as [Y1|Y1].
    + rewrite sqrt_pow2 by lra. rewrite cos_PI2, sin_PI2. repeat split; lra.
    + destruct (Rlt_dec y 0) as [Y2|Y2]; [|lra].
      replace (y ^ 2) with ((- y) ^ 2) by ring. rewrite sqrt_pow2 by lra.
      rewrite cos_neg, sin_neg, cos_PI2, sin_PI2. repeat split; lra.
Qed.

Lemma int_part_unique : forall r z, IZR z <= r < IZR z + 1 -> Int_part r = z.
Proof.
  intros r z [A B]. destruct (base_Int_part r) as [C D].
  assert (IZR (Int_part r) < IZR (z + 1)) by (rewrite plus_IZR; lra).
  assert (IZR z < IZR (Int_part r + 1)) by (rewrite plus_IZR; lra).
  apply lt_IZR in H. apply lt_IZR in H0. lia.
Qed.

Lemma rmod_lon : forall t, - PI < t <= PI ->
  0 <= rmod t (2 * PI) < 2 * PI /\ (rmod t (2 * PI) = t \/ rmod t (2 * PI) = t + 2 * PI).
Proof.
  intros t [L U]. pose proof PI_RGT_0 as P. unfold rmod.
  assert (E : t / (2 * PI) * (2 * PI) = t) by (field; lra).
  destruct (Rle_dec 0 t) as [T|T].
  - rewrite (int_part_unique _ 0); [lra|]. split; apply (Rmult_le_reg_r (2 * PI)) || apply (Rmult_lt_reg_r (2 * PI)); lra.
  - rewrite (int_part_unique _ (-1)); [lra|]. split; apply (Rmult_le_reg_r (2 * PI)) || apply (Rmult_lt_reg_r (2 * PI)); lra.
Qed.

(** * ecef2lla *)

Lemma minor : forall a f, 0 < a -> 0 <= f < 1 ->
  let smna := (1 - f) * a in let e := sqrt (1 - smna ^ 2 / a ^ 2) in
  e ^ 2 = 1 - (1 - f) ^ 2 /\ sqrt (a ^ 2 * (1 - e ^ 2)) = smna.
Proof.
  intros a f A F smna e.
  assert (E : 1 - smna ^ 2 / a ^ 2 = 1 - (1 - f) ^ 2) by (unfold smna; field; lra).
  assert (E2 : e ^ 2 = 1 - (1 - f) ^ 2) by (unfold e; rewrite E, pow2_sqrt; [reflexivity|nra]).
  split; [exact E2|]. rewrite E2. replace (a ^ 2 * (1 - (1 - (1 - f) ^ 2))) with (smna ^ 2) by (unfold smna; ring).
  apply sqrt_pow2. unfold smna. nra.
Qed.
Definition lat_of (a q : R) (v : vec) : R :=
  let p := sqrt (vx v ^ 2 + vy v ^ 2) in
  let th := atan2 (a * vz v) (q * a * p) in
  atan2 (vz v + (1 - q ^ 2) / q * a * sin th ^ 3) (p - (1 - q ^ 2) * a * cos th ^ 3).
Lemma raw_eq : forall k v, 0 < k_major k -> 0 <= k_flat k < 1 ->
  let q := 1 - k_flat k in let lat := lat_of (k_major k) q v in
  ecef2lla_raw k v =
  (V lat (rmod (atan2 (vy v) (vx v)) (2 * PI))
     (sqrt (vx v ^ 2 + vy v ^ 2) / cos lat - k_major k / sqrt (1 - (1 - q ^ 2) * sin lat ^ 2)),
   q * k_major k).
Proof.
  intros k v A F q lat. unfold ecef2lla_raw. cbv zeta.
  destruct (minor (k_major k) (k_flat k) A F) as [E B]. rewrite B, E.
  assert (EP : sqrt ((k_major k ^ 2 - ((1 - k_flat k) * k_major k) ^ 2) / ((1 - k_flat k) * k_major k) ^ 2) ^ 2
               * ((1 - k_flat k) * k_major k) = (1 - q ^ 2) / q * k_major k).
  { assert (0 < 1 - k_flat k <= 1) by lra. assert (0 < k_major k ^ 2) by nra.
    rewrite pow2_sqrt; [unfold q; field; lra|].
    replace ((k_major k ^ 2 - ((1 - k_flat k) * k_major k) ^ 2) / ((1 - k_flat k) * k_major k) ^ 2)
      with ((1 - (1 - k_flat k) ^ 2) * / (1 - k_flat k) ^ 2) by (field; lra).
    apply Rmult_le_pos; [nra|]. left. apply Rinv_0_lt_compat. nra. }
  rewrite EP. reflexivity.
Qed.

Lemma near_axis_spec : forall v, near_axis v = true <-> Rabs (vx v) < 1 /\ Rabs (vy v) < 1.
Proof.
  intro v. unfold near_axis. destruct (Rlt_dec (Rabs (vx v)) 1), (Rlt_dec (Rabs (vy v)) 1); cbn; split; intros; try discriminate; try lra; auto.
Qed.

Lemma off_axis : forall x y, ~ (Rabs x < 1 /\ Rabs y < 1) -> (x, y) <> (0, 0).
Proof. intros x y H E. injection E as -> ->. apply H. rewrite Rabs_R0. lra. Qed.

(** Bowring's formula is exact on the ellipsoid. *)
Lemma bowring : forall a q lat lon, 0 < a -> 0 < q <= 1 -> - PI < lat <= PI -> 0 < cos lat ->
  let N := N_of a q lat in
  let v := V (N * cos lat * cos lon) (N * cos lat * sin lon) (N * q ^ 2 * sin lat) in
  sqrt (vx v ^ 2 + vy v ^ 2) = N * cos lat /\ lat_of a q v = lat.
Proof.
  intros a q lat lon A Q L C N v. pose proof (N_pos a q lat A Q) as NP. fold N in NP.
  pose proof (N_sq a q lat A Q) as NS. fold N in NS. clearbody N. pose proof (sin2_cos2 lon) as T. pose proof (sin2_cos2 lat) as T2.
  assert (P : sqrt (vx v ^ 2 + vy v ^ 2) = N * cos lat).
  { unfold v. cbn [vx vy]. replace ((N * cos lat * cos lon) ^ 2 + (N * cos lat * sin lon) ^ 2) with ((N * cos lat) ^ 2).
    - apply sqrt_pow2. nra.
    - replace ((N * cos lat * cos lon) ^ 2 + (N * cos lat * sin lon) ^ 2) with ((N * cos lat) ^ 2 * (sin lon ^ 2 + cos lon ^ 2)) by ring.
      rewrite T. ring. }
  split; [exact P|]. unfold lat_of. rewrite P. change (vz v) with (N * q ^ 2 * sin lat). cbv zeta.
  set (D := 1 - (1 - q ^ 2) * sin lat ^ 2) in *.
  assert (DP : 0 < D) by (apply root_pos; exact Q).
  (* the reduced latitude *)
  set (th := atan2 (a * (N * q ^ 2 * sin lat)) (q * a * (N * cos lat))).
  destruct (atan2_polar (a * (N * q ^ 2 * sin lat)) (q * a * (N * cos lat))) as [H1 [H2 _]].
  { intro E. injection E as E1 E2. assert (0 < q * a * (N * cos lat)) by (repeat (apply Rmult_lt_0_compat); [apply Q|exact A|exact NP|exact C]). rewrite E1 in H. apply (Rlt_irrefl _ H). }
  fold th in H1, H2.
  assert (RR : sqrt ((q * a * (N * cos lat)) ^ 2 + (a * (N * q ^ 2 * sin lat)) ^ 2) = q * a ^ 2).
  { replace ((q * a * (N * cos lat)) ^ 2 + (a * (N * q ^ 2 * sin lat)) ^ 2) with ((q * a ^ 2) ^ 2).
    - apply sqrt_pow2. nra.
    - replace ((q * a * (N * cos lat)) ^ 2 + (a * (N * q ^ 2 * sin lat)) ^ 2)
        with ((q * a) ^ 2 * (N ^ 2 * (cos lat ^ 2 + q ^ 2 * sin lat ^ 2))) by ring.
      replace (cos lat ^ 2 + q ^ 2 * sin lat ^ 2) with D by (unfold D; lra). rewrite NS. ring. }
  rewrite RR in H1, H2.
  assert (A2 : q * a ^ 2 <> 0) by (apply Rgt_not_eq, Rmult_lt_0_compat; [lra|apply pow_lt; lra]).
  assert (CT : cos th = N * cos lat / a) by (apply (Rmult_eq_reg_l (q * a ^ 2)); [rewrite H1; field; lra|exact A2]).
  assert (ST : sin th = N * q * sin lat / a) by (apply (Rmult_eq_reg_l (q * a ^ 2)); [rewrite H2; field; lra|exact A2]).
  rewrite CT, ST.
  assert (S1 : N * q ^ 2 * sin lat + (1 - q ^ 2) / q * a * (N * q * sin lat / a) ^ 3 = (N ^ 3 * q ^ 2 / a ^ 2) * sin lat).
  { replace (N * q ^ 2 * sin lat) with (N * q ^ 2 * sin lat * (N ^ 2 * D / a ^ 2)) by (rewrite NS; field; lra).
    unfold D. field. lra. }
  assert (S2 : N * cos lat - (1 - q ^ 2) * a * (N * cos lat / a) ^ 3 = (N ^ 3 * q ^ 2 / a ^ 2) * cos lat).
  { replace (N * cos lat) with (N * cos lat * (N ^ 2 * D / a ^ 2)) at 1 by (rewrite NS; field; lra).
    replace D with (q ^ 2 + (1 - q ^ 2) * cos lat ^ 2) by (unfold D; nra). field. lra. }
  rewrite S1, S2. apply atan2_unique; [|exact L].
  apply Rdiv_lt_0_compat; [|nra]. apply Rmult_lt_0_compat; apply pow_lt; lra.
Qed.

(** * Angles *)

Lemma dot_comm : forall u v, dot u v = dot v u.
Proof. induction u as [|x u IH]; destruct v as [|y v]; cbn [dot]; try reflexivity. rewrite IH. ring. Qed.
Lemma dot_scale_l : forall k u v, dot (map (Rmult k) u) v = k * dot u v.
Proof. intro k. induction u as [|x u IH]; destruct v as [|y v]; cbn [dot map]; try ring. rewrite IH. ring. Qed.
Lemma dot_scale_r : forall k u v, dot u (map (Rmult k) v) = k * dot u v.
Proof. intros. rewrite dot_comm, dot_scale_l, dot_comm. reflexivity. Qed.
Lemma dot_self : forall u, 0 <= dot u u.
Proof. induction u as [|x u IH]; cbn [dot]; nra. Qed.
Lemma dot_self_0 : forall u, dot u u = 0 -> forall x, In x u -> x = 0.
Proof.
  induction u as [|y u IH]; intros H x I; [destruct I|]. cbn [dot] in H. pose proof (dot_self u).
  destruct I as [<-|I]; [nra|]. apply IH; [nra|exact I].
Qed.
Lemma dot_comb : forall x y u v, length u = length v ->
  exists w, dot w w = x ^ 2 * dot u u - 2 * x * y * dot u v + y ^ 2 * dot v v.
Proof.
  intros x y. induction u as [|p u IH]; intros [|q v] L; try discriminate.
  - exists []. cbn. ring.
  - injection L as L. destruct (IH v L) as [w W]. exists ((x * p - y * q) :: w). cbn [dot]. rewrite W. ring.
Qed.
Lemma cauchy : forall u v, length u = length v -> dot u v ^ 2 <= dot u u * dot v v.
Proof.
  intros u v L. pose proof (dot_self u) as A. pose proof (dot_self v) as B.
  destruct (dot_comb (dot v v) (dot u v) u v L) as [w W]. pose proof (dot_self w) as Cw. rewrite W in Cw.
  destruct (dot_comb (dot u v) (dot u u) u v L) as [w2 W2]. pose proof (dot_self w2) as C2. rewrite W2 in C2.
  assert (P : 0 <= dot v v * (dot u u * dot v v - dot u v ^ 2)) by nra.
  assert (P2 : 0 <= dot u u * (dot u u * dot v v - dot u v ^ 2)) by nra.
  destruct (Rlt_dec 0 (dot v v)); [nra|]. destruct (Rlt_dec 0 (dot u u)); [nra|].
  assert (dot v v = 0) by lra. assert (dot u u = 0) by lra.
  destruct (dot_comb 1 1 u v L) as [w3 W3]. pose proof (dot_self w3).
  destruct (dot_comb 1 (-1) u v L) as [w4 W4]. pose proof (dot_self w4). nra.
Qed.
Lemma norm_nonneg : forall u, 0 <= norm u.
Proof. intro u. apply sqrt_pos. Qed.
Lemma norm_sq : forall u, norm u ^ 2 = dot u u.
Proof. intro u. unfold norm. apply pow2_sqrt, dot_self. Qed.
Lemma norm_0 : forall u, norm u = 0 <-> forall x, In x u -> x = 0.
Proof.
  intro u. split.
  - intro H. apply dot_self_0. rewrite <- norm_sq, H. ring.
  - intro H. unfold norm. replace (dot u u) with 0; [apply sqrt_0|].
    induction u as [|x u IH]; [reflexivity|]. cbn [dot]. rewrite (H x (or_introl eq_refl)), <- IH; [ring|].
    intros y I. apply H. right. exact I.
Qed.
Lemma norm_scale : forall k u, norm (map (Rmult k) u) = Rabs k * norm u.
Proof.
  intros k u. unfold norm. rewrite dot_scale_l, dot_scale_r.
  replace (k * (k * dot u u)) with (k ^ 2 * dot u u) by ring.
  rewrite sqrt_mult; [|nra|apply dot_self]. f_equal. rewrite <- (sqrt_Rsqr_abs k). f_equal. unfold Rsqr. ring.
Qed.

Lemma cosine_range : forall u v, length u = length v -> norm u * norm v <> 0 ->
  -1 <= dot u v / (norm u * norm v) <= 1.
Proof.
  intros u v L N. pose proof (norm_nonneg u). pose proof (norm_nonneg v).
  assert (P : 0 < norm u * norm v) by nra.
  pose proof (cauchy u v L) as C. rewrite <- !norm_sq in C.
  assert (Rabs (dot u v) <= norm u * norm v).
  { apply Rsqr_incr_0_var; [|lra]. rewrite <- Rsqr_abs. unfold Rsqr. nra. }
  unfold Rabs in H1. destruct (Rcase_abs (dot u v)).
  - split; apply (Rmult_le_reg_r (norm u * norm v)); try lra; unfold Rdiv; rewrite Rmult_assoc, Rinv_l; lra.
  - split; apply (Rmult_le_reg_r (norm u * norm v)); try lra; unfold Rdiv; rewrite Rmult_assoc, Rinv_l; lra.
Qed.
Lemma angle_eq : forall u v, length u = length v -> norm u <> 0 -> norm v <> 0 ->
  angle_between u v = Some (acos (dot u v / (norm u * norm v))).
Proof.
  intros u v L A B. assert (N : norm u * norm v <> 0) by (apply Rmult_integral_contrapositive_currified; assumption).
  pose proof (cosine_range u v L N) as C. unfold angle_between. destruct (Req_EM_T (norm u * norm v) 0); [contradiction|].
  destruct (Rlt_dec 1 (dot u v / (norm u * norm v))); [lra|]. unfold arccos.
  destruct (Rlt_dec _ (-1)); [lra|]. destruct (Rlt_dec 1 _); [lra|]. reflexivity.
Qed.
Lemma at_height : forall k lat lon alt, oblate k ->
  lla2ecef k false (V lat lon alt) = vadd (lla2ecef k false (V lat lon 0)) (vscale alt (zenith lat lon)).
Proof.
  intros k lat lon alt O. rewrite !lla2ecef_eq by exact O. unfold vadd, vscale, zenith. cbv zeta. cbn [vx vy vz].
  f_equal; ring.
Qed.
