(** The geometry of a circular pass. *)
From Coq Require Import List ZArith QArith Reals Bool Lia Lra Psatz Arith.
From Verif Require Import Common GeoModel ChainModel ChainSpec FullSpec HeldSpec HoleSpec ManySpec WholeModel WholeSpec SplitProofs LaidSpec CircSpec.
From Verif Require SurfModel DopModel.
Import ListNotations.
Local Open Scope R_scope.

(** * Off-nadir angles *)
Section Ring.
Variable g : ring.
Notation a := (r_ground g).
Notation r := (r_sat g).
Hypothesis GR : 0 < a < r.

Definition dist2 (x : R) : R := r ^ 2 + a ^ 2 - 2 * a * r * cos x.
Lemma dist2_pos : forall x, 0 < dist2 x.
Proof.
  intros x. unfold dist2. pose proof (COS_bound x).
  replace (r ^ 2 + a ^ 2 - 2 * a * r * cos x) with ((r - a) * (r - a) + 2 * (a * r * (1 - cos x))) by ring.
  assert (0 < (r - a) * (r - a)) by (apply Rmult_lt_0_compat; lra).
  assert (0 <= a * r * (1 - cos x)) by (apply Rmult_le_pos; [apply Rmult_le_pos|]; lra). lra.
Qed.
Lemma dist_pos : forall x, 0 < sqrt (dist2 x).
Proof. intros x. apply sqrt_lt_R0. apply dist2_pos. Qed.
Lemma off_0 : off_nadir g 0 = 0.
Proof. unfold off_nadir. rewrite sin_0. unfold Rdiv. ring. Qed.
Lemma off_neg : forall x, off_nadir g (- x) = - off_nadir g x.
Proof. intros x. unfold off_nadir. rewrite sin_neg, cos_neg. unfold Rdiv. ring. Qed.
Lemma off_cos : forall x, off_nadir g x * off_nadir g x + ((r - a * cos x) / sqrt (dist2 x)) * ((r - a * cos x) / sqrt (dist2 x)) = 1.
Proof.
  intros x. unfold off_nadir. fold (dist2 x). pose proof (dist_pos x) as P. pose proof (sqrt_sqrt (dist2 x) (Rlt_le _ _ (dist2_pos x))) as Q.
  set (d := sqrt (dist2 x)) in *. field_simplify_eq; [|lra]. unfold dist2 in Q. pose proof (sin2_cos2 x) as SC. unfold Rsqr in SC. nra.
Qed.
Lemma off_pos : forall x, 0 <= x <= PI -> 0 <= off_nadir g x.
Proof.
  intros x H. unfold off_nadir. fold (dist2 x). apply Rmult_le_pos; [|left; apply Rinv_0_lt_compat, dist_pos].
  apply Rmult_le_pos; [lra|]. apply sin_ge_0; lra.
Qed.
Lemma off_bound : forall x, -1 <= off_nadir g x <= 1.
Proof.
  intros x. pose proof (off_cos x) as E. set (y := (r - a * cos x) / sqrt (dist2 x)) in *. pose proof (Rle_0_sqr y) as Y. unfold Rsqr in Y.
  clearbody y. set (z := off_nadir g x) in *. clearbody z. clear - E Y. split.
  - destruct (Rle_or_lt (-1) z) as [L|L]; [exact L|]. assert (0 < (-1 - z) * (1 - z)) by (apply Rmult_lt_0_compat; lra). lra.
  - destruct (Rle_or_lt z 1) as [L|L]; [exact L|]. assert (0 < (z - 1) * (z + 1)) by (apply Rmult_lt_0_compat; lra). lra.
Qed.

Variable H : R.
Hypothesis HP : 0 <= H <= PI / 2.
Hypothesis HR : a <= r * cos H.
Lemma off_lt : forall x y, 0 <= x -> x < y -> y <= H -> off_nadir g x < off_nadir g y.
Proof.
  intros x y X XY Y. pose proof PI_RGT_0 as PP.
  assert (CX : cos y < cos x) by (apply cos_decreasing_1; lra).
  assert (CH : cos H <= cos y) by (destruct (Req_dec y H) as [->|N]; [lra|left; apply cos_decreasing_1; lra]).
  pose proof (COS_bound x) as BX.
  pose proof (off_pos x ltac:(lra)) as PX. pose proof (off_pos y ltac:(lra)) as PY.
  destruct (Rlt_or_le (off_nadir g x) (off_nadir g y)) as [L|L]; [exact L|exfalso].
  assert (SQ : off_nadir g y * off_nadir g y <= off_nadir g x * off_nadir g x) by nra.
  assert (E : forall z, off_nadir g z * off_nadir g z = a * a * (1 - cos z * cos z) / dist2 z).
  { intros z. unfold off_nadir. fold (dist2 z). pose proof (sqrt_sqrt (dist2 z) (Rlt_le _ _ (dist2_pos z))) as Q. pose proof (dist_pos z) as P.
    pose proof (sin2_cos2 z) as SC. unfold Rsqr in SC. replace (1 - cos z * cos z) with (sin z * sin z) by lra.
    set (d := sqrt (dist2 z)) in *. rewrite <- Q. field. lra. }
  rewrite !E in SQ. pose proof (dist2_pos x) as DX. pose proof (dist2_pos y) as DY.
  assert (SQ' : a * a * (1 - cos y * cos y) * dist2 x <= a * a * (1 - cos x * cos x) * dist2 y).
  { apply (Rmult_le_compat_r (dist2 x * dist2 y)) in SQ; [|nra].
    replace (a * a * (1 - cos y * cos y) / dist2 y * (dist2 x * dist2 y)) with (a * a * (1 - cos y * cos y) * dist2 x) in SQ by (field; lra).
    replace (a * a * (1 - cos x * cos x) / dist2 x * (dist2 x * dist2 y)) with (a * a * (1 - cos x * cos x) * dist2 y) in SQ by (field; lra). exact SQ. }
  assert (SQ2 : (1 - cos y * cos y) * dist2 x <= (1 - cos x * cos x) * dist2 y).
  { apply (Rmult_le_reg_l (a * a)); [nra|]. lra. }
  unfold dist2 in SQ2. set (X' := cos x) in *. set (Y' := cos y) in *.
  assert (D : (X' - Y') * ((r ^ 2 + a ^ 2) * (X' + Y') - 2 * a * r * (1 + X' * Y')) <= 0) by (ring_simplify; ring_simplify in SQ2; lra).
  assert (YR : a <= r * Y') by (apply Rle_trans with (r * cos H); [exact HR|apply Rmult_le_compat_l; lra]).
  assert (F : 0 < (r ^ 2 + a ^ 2) * (X' + Y') - 2 * a * r * (1 + X' * Y')).
  { apply (Rmult_lt_reg_l r); [lra|]. rewrite Rmult_0_r.
    set (p := r * X' - a). set (q := r * Y' - a).
    assert (P1 : 0 < p) by (unfold p; nra). assert (P2 : p <= r - a) by (unfold p; nra). assert (Q1 : 0 <= q) by (unfold q; lra).
    assert (Q2 : q <= r - a) by (unfold q; nra).
    replace (r * ((r ^ 2 + a ^ 2) * (X' + Y') - 2 * a * r * (1 + X' * Y'))) with ((r * r - a * a) * (p + q) - 2 * a * (p * q)) by (unfold p, q; ring).
    assert (p * q <= (r - a) * q) by (apply Rmult_le_compat_r; lra). assert (p * q <= p * (r - a)) by (apply Rmult_le_compat_l; lra).
    assert (0 < (r - a) * p) by (apply Rmult_lt_0_compat; lra). assert (0 <= (r - a) * q) by (apply Rmult_le_pos; lra).
    assert (a * (p * q) <= a * ((r - a) * q)) by (apply Rmult_le_compat_l; lra). assert (a * (p * q) <= a * (p * (r - a))) by (apply Rmult_le_compat_l; lra).
    assert (0 < r * ((r - a) * p)) by (apply Rmult_lt_0_compat; lra). assert (0 <= r * ((r - a) * q)) by (apply Rmult_le_pos; lra).
    lra. }
  assert (0 < (X' - Y') * ((r ^ 2 + a ^ 2) * (X' + Y') - 2 * a * r * (1 + X' * Y'))) by (apply Rmult_lt_0_compat; lra). lra.
Qed.
Lemma off_le_iff : forall x y, 0 <= x <= H -> 0 <= y <= H -> (off_nadir g x <= off_nadir g y <-> x <= y).
Proof.
  intros x y X Y. split; intros L.
  - destruct (Rle_or_lt x y) as [A|A]; [exact A|]. pose proof (off_lt y x ltac:(lra) A ltac:(lra)). lra.
  - destruct (Req_dec x y) as [->|N]; [lra|]. left. apply off_lt; lra.
Qed.
End Ring.

(** * Positions *)
Lemma asin_lt : forall x y, -1 <= x -> x < y -> y <= 1 -> asin x < asin y.
Proof.
  intros x y X XY Y. destruct (Rlt_or_le (asin x) (asin y)) as [L|L]; [exact L|exfalso].
  pose proof (asin_bound x). pose proof (asin_bound y).
  assert (sin (asin y) <= sin (asin x)) by (apply sin_incr_1; lra). rewrite !sin_asin in H1 by lra. lra.
Qed.
Lemma acos_asin : forall c s, c * c + s * s = 1 -> 0 <= c -> 0 <= s -> acos c = asin s.
Proof.
  intros c s E C S. assert (S1 : s <= 1) by (destruct (Rle_or_lt s 1) as [L|L]; [exact L|exfalso]; nra).
  pose proof PI_RGT_0 as PP. assert (A : 0 <= asin s) by (rewrite <- asin_0; destruct (Req_dec s 0) as [->|N]; [lra|left; apply asin_lt; lra]).
  pose proof (asin_bound s). rewrite <- (acos_cos (asin s)) by lra. f_equal. rewrite cos_asin by lra.
  replace (1 - s²) with (c * c) by (unfold Rsqr; lra). symmetry. apply sqrt_square. exact C.
Qed.
Lemma ecef_equator : forall k lon alt, lla2ecef k false (V 0 lon alt) = around (k_major k + alt) lon.
Proof.
  intros k lon alt. unfold lla2ecef, around. cbn [vx vy vz]. rewrite sin_0, cos_0, !Rmult_0_r.
  replace (1 - 0 ^ 2) with 1 by ring. rewrite sqrt_1. unfold Rdiv at 1 2. rewrite Rinv_1. f_equal; ring.
Qed.
Lemma norm3 : forall x y z, norm (vlist (V x y z)) = sqrt (x * x + (y * y + (z * z + 0))).
Proof. reflexivity. Qed.
Lemma dot3 : forall x y z x' y' z', dot (vlist (V x y z)) (vlist (V x' y' z')) = x * x' + (y * y' + (z * z' + 0)).
Proof. reflexivity. Qed.
Lemma norm_along : forall v t, 0 < v -> norm (vlist (along v t)) = v.
Proof.
  intros v t V0. unfold along. rewrite norm3. pose proof (sin2_cos2 t) as SC. unfold Rsqr in SC.
  replace (- (v * sin t) * - (v * sin t) + (v * cos t * (v * cos t) + (0 * 0 + 0))) with (v * v) by nra. apply sqrt_square. lra.
Qed.
Section Look.
Variable g : ring.
Notation a := (r_ground g).
Notation r := (r_sat g).
Hypothesis GR : 0 < a < r.
Lemma norm_to : forall x y, norm (vlist (vsub (around a y) (around r x))) = sqrt (dist2 g (y - x)).
Proof.
  intros x y. unfold vsub, around. cbn [vx vy vz]. rewrite norm3. f_equal. unfold dist2. rewrite cos_minus.
  pose proof (sin2_cos2 x) as SX. pose proof (sin2_cos2 y) as SY. unfold Rsqr in SX, SY.
  replace ((a * cos y - r * cos x) * (a * cos y - r * cos x) + ((a * sin y - r * sin x) * (a * sin y - r * sin x) + ((0 - 0) * (0 - 0) + 0)))
    with (a * a * (sin y * sin y + cos y * cos y) + r * r * (sin x * sin x + cos x * cos x) - 2 * a * r * (cos y * cos x + sin y * sin x)) by ring.
  rewrite SX, SY. ring.
Qed.
Lemma dist2_0 : sqrt (dist2 g 0) = r - a.
Proof. unfold dist2. rewrite cos_0. replace (r ^ 2 + a ^ 2 - 2 * a * r * 1) with ((r - a) * (r - a)) by ring. apply sqrt_square. lra. Qed.
Lemma dot_down : forall x y, dot (vlist (vsub (around a x) (around r x))) (vlist (vsub (around a y) (around r x))) = (r - a) * (r - a * cos (y - x)).
Proof.
  intros x y. unfold vsub, around. cbn [vx vy vz]. rewrite dot3, cos_minus. pose proof (sin2_cos2 x) as SX. unfold Rsqr in SX.
  replace ((a * cos x - r * cos x) * (a * cos y - r * cos x) + ((a * sin x - r * sin x) * (a * sin y - r * sin x) + ((0 - 0) * (0 - 0) + 0)))
    with ((a - r) * (a * (cos y * cos x + sin y * sin x) - r * (sin x * sin x + cos x * cos x))) by ring.
  rewrite SX. ring.
Qed.
Lemma dot_along : forall v x y, dot (vlist (vsub (around a y) (around r x))) (vlist (along v x)) = v * (a * sin (y - x)).
Proof.
  intros v x y. unfold vsub, around, along. cbn [vx vy vz]. rewrite dot3, sin_minus. ring.
Qed.
Lemma nadir_angle : forall x y, 0 <= y - x <= PI / 2 ->
  angle_between (vlist (vsub (around a x) (around r x))) (vlist (vsub (around a y) (around r x))) = Some (asin (off_nadir g (y - x))).
Proof.
  intros x y B. unfold angle_between. rewrite dot_down, !norm_to. replace (x - x) with 0 by ring. rewrite dist2_0. pose proof (dist_pos g GR (y - x)) as DP.
  destruct (Req_EM_T _ _) as [E|_]; [apply Rmult_integral in E; lra|].
  replace ((r - a) * (r - a * cos (y - x)) / ((r - a) * sqrt (dist2 g (y - x)))) with ((r - a * cos (y - x)) / sqrt (dist2 g (y - x))) by (field; lra).
  pose proof (off_cos g GR (y - x)) as OC. set (c := (r - a * cos (y - x)) / sqrt (dist2 g (y - x))) in *.
  pose proof PI_RGT_0 as PP. pose proof (off_pos g GR (y - x) ltac:(lra)) as OP.
  assert (CP : 0 <= c). { unfold c. apply Rmult_le_pos; [|left; apply Rinv_0_lt_compat; exact DP]. pose proof (COS_bound (y - x)). nra. }
  assert (C1 : c <= 1) by (destruct (Rle_or_lt c 1) as [L|L]; [exact L|exfalso]; nra).
  destruct (Rlt_dec 1 c); [lra|]. unfold arccos. destruct (Rlt_dec c (-1)); [lra|]. destruct (Rlt_dec 1 c); [lra|].
  f_equal. apply acos_asin; lra.
Qed.
Lemma beam_off : forall v x y, 0 < v -> DopModel.beam_angle (around r x) (along v x) (around a y) = Some (acos (off_nadir g (y - x))).
Proof.
  intros v x y V0. unfold DopModel.beam_angle. rewrite norm_to, norm_along, dot_along by exact V0. pose proof (dist_pos g GR (y - x)) as DP.
  destruct (Req_EM_T _ _) as [E|_]; [apply Rmult_integral in E; lra|].
  replace (v * (a * sin (y - x)) / (sqrt (dist2 g (y - x)) * v)) with (off_nadir g (y - x)) by (unfold off_nadir; fold (dist2 g (y - x)); field; lra).
  pose proof (off_bound g GR (y - x)). unfold arccos. destruct (Rlt_dec _ (-1)); [lra|]. destruct (Rlt_dec 1 _); [lra|]. reflexivity.
Qed.
End Look.
Lemma dop_0 : forall k mean lon alt v, k_pi k = PI -> mean <> 0 -> 0 < v ->
  DopModel.doppler_angle k mean (V 0 lon alt) (along v lon) = Some 0.
Proof.
  intros k mean lon alt v KP M V0. unfold DopModel.doppler_angle. cbn [vx vy vz]. rewrite !ecef_equator.
  assert (NE : vsub (around (k_major k + (alt - mean)) lon) (around (k_major k + alt) lon) = around (- mean) lon).
  { unfold vsub, around. cbn [vx vy vz]. f_equal; ring. }
  rewrite NE. pose proof (sin2_cos2 lon) as SC. unfold Rsqr in SC.
  assert (CR : DopModel.cross (DopModel.cross (around (- mean) lon) (along v lon)) (around (- mean) lon) = along (mean * mean * v) lon).
  { unfold DopModel.cross, around, along. cbn [vx vy vz].
    set (s := sin lon) in *. set (c := cos lon) in *. f_equal.
    - replace (- (mean * mean * v * s)) with (- (mean * mean * v * s * (s * s + c * c))) by (rewrite SC; ring). ring.
    - replace (mean * mean * v * c) with (mean * mean * v * c * (s * s + c * c)) by (rewrite SC; ring). ring.
    - ring. }
  rewrite CR. assert (0 < mean * mean) by (destruct (Rlt_or_le 0 mean); nra).
  assert (W : 0 < mean * mean * v) by (apply Rmult_lt_0_compat; lra).
  unfold angle_between. rewrite !norm_along by lra.
  destruct (Req_EM_T _ _) as [E|_]; [apply Rmult_integral in E; lra|].
  assert (D : dot (vlist (along v lon)) (vlist (along (mean * mean * v) lon)) = v * (mean * mean * v)).
  { unfold along. rewrite dot3. replace (- (v * sin lon) * - (mean * mean * v * sin lon) + (v * cos lon * (mean * mean * v * cos lon) + (0 * 0 + 0)))
      with (v * (mean * mean * v) * (sin lon * sin lon + cos lon * cos lon)) by ring. rewrite SC. ring. }
  rewrite D. replace (v * (mean * mean * v) / (v * (mean * mean * v))) with 1 by (field; lra).
  destruct (Rlt_dec 1 1); [lra|]. unfold arccos. destruct (Rlt_dec 1 (-1)); [lra|]. destruct (Rlt_dec 1 1); [lra|].
  rewrite acos_1, KP. pose proof PI_RGT_0. destruct (Rlt_dec 0 (PI / 2)); [|lra]. f_equal. ring.
Qed.

(** * The pass *)
Lemma acos_le_iff : forall x y, -1 <= x <= 1 -> -1 <= y <= 1 -> (acos x <= acos y <-> y <= x).
Proof.
  intros x y X Y. pose proof (acos_bound x) as BX. pose proof (acos_bound y) as BY. split; intros L.
  - assert (D : cos (acos y) <= cos (acos x)) by (apply cos_decr_1; lra). rewrite !cos_acos in D by lra. exact D.
  - destruct (Rle_or_lt (acos x) (acos y)) as [A|A]; [exact A|exfalso].
    assert (D : cos (acos x) < cos (acos y)) by (apply cos_decreasing_1; lra). rewrite !cos_acos in D by lra. lra.
Qed.
Lemma bursts_nth : forall u input, (forall p i, nth_error input p = Some i -> exists r, i = WValid r) -> forall p,
  nth_error (bursts_in u input) p = match nth_error input p with Some (WValid r) => Some (prepared u r) | _ => None end.
Proof.
  intros u. induction input as [|i input IH]; intros H p; [destruct p; reflexivity|].
  destruct (H 0%nat i eq_refl) as (r & ->). destruct p as [|p]; [reflexivity|]. cbn. apply IH. intros q j E. exact (H (S q) j E).
Qed.
Lemma bursts_length : forall u input, (forall p i, nth_error input p = Some i -> exists r, i = WValid r) -> length (bursts_in u input) = length input.
Proof.
  intros u. induction input as [|i input IH]; intros H; [reflexivity|].
  destruct (H 0%nat i eq_refl) as (r & ->). cbn. f_equal. apply IH. intros q j E. exact (H (S q) j E).
Qed.

Lemma Forall2_nth2 : forall A B (Q : A -> B -> Prop) l l', Forall2 Q l l' -> forall i x y, nth_error l i = Some x -> nth_error l' i = Some y -> Q x y.
Proof.
  intros A B Q l l' F. induction F as [|e j l l' H F IH]; intros [|i] x y N NS; try discriminate; cbn in N, NS; [injection N as <-; injection NS as <-; exact H|eauto].
Qed.

Section Pass.
Variables (u : setup) (g : ring) (K m : nat) (input : list witem).
Hypothesis P : ring_pass u g K m input.
Notation k := (SurfModel.g_k (u_g u)).
Notation d := (r_step g).
Notation at_angle := (fun p : nat => INR p * d).
Let n := length input.
Notation far := (n + m + K)%nat.
Let GR : 0 < r_ground g < r_sat g := p_ground _ _ _ _ _ P.

Lemma steps_le : forall i j, (i <= j)%nat -> INR i * d <= INR j * d.
Proof. intros i j L. apply le_INR in L. pose proof (p_step _ _ _ _ _ P). apply Rmult_le_compat_r; lra. Qed.
Lemma steps_lt : forall i j, (i < j)%nat -> INR i * d < INR j * d.
Proof. intros i j L. apply lt_INR in L. pose proof (p_step _ _ _ _ _ P). apply Rmult_lt_compat_r; lra. Qed.
Lemma steps_0 : forall i, 0 <= INR i * d.
Proof. intros i. replace 0 with (INR 0 * d) by (cbn; ring). apply steps_le. lia. Qed.
Lemma steps_far : forall i, (i <= far)%nat -> INR i * d <= PI / 2.
Proof. intros i L. pose proof (steps_le _ _ L). pose proof (p_far _ _ _ _ _ P). unfold n in *. lra. Qed.
Lemma off_far : forall i j, (i < j)%nat -> (j <= far)%nat -> off_nadir g (INR i * d) < off_nadir g (INR j * d).
Proof.
  intros i j L F. apply (off_lt g GR (INR far * d)).
  - split; [apply steps_0|]. exact (p_far _ _ _ _ _ P).
  - exact (p_horizon _ _ _ _ _ P).
  - apply steps_0.
  - apply steps_lt. exact L.
  - apply steps_le. exact F.
Qed.
Lemma off_far_le : forall i j, (i <= j)%nat -> (j <= far)%nat -> off_nadir g (INR i * d) <= off_nadir g (INR j * d).
Proof. intros i j L F. destruct (Nat.eq_dec i j) as [->|N]; [lra|]. left. apply off_far; lia. Qed.

Lemma all_valid_in : forall p i, nth_error input p = Some i -> exists r, i = WValid r.
Proof. intros p i N. destruct (p_rec _ _ _ _ _ P p i N) as (r & E & _). eauto. Qed.

(** a burst of the pass *)
Definition flown (b : SurfModel.burst) (p : nat) : Prop :=
  SurfModel.b_sat b = around (r_sat g) (lon g p) /\ SurfModel.b_surf b = around (r_ground g) (lon g p) /\
  SurfModel.b_vel b = along (r_speed g) (lon g p) /\ SurfModel.b_lla b = V 0 (lon g p) (r_sat g - k_major k) /\
  SurfModel.b_wd b * k_c k / 2 = r_sat g - r_ground g.
Lemma flown_nth : forall p b, nth_error (bursts_in u input) p = Some b -> flown b p /\ (p < n)%nat.
Proof.
  intros p b N. rewrite (bursts_nth u input all_valid_in) in N. destruct (nth_error input p) as [i|] eqn:E; [|discriminate].
  destruct (p_rec _ _ _ _ _ P p i E) as (r & -> & R1 & R2 & R3). injection N as <-. split.
  - unfold flown, prepared, SurfModel.locate_burst. cbn [SurfModel.b_sat SurfModel.b_surf SurfModel.b_vel SurfModel.b_lla SurfModel.b_wd].
    rewrite R1, R3. cbn [vx vy vz]. rewrite !ecef_equator, R2. repeat split; try (f_equal; ring); exact R2.
  - apply nth_error_Some. congruence.
Qed.

(** a surface below one *)
Definition put (x : SurfModel.surface) (s : nat) : Prop :=
  let t := lon g (s * K) in
  SurfModel.s_uid x = s /\ SurfModel.s_dir x = vsub (around (r_ground g) t) (around (r_sat g) t) /\
  SurfModel.s_res x = Some (asin (off_nadir g (INR K * d))) /\
  exists l, SurfModel.s_loc x = Some l /\ SurfModel.l_surf l = around (r_ground g) t /\ SurfModel.l_sat l = around (r_sat g) t /\
    SurfModel.l_vel l = along (r_speed g) t.
Lemma put_new : forall s l, let t := lon g (s * K) in
  SurfModel.l_surf l = around (r_ground g) t -> SurfModel.l_sat l = around (r_sat g) t -> SurfModel.l_vel l = along (r_speed g) t ->
  put (SurfModel.new_surface (u_g u) s (Some l)) s.
Proof.
  intros s l t L1 L2 L3. unfold put. fold t. cbn [SurfModel.new_surface SurfModel.s_uid SurfModel.s_dir SurfModel.s_res SurfModel.s_loc].
  rewrite L1, L2, L3. repeat split.
  - unfold SurfModel.resolution. rewrite (norm_along _ _ (p_speed _ _ _ _ _ P)).
    pose proof (p_freq _ _ _ _ _ P). pose proof (p_speed _ _ _ _ _ P). pose proof (p_pulses _ _ _ _ _ P).
    destruct (Req_EM_T _ 0) as [E|_].
    + exfalso. assert (0 < 2 * SurfModel.g_freq (u_g u) * r_speed g * (SurfModel.g_pulses (u_g u) * SurfModel.g_pri (u_g u))).
      { apply Rmult_lt_0_compat; [|assumption]. apply Rmult_lt_0_compat; [|assumption]. lra. } lra.
    + rewrite (p_due _ _ _ _ _ P). pose proof (off_bound g GR (INR K * d)). unfold arcsin. destruct (Rlt_dec _ (-1)); [lra|]. destruct (Rlt_dec 1 _); [lra|]. reflexivity.
  - exists l. auto.
Qed.
Lemma put_angle : forall x s b p, put x s -> flown b p -> (s * K <= p)%nat -> (p <= s * K + far)%nat ->
  SurfModel.angle_to x b = Some (asin (off_nadir g (INR (p - s * K) * d))).
Proof.
  intros x s b p (X1 & X2 & X3 & l & X4 & X5 & X6 & _) (B1 & B2 & _) L F. unfold SurfModel.angle_to. rewrite X4, X2, B2, X6.
  rewrite (nadir_angle g GR).
  - rewrite minus_INR by exact L. do 3 f_equal. unfold lon. ring.
  - replace (lon g p - lon g (s * K)) with (INR (p - s * K) * d) by (rewrite minus_INR by exact L; unfold lon; ring).
    split; [apply steps_0|]. apply steps_far. lia.
Qed.
Lemma asin_far : forall i j, (i < j)%nat -> (j <= far)%nat -> asin (off_nadir g (INR i * d)) < asin (off_nadir g (INR j * d)).
Proof.
  intros i j L F. pose proof (off_bound g GR (INR i * d)). pose proof (off_bound g GR (INR j * d)). apply asin_lt; try lra. now apply off_far.
Qed.
Lemma not_yet : forall x s pb b p, put x s -> flown b p -> (s * K <= p < S s * K)%nat ->
  SurfModel.find_new_location k x pb b = None.
Proof.
  intros x s pb b p X B L. unfold SurfModel.find_new_location. cbv zeta. rewrite (put_angle x s b p X B) by lia.
  destruct X as (_ & _ & -> & _). cbn [SurfModel.flt]. pose proof (asin_far (p - s * K) K ltac:(lia) ltac:(lia)).
  destruct (Rlt_dec _ _); [reflexivity|lra].
Qed.
Lemma vmix_1 : forall x y, SurfModel.vmix 1 x y = y.
Proof. intros x [y1 y2 y3]. unfold SurfModel.vmix, SurfModel.mix. cbn [vx vy vz]. f_equal; ring. Qed.
Lemma now_due : forall x s pb b p, put x s -> flown pb p -> flown b (S p) -> S p = (S s * K)%nat -> (s * K <= p)%nat ->
  exists l, SurfModel.find_new_location k x pb b = Some (Some l) /\ put (SurfModel.new_surface (u_g u) (S s) (Some l)) (S s).
Proof.
  intros x s pb b p X PB B E L. unfold SurfModel.find_new_location. cbv zeta.
  rewrite (put_angle x s b (S p) X B) by lia. rewrite (put_angle x s pb p X PB) by lia. destruct X as (_ & _ & X3 & _). rewrite X3. cbn [SurfModel.flt].
  replace (S p - s * K)%nat with K by lia. destruct (Rlt_dec _ _) as [Z|_]; [lra|]. cbn [SurfModel.weight].
  pose proof (asin_far (p - s * K) K ltac:(lia) ltac:(lia)) as AF. destruct (Req_EM_T _ 0) as [Z|_]; [lra|].
  match goal with |- context [SurfModel.between k ?w pb b] => replace w with 1 by (field; lra) end.
  eexists. split; [reflexivity|]. destruct B as (B1 & B2 & B3 & _). rewrite E in B1, B2, B3.
  apply put_new; unfold SurfModel.between; cbn [SurfModel.l_surf SurfModel.l_sat SurfModel.l_vel]; rewrite vmix_1; assumption.
Qed.
Definition put_at (e : nat * SurfModel.surface) (j : nat) : Prop := fst e = (j * K)%nat /\ put (snd e) j.
Lemma lay_ring : forall bs p s x pb, put x s -> flown pb p -> (s * K <= p < S s * K)%nat ->
  (forall i b, nth_error bs i = Some b -> flown b (S p + i)) ->
  exists c, Forall2 put_at (lay (u_g u) x pb (S s) (S p) bs) (seq (S s) c) /\ ((s + c) * K <= p + length bs < S (s + c) * K)%nat.
Proof.
  induction bs as [|b bs IH]; intros p s x pb X PB L BS.
  - exists 0%nat. split; [constructor|]. cbn [length]. rewrite !Nat.add_0_r. exact L.
  - pose proof (BS 0%nat b eq_refl) as B. rewrite Nat.add_0_r in B.
    assert (BS' : forall i b, nth_error bs i = Some b -> flown b (S (S p) + i)).
    { intros i b' N. replace (S (S p) + i)%nat with (S p + S i)%nat by lia. apply BS. exact N. }
    cbn [lay]. destruct (Nat.eq_dec (S p) (S s * K)) as [E|E].
    + destruct (now_due x s pb b p X PB B E ltac:(lia)) as (l & -> & PN).
      destruct (IH (S p) (S s) _ b PN B ltac:(pose proof (p_K _ _ _ _ _ P); lia) BS') as (c & F & C).
      exists (S c). cbn [seq length]. split; [constructor; [split; [exact E|exact PN]|exact F]|]. replace (s + S c)%nat with (S s + c)%nat by lia. lia.
    + rewrite (not_yet x s pb b (S p) X B ltac:(lia)). destruct (IH (S p) s x b X B ltac:(lia) BS') as (c & F & C).
      exists c. split; [exact F|]. cbn [length]. lia.
Qed.
Lemma laid_ring : Forall2 put_at (laid u input) (seq 0 (ring_count n K)).
Proof.
  unfold laid. pose proof (bursts_length u input all_valid_in) as BL. fold n in BL.
  pose proof flown_nth as FN. destruct (bursts_in u input) as [|b bs].
  - cbn [length] in BL. rewrite <- BL. constructor.
  - cbn [length] in BL. rewrite <- BL. cbn [ring_count]. destruct (FN 0%nat b eq_refl) as (B & _).
    pose proof B as (B1 & B2 & B3 & B4 & B5). cbn [lay_all]. unfold SurfModel.first_location. rewrite B4. cbn [vx vy vz INR].
    assert (NO : forall x, - PI <= x <= PI -> normalize (u_fuel u) (k_pi k) x = Some x).
    { intros x BX. pose proof (p_fuel _ _ _ _ _ P) as FU. rewrite (p_pi _ _ _ _ _ P). pose proof PI_RGT_0. unfold normalize. destruct (u_fuel u) as [|f]; [lia|].
      cbn [turn_up]. destruct (Rlt_dec x (- PI)); [lra|]. cbn [turn_down]. destruct (Rlt_dec PI x); [lra|]. reflexivity. }
    assert (L0 : lon g 0 = r_first g) by (unfold lon; cbn [INR]; ring). pose proof (proj1 (p_place _ _ _ _ _ P 0%nat ltac:(fold n; lia))) as PF. rewrite L0 in PF. pose proof PI_RGT_0 as PP.
    rewrite !NO by (rewrite ?L0; lra).
    match goal with |- context [SurfModel.new_surface (u_g u) 0 (Some ?l)] => set (l0 := l) end.
    assert (PN : put (SurfModel.new_surface (u_g u) 0 (Some l0)) 0).
    { apply put_new; unfold l0; cbn [SurfModel.l_surf SurfModel.l_sat SurfModel.l_vel].
      - rewrite ecef_equator.
        rewrite B5. cbn [Nat.mul INR]. f_equal; ring.
      - exact B1.
      - exact B3. }
    destruct (lay_ring bs 0 0 _ b PN B ltac:(pose proof (p_K _ _ _ _ _ P); lia)) as (c & F & C).
    { intros i b' N. exact (proj1 (FN (S i) b' N)). }
    cbn [seq]. constructor; [split; [reflexivity|exact PN]|]. replace (length bs / K)%nat with c; [exact F|].
    apply (Nat.div_unique _ _ _ (length bs - c * K)); lia.
Qed.

(** What is seen. *)
Lemma reach : forall j, (j <= n)%nat ->
  off_nadir g (INR j * d) <= k_c k / (1 / u_prf u) / 4 / SurfModel.g_freq (u_g u) / r_speed g <-> (j <= m)%nat.
Proof.
  intros j J. destruct (p_beam _ _ _ _ _ P) as (B1 & B2). pose proof (p_K _ _ _ _ _ P). split; intros L.
  - destruct (Nat.le_gt_cases j m) as [A|A]; [exact A|exfalso]. pose proof (off_far_le (S m) j A ltac:(lia)). lra.
  - pose proof (off_far_le j m L ltac:(lia)). lra.
Qed.
Lemma beam_fits : 0 <= k_c k / (1 / u_prf u) / 4 / SurfModel.g_freq (u_g u) / r_speed g <= 1.
Proof.
  destruct (p_beam _ _ _ _ _ P) as (B1 & B2). pose proof (off_bound g GR (INR (S m) * d)). pose proof PI_RGT_0. pose proof (p_K _ _ _ _ _ P).
  assert (FM : INR m * d <= PI / 2) by (apply steps_far; lia). pose proof (steps_0 m) as M0.
  assert (0 <= off_nadir g (INR m * d)) by (apply (off_pos g GR); lra). lra.
Qed.
Lemma low_ring : forall b p, flown b p -> lowest u b = Some (acos (k_c k / (1 / u_prf u) / 4 / SurfModel.g_freq (u_g u) / r_speed g)).
Proof.
  intros b p (_ & _ & B3 & _). unfold lowest, DopModel.q_min. pose proof (p_speed _ _ _ _ _ P) as SP. rewrite B3, (norm_along _ _ SP).
  destruct (Req_EM_T _ 0); [lra|]. pose proof beam_fits. unfold arccos. destruct (Rlt_dec _ (-1)); [lra|]. destruct (Rlt_dec 1 _); [lra|]. reflexivity.
Qed.
Lemma sees_ring : forall b p x s, flown b p -> put x s -> (p < n)%nat -> (s * K < n)%nat -> sees u b x = near K m s p.
Proof.
  intros b p x s B X LP LS. unfold sees. rewrite (low_ring b p B). destruct B as (B1 & B2 & B3 & B4 & B5). destruct X as (_ & _ & _ & l & X4 & X5 & _).
  pose proof (p_speed _ _ _ _ _ P) as SP.
  unfold dop. rewrite B3, B4, (dop_0 _ _ _ _ _ (p_pi _ _ _ _ _ P) (p_mean _ _ _ _ _ P) SP).
  unfold angle. rewrite X4, X5, B1, B3, (beam_off g GR _ _ _ SP). unfold DopModel.in_range. rewrite (p_pi _ _ _ _ _ P).
  set (T := k_c k / (1 / u_prf u) / 4 / SurfModel.g_freq (u_g u) / r_speed g) in *. pose proof beam_fits as BF. fold T in BF.
  set (y := off_nadir g (lon g (s * K) - lon g p)). rewrite Rminus_0_r.
  assert (YB : -1 <= y <= 1) by apply (off_bound g GR). pose proof PI_RGT_0 as PP.
  assert (A1 : acos T <= acos y <-> y <= T) by (apply acos_le_iff; lra).
  assert (A2 : acos y <= PI - acos T <-> - T <= y) by (rewrite <- acos_opp; apply acos_le_iff; lra).
  assert (NY : near K m s p = true <-> - T <= y <= T).
  { unfold near. rewrite andb_true_iff, !Nat.leb_le. destruct (Nat.le_gt_cases p (s * K)) as [L|L].
    - assert (Y : y = off_nadir g (INR (s * K - p) * d)) by (unfold y, lon; f_equal; rewrite minus_INR by exact L; ring).
      pose proof (reach (s * K - p) ltac:(lia)) as R. fold T in R. rewrite <- Y in R.
      assert (0 <= y). { rewrite Y. apply (off_pos g GR). split; [apply steps_0|]. pose proof (steps_far (s * K - p) ltac:(lia)). lra. }
      split; [intros (H1 & H2); split; [lra|apply R; lia]|intros (_ & H2); apply R in H2; lia].
    - assert (Y : - y = off_nadir g (INR (p - s * K) * d)) by (unfold y, lon; rewrite <- off_neg; f_equal; rewrite minus_INR by lia; ring).
      pose proof (reach (p - s * K) ltac:(lia)) as R. fold T in R. rewrite <- Y in R.
      assert (0 <= - y). { rewrite Y. apply (off_pos g GR). split; [apply steps_0|]. pose proof (steps_far (p - s * K) ltac:(lia)). lra. }
      split; [intros (H1 & H2); assert (- y <= T) by (apply R; lia); lra|intros (H2 & _); assert (H3 : - y <= T) by lra; apply R in H3; lia]. }
  destruct (near K m s p).
  - destruct (proj1 NY eq_refl) as (N1 & N2). apply A1 in N2. apply A2 in N1. destruct (Rle_dec _ _); [|lra]. destruct (Rle_dec _ _); [|lra]. reflexivity.
  - destruct (Rle_dec _ _) as [L1|]; [|reflexivity]. destruct (Rle_dec _ _) as [L2|]; [|reflexivity]. apply A1 in L1. apply A2 in L2. discriminate (proj2 NY (conj L2 L1)).
Qed.

Lemma laid_nth : forall s r x, nth_error (laid u input) s = Some (r, x) -> r = (s * K)%nat /\ put x s /\ (s * K < n)%nat.
Proof.
  intros s r x N. pose proof laid_ring as F. pose proof (Forall2_len _ _ _ F) as FL. rewrite seq_length in FL.
  assert (L : (s < ring_count n K)%nat) by (rewrite FL; apply nth_error_Some; congruence).
  assert (LK : (s * K < n)%nat).
  { unfold ring_count in L. destruct n as [|q]; [lia|]. pose proof (Nat.mul_div_le q K ltac:(pose proof (p_K _ _ _ _ _ P); lia)).
    assert (s * K <= q / K * K)%nat by (apply Nat.mul_le_mono_r; lia). lia. }
  assert (PA : put_at (r, x) s).
  { assert (NS : nth_error (seq 0 (ring_count n K)) s = Some s) by (rewrite (nth_error_nth' _ 0%nat) by (rewrite seq_length; exact L); rewrite seq_nth by exact L; reflexivity).
    exact (Forall2_nth2 _ _ _ _ _ F s _ _ N NS). }
  destruct PA as (A & B). auto.
Qed.
Lemma laid_count : length (laid u input) = ring_count n K.
Proof. pose proof (Forall2_len _ _ _ laid_ring) as FL. rewrite seq_length in FL. symmetry. exact FL. Qed.

Lemma ring_steady : steady u input.
Proof.
  pose proof (p_K _ _ _ _ _ P) as PK. pose proof (p_N _ _ _ _ _ P) as PN. pose proof (p_min _ _ _ _ _ P) as PM.
  assert (NH : holes (map erase input) = 0%nat).
  { pose proof all_valid_in as AV. clear - AV. unfold holes. induction input as [|i l IH]; [reflexivity|].
    destruct (AV 0%nat i eq_refl) as (r & ->). cbn. apply IH. intros p j N. exact (AV (S p) j N). }
  constructor.
  - exact (p_focus _ _ _ _ _ P).
  - intros r I. apply In_nth_error in I as (p & N). destruct (p_rec _ _ _ _ _ P p _ N) as (r' & E & R1 & _). injection E as <-. rewrite R1. cbn [vx vy].
    assert (NO : forall x, - PI <= x <= PI -> normalize (u_fuel u) (k_pi k) x <> None).
    { intros x X. pose proof (p_fuel _ _ _ _ _ P) as FU. rewrite (p_pi _ _ _ _ _ P). pose proof PI_RGT_0. unfold normalize. destruct (u_fuel u) as [|f]; [lia|].
      cbn [turn_up]. destruct (Rlt_dec x (- PI)); [lra|]. cbn [turn_down]. destruct (Rlt_dec PI x); [lra|]. discriminate. }
    assert (LP : (p < n)%nat) by (apply nth_error_Some; congruence). pose proof PI_RGT_0.
    split; apply NO; [lra|]. exact (proj1 (p_place _ _ _ _ _ P p LP)).
  - intros i l E ->. destruct (all_valid_in 0%nat WNothing) as (r & A); [rewrite E; reflexivity|discriminate].
  - exact (p_gapless _ _ _ _ _ P).
  - exists (near K m), (fun s => s * K - m)%nat, (fun s => s * K + m)%nat, (2 * m / K + 1)%nat. split; [|split; [|lia]].
    + intros s p r x b N1 N2. destruct (laid_nth s r x N1) as (_ & PX & L). destruct (flown_nth p b N2) as (FB & LP). symmetry. apply sees_ring; assumption.
    + constructor; cbn [pass_oracle o_vis o_new].
      * intros s p. unfold near. rewrite andb_true_iff, !Nat.leb_le. lia.
      * intros s. cbn. lia.
      * intros s. cbn. lia.
      * intros s. cbn. lia.
      * reflexivity.
      * intros s p H. destruct (nth_error (laid u input) (S s)) as [[r x]|] eqn:N; [|discriminate]. apply Nat.eqb_eq in H. subst p.
        destruct (laid_nth _ _ _ N) as (-> & _). unfold near. rewrite andb_true_iff, !Nat.leb_le. lia.
      * intros p s s' V V'. unfold near in V, V'. rewrite andb_true_iff, !Nat.leb_le in V, V'.
        destruct (Nat.lt_ge_cases s' (s + (2 * m / K + 1))) as [L|L]; [exact L|exfalso].
        pose proof (Nat.mul_succ_div_gt (2 * m) K ltac:(lia)) as D. assert ((s + (2 * m / K + 1)) * K <= s' * K)%nat by (apply Nat.mul_le_mono_r; exact L). nia.
      * intros s. assert (m < (s + c_N (u_cf u)) * K)%nat by nia. destruct (Nat.le_gt_cases (s * K) m) as [L|L]; [lia|]. assert (s * K < (s + c_N (u_cf u)) * K)%nat by nia. lia.
Qed.

(** The records of a stack. *)
Lemma sight_ring : forall s p, (s < ring_count n K)%nat -> (p < n)%nat -> in_sight u input s p = near K m s p.
Proof.
  intros s p LS LP. unfold in_sight. destruct (nth_error (laid u input) s) as [[r x]|] eqn:N; [|apply nth_error_None in N; rewrite laid_count in N; lia].
  destruct (laid_nth s r x N) as (_ & PX & L). pose proof (bursts_nth u input all_valid_in p) as BN.
  destruct (nth_error input p) as [i|] eqn:NI; [|apply nth_error_None in NI; unfold n in LP; lia].
  destruct (all_valid_in p i NI) as (rc & ->). destruct (flown_nth p _ BN) as (FB & _). apply sees_ring; assumption.
Qed.
Lemma records_ring : forall s, (2 * m < K * c_N (u_cf u))%nat -> (s < ring_count n K)%nat -> records_for u input (ring_count n K) s = window n K m s.
Proof.
  intros s W LS. unfold records_for, window. apply filter_ext_in. intros p I. apply in_seq in I. fold n in I. rewrite (sight_ring s p LS ltac:(lia)).
  destruct (s + c_N (u_cf u) <? ring_count n K) eqn:B; [|cbn; apply andb_true_r]. apply Nat.ltb_lt in B. rewrite (sight_ring _ p B ltac:(lia)).
  unfold near. destruct (Nat.leb_spec (s * K) (p + m)); cbn [andb]; [|reflexivity]. destruct (Nat.leb_spec p (s * K + m)); cbn [andb]; [|reflexivity].
  destruct (Nat.leb_spec ((s + c_N (u_cf u)) * K) (p + m)); cbn [andb negb]; [|reflexivity]. exfalso. nia.
Qed.
End Pass.
