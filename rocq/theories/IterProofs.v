From Coq Require Import Reals List Bool Lra Lia Psatz.
From Verif Require Import Common GeoModel GeoSpec GeoProofs AccProofs IterModel IterSpec.
Import ListNotations.
Open Scope R_scope.

Lemma atan_diff : forall x y, 0 <= x * y -> Rabs (atan x - atan y) <= Rabs (x - y) / (1 + x * y).
Proof.
  intros x y H.
  pose proof (atan_bound x) as Bx. pose proof (atan_bound y) as By.
  assert (Cx : 0 < cos (atan x)) by (apply cos_gt_0; lra).
  assert (Cy : 0 < cos (atan y)) by (apply cos_gt_0; lra).
  assert (E : cos (atan x - atan y) = cos (atan x) * cos (atan y) * (1 + x * y)).
  { rewrite cos_minus.
    assert (Sx : sin (atan x) = x * cos (atan x)) by (rewrite <- (tan_atan x) at 2; unfold tan; field; lra).
    assert (Sy : sin (atan y) = y * cos (atan y)) by (rewrite <- (tan_atan y) at 2; unfold tan; field; lra).
    rewrite Sx, Sy. ring. }
  assert (E' : sin (atan x - atan y) = cos (atan x) * cos (atan y) * (x - y)).
  { rewrite sin_minus.
    assert (Sx : sin (atan x) = x * cos (atan x)) by (rewrite <- (tan_atan x) at 2; unfold tan; field; lra).
    assert (Sy : sin (atan y) = y * cos (atan y)) by (rewrite <- (tan_atan y) at 2; unfold tan; field; lra).
    rewrite Sx, Sy. ring. }
  assert (CC : 0 < cos (atan x) * cos (atan y)) by (apply Rmult_lt_0_compat; assumption).
  assert (P : 0 < cos (atan x - atan y)) by (rewrite E; apply Rmult_lt_0_compat; lra).
  assert (Rg : - (PI / 2) < atan x - atan y < PI / 2) by (apply cos_pos_range; [lra|exact P]).
  eapply Rle_trans; [apply (angle_le_tan _ Rg)|].
  unfold tan. rewrite E, E'. right.
  replace (cos (atan x) * cos (atan y) * (x - y) / (cos (atan x) * cos (atan y) * (1 + x * y)))
    with ((x - y) / (1 + x * y)) by (field; repeat split; lra).
  unfold Rdiv. rewrite Rabs_mult. f_equal. apply Rabs_right. apply Rle_ge, Rlt_le, Rinv_0_lt_compat. lra.
Qed.

Section Iteration.
  Variables a e2 p z : R.
  Hypothesis A : 0 < a.
  Hypothesis E2 : 0 <= e2 <= 1 / 50.
  Hypothesis P : 0 < p.
  Let r : R := sqrt (p ^ 2 + z ^ 2).
  Hypothesis Rr : 9 / 10 * a <= r.

  (** the factor on the tangent, the distance to the axis along the normal,
      the radius of curvature and the factor of the next estimate *)
  Definition sl (u : R) : R := / (1 - u).
  Definition w (u : R) : R := sqrt (p ^ 2 + z ^ 2 * sl u ^ 2).
  Definition sg (u : R) : R := 1 - p ^ 2 / w u ^ 2.
  Definition nn (u : R) : R := a / sqrt (1 - e2 * sg u).
  Definition next (x u : R) : R := e2 * nn u / (w u + nn u - x).
  Definition okay (x u : R) : Prop := 0 <= u <= 1 / 40 /\ a <= x <= 1011 / 1000 * a.

  Lemma r_pos : 0 < r. Proof. unfold r. apply sqrt_lt_R0. nra. Qed.
  Lemma r_sq : r ^ 2 = p ^ 2 + z ^ 2. Proof. unfold r. apply pow2_sqrt. nra. Qed.

  Lemma sl_range : forall u, 0 <= u <= 1 / 40 -> 1 <= sl u <= 40 / 39.
  Proof.
    intros u U. unfold sl. assert (D : 0 < 1 - u) by lra. split.
    - apply (Rmult_le_reg_l (1 - u)); [exact D|]. rewrite Rinv_r by lra. lra.
    - apply (Rmult_le_reg_l (1 - u)); [exact D|]. rewrite Rinv_r by lra. lra.
  Qed.
  Lemma sl_diff : forall u v, 0 <= u <= 1 / 40 -> 0 <= v <= 1 / 40 ->
    Rabs (sl u - sl v) <= 106 / 100 * Rabs (u - v) /\ Rabs (sl u ^ 2 - sl v ^ 2) <= 217 / 100 * Rabs (u - v).
  Proof.
    intros u v U V. pose proof (sl_range u U) as Su. pose proof (sl_range v V) as Sv.
    assert (E : sl u - sl v = sl u * sl v * (u - v)) by (unfold sl; field; lra).
    pose proof (Rabs_pos (u - v)) as Q.
    split.
    - rewrite E, Rabs_mult. apply Rmult_le_compat_r; [exact Q|]. rewrite Rabs_right by nra. nra.
    - replace (sl u ^ 2 - sl v ^ 2) with ((sl u + sl v) * (sl u * sl v) * (u - v)) by (rewrite Rmult_assoc, <- E; ring).
      rewrite Rabs_mult. apply Rmult_le_compat_r; [exact Q|].
      assert (1 <= sl u * sl v <= 1600 / 1521) by nra.
      rewrite Rabs_right by nra. nra.
  Qed.

  Lemma w_sq : forall u, w u ^ 2 = p ^ 2 + z ^ 2 * sl u ^ 2.
  Proof. intros u. unfold w. apply pow2_sqrt. assert (0 <= z ^ 2 * sl u ^ 2) by (apply Rmult_le_pos; apply pow2_ge_0). nra. Qed.
  Lemma w_ge : forall u, 0 <= u <= 1 / 40 -> r <= w u.
  Proof.
    intros u U. unfold r, w. apply sqrt_le_1_alt. pose proof (sl_range u U) as S1.
    assert (1 <= sl u ^ 2) by nra. assert (0 <= z ^ 2) by nra. nra.
  Qed.
  Lemma w_diff : forall u v, 0 <= u <= 1 / 40 -> 0 <= v <= 1 / 40 -> Rabs (w u - w v) <= 109 / 100 * r * Rabs (u - v).
  Proof.
    intros u v U V. pose proof (w_ge u U) as Wu. pose proof (w_ge v V) as Wv. pose proof r_pos as RP.
    pose proof r_sq as RS. destruct (sl_diff u v U V) as [_ D].
    assert (E : w u - w v = z ^ 2 * (sl u ^ 2 - sl v ^ 2) / (w u + w v)).
    { assert (w u ^ 2 - w v ^ 2 = z ^ 2 * (sl u ^ 2 - sl v ^ 2)) as <- by (rewrite !w_sq; ring). field. lra. }
    rewrite E. unfold Rdiv. rewrite !Rabs_mult.
    rewrite (Rabs_right (z ^ 2)) by nra.
    rewrite (Rabs_right (/ (w u + w v))) by (apply Rle_ge, Rlt_le, Rinv_0_lt_compat; lra).
    apply (div_le (z ^ 2 * Rabs (sl u ^ 2 - sl v ^ 2))); [lra|].
    pose proof (Rabs_pos (u - v)) as Q. set (d := Rabs (u - v)) in *.
    apply Rle_trans with (r ^ 2 * (217 / 100 * d)).
    - apply Rmult_le_compat; [nra|apply Rabs_pos|nra|exact D].
    - assert (0 <= r * d) by nra. nra.
  Qed.

  Lemma sg_range : forall u, 0 <= u <= 1 / 40 -> 0 <= sg u <= 1.
  Proof.
    intros u U. pose proof (w_ge u U) as Wu. pose proof r_pos as RP. pose proof r_sq as RS. unfold sg.
    assert (W2 : p ^ 2 <= w u ^ 2) by nra. assert (0 < w u ^ 2) by nra.
    assert (0 <= p ^ 2 / w u ^ 2 <= 1).
    { split; [apply Rmult_le_pos; [nra|apply Rlt_le, Rinv_0_lt_compat; assumption]|apply div_le; [assumption|lra]]. }
    lra.
  Qed.
  Lemma sg_diff : forall u v, 0 <= u <= 1 / 40 -> 0 <= v <= 1 / 40 -> Rabs (sg u - sg v) <= 55 / 100 * Rabs (u - v).
  Proof.
    intros u v U V. pose proof (w_ge u U) as Wu. pose proof (w_ge v V) as Wv. pose proof r_pos as RP.
    pose proof r_sq as RS. destruct (sl_diff u v U V) as [_ D].
    assert (E : sg u - sg v = p ^ 2 * z ^ 2 * (sl u ^ 2 - sl v ^ 2) / (w u ^ 2 * w v ^ 2)).
    { assert (w u ^ 2 - w v ^ 2 = z ^ 2 * (sl u ^ 2 - sl v ^ 2)) as F by (rewrite !w_sq; ring).
      rewrite Rmult_assoc, <- F. unfold sg. field. lra. }
    rewrite E. unfold Rdiv. rewrite !Rabs_mult.
    assert (0 <= p ^ 2) by nra. assert (0 <= z ^ 2) by nra.
    rewrite (Rabs_right (p ^ 2)), (Rabs_right (z ^ 2)) by lra.
    assert (WW : r ^ 2 * r ^ 2 <= w u ^ 2 * w v ^ 2).
    { apply Rmult_le_compat; try nra. }
    assert (0 < r ^ 2 * r ^ 2) by (apply Rmult_lt_0_compat; apply pow_lt; exact RP).
    rewrite (Rabs_right (/ (w u ^ 2 * w v ^ 2))) by (apply Rle_ge, Rlt_le, Rinv_0_lt_compat; lra).
    apply (div_le (p ^ 2 * z ^ 2 * Rabs (sl u ^ 2 - sl v ^ 2))); [lra|].
    pose proof (Rabs_pos (u - v)) as Q. set (d := Rabs (u - v)) in *.
    apply Rle_trans with (r ^ 2 * r ^ 2 / 4 * (217 / 100 * d)).
    - assert (PZ : p ^ 2 * z ^ 2 <= r ^ 2 * r ^ 2 / 4) by (rewrite RS; pose proof (pow2_ge_0 (p ^ 2 - z ^ 2)); nra).
      apply Rmult_le_compat; [apply Rmult_le_pos; assumption|apply Rabs_pos|exact PZ|exact D].
    - apply Rle_trans with (55 / 100 * d * (r ^ 2 * r ^ 2)); [nra|]. apply Rmult_le_compat_l; nra.
  Qed.

  Lemma nn_range : forall u, 0 <= u <= 1 / 40 -> a <= nn u <= 1011 / 1000 * a /\ nn u <= a * (1 + 53 / 100 * e2).
  Proof.
    intros u U. pose proof (sg_range u U) as S. unfold nn.
    set (g := 1 - e2 * sg u). assert (G : 49 / 50 <= g <= 1) by (unfold g; nra).
    assert (G' : 1 - e2 <= g) by (unfold g; nra).
    pose proof (sqrt_pos g) as Q0. pose proof (pow2_sqrt g ltac:(lra)) as Q. set (q := sqrt g) in *.
    assert (Qr : 989 / 1000 <= q <= 1) by nra.
    assert (a <= a / q) by (apply (Rmult_le_reg_r q); [lra|]; unfold Rdiv; rewrite Rmult_assoc, Rinv_l by lra; nra).
    repeat split; [assumption| |]; (apply div_le; [lra|]).
    - assert (1 <= 1011 / 1000 * q) by (assert (98 / 100 <= q * q) by nra; nra). nra.
    - assert (1 <= (1 + 53 / 100 * e2) * q).
      { assert (1 <= ((1 + 53 / 100 * e2) * q) ^ 2).
        { replace (((1 + 53 / 100 * e2) * q) ^ 2) with ((1 + 53 / 100 * e2) ^ 2 * q ^ 2) by ring. rewrite Q.
          apply Rle_trans with ((1 + 53 / 100 * e2) ^ 2 * (1 - e2)); [nra|]. apply Rmult_le_compat_l; nra. }
        nra. }
      nra.
  Qed.
  Lemma nn_diff : forall u v, 0 <= u <= 1 / 40 -> 0 <= v <= 1 / 40 ->
    Rabs (nn u - nn v) <= 3 / 10 * e2 * a * Rabs (u - v).
  Proof.
    intros u v U V. pose proof (sg_range u U) as Su. pose proof (sg_range v V) as Sv.
    pose proof (sg_diff u v U V) as D. unfold nn.
    set (g := 1 - e2 * sg u). assert (G : 49 / 50 <= g <= 1) by (unfold g; nra).
    set (h := 1 - e2 * sg v). assert (H : 49 / 50 <= h <= 1) by (unfold h; nra).
    pose proof (sqrt_pos g) as Q0. pose proof (pow2_sqrt g ltac:(lra)) as Q. set (q := sqrt g) in *.
    pose proof (sqrt_pos h) as L0. pose proof (pow2_sqrt h ltac:(lra)) as L. set (l := sqrt h) in *.
    assert (Qr : 989 / 1000 <= q <= 1) by nra.
    assert (Lr : 989 / 1000 <= l <= 1) by nra.
    assert (E : a / q - a / l = a * (e2 * (sg u - sg v)) / (q * l * (q + l))).
    { assert (l ^ 2 - q ^ 2 = e2 * (sg u - sg v)) as <- by (rewrite L, Q; unfold g, h; ring). field. repeat split; lra. }
    rewrite E. assert (K : 19 / 10 <= q * l * (q + l)).
    { assert (978 / 1000 <= q * l) by nra. nra. }
    unfold Rdiv. rewrite !Rabs_mult. rewrite (Rabs_right a), (Rabs_right e2) by lra.
    rewrite (Rabs_right (/ (q * l * (q + l)))) by (apply Rle_ge, Rlt_le, Rinv_0_lt_compat; lra).
    apply (div_le (a * (e2 * Rabs (sg u - sg v)))); [lra|].
    pose proof (Rabs_pos (u - v)) as B. set (d := Rabs (u - v)) in *.
    assert (0 <= a * e2) by nra.
    apply Rle_trans with (a * e2 * (55 / 100 * d)); [rewrite <- Rmult_assoc; apply Rmult_le_compat_l; assumption|].
    assert (AD : 0 <= a * e2 * d) by (apply Rmult_le_pos; assumption).
    apply Rle_trans with (3 / 10 * (a * e2 * d) * (19 / 10)); [lra|].
    apply Rle_trans with (3 / 10 * (a * e2 * d) * (q * l * (q + l))); [apply Rmult_le_compat_l; lra|right; field].
  Qed.

  Lemma den_ge : forall x u, okay x u -> 98 / 100 * r <= w u + nn u - x.
  Proof. intros x u [U X]. pose proof (w_ge u U). pose proof (nn_range u U) as [N _]. lra. Qed.
  Lemma next_range : forall x u, okay x u -> 0 <= next x u <= 6 / 5 * e2 /\ okay (nn u) (next x u).
  Proof.
    intros x u O. pose proof (den_ge x u O) as D. destruct O as [U X]. pose proof (nn_range u U) as [N _].
    pose proof r_pos as RP. assert (NR : 0 <= next x u <= 6 / 5 * e2).
    { unfold next. set (d := w u + nn u - x) in *. split.
      - apply Rmult_le_pos; [nra|apply Rlt_le, Rinv_0_lt_compat; lra].
      - apply div_le; [lra|]. assert (nn u <= 6 / 5 * d) by lra. nra. }
    split; [exact NR|]. split; lra.
  Qed.
  Lemma next_diff : forall x u y v, okay x u -> okay y v ->
    Rabs (next x u - next y v) <= e2 * (13 / 10 * Rabs (u - v) + 13 / 10 * (Rabs (x - y) / a)).
  Proof.
    intros x u y v Ou Ov. pose proof (den_ge x u Ou) as Du. pose proof (den_ge y v Ov) as Dv.
    destruct Ou as [U X]. destruct Ov as [V Y].
    pose proof (nn_range u U) as [Nu _]. pose proof (nn_range v V) as [Nv _].
    pose proof (w_diff u v U V) as W. pose proof (nn_diff u v U V) as ND. pose proof r_pos as RP.
    unfold next.
    assert (DD : Rabs ((w v + nn v - y) - (w u + nn u - x)) <=
                 109 / 100 * r * Rabs (u - v) + 3 / 10 * e2 * a * Rabs (u - v) + Rabs (x - y)).
    { replace ((w v + nn v - y) - (w u + nn u - x)) with (- (w u - w v) + (- (nn u - nn v) + (x - y))) by ring.
      eapply Rle_trans; [apply Rabs_triang|]. rewrite Rabs_Ropp. rewrite Rplus_assoc. apply Rplus_le_compat; [exact W|].
      eapply Rle_trans; [apply Rabs_triang|]. rewrite Rabs_Ropp. apply Rplus_le_compat; [exact ND|lra]. }
    set (d := w u + nn u - x) in *. set (c := w v + nn v - y) in *.
    assert (E : e2 * nn u / d - e2 * nn v / c = e2 * ((nn u * (c - d)) / (d * c) + (nn u - nn v) / c)) by (field; lra).
    rewrite E, Rabs_mult, (Rabs_right e2) by lra. apply Rmult_le_compat_l; [lra|].
    eapply Rle_trans; [apply Rabs_triang|].
    pose proof (Rabs_pos (u - v)) as B. set (du := Rabs (u - v)) in *.
    pose proof (Rabs_pos (x - y)) as Bx. set (dx := Rabs (x - y)) in *.
    assert (T1 : Rabs (nn u * (c - d) / (d * c)) <= 117 / 100 / r * (109 / 100 * r * du + 3 / 10 * e2 * a * du + dx)).
    { unfold Rdiv at 1. rewrite !Rabs_mult. rewrite (Rabs_right (nn u)) by lra.
      assert (KK : 9604 / 10000 * (r * r) <= d * c) by nra.
      assert (0 < d * c) by nra.
      rewrite (Rabs_right (/ (d * c))) by (apply Rle_ge, Rlt_le, Rinv_0_lt_compat; lra).
      apply (div_le (nn u * Rabs (c - d))); [lra|].
      set (m := 109 / 100 * r * du + 3 / 10 * e2 * a * du + dx) in *.
      assert (M : 0 <= m) by (pose proof (Rabs_pos (c - d)); lra).
      apply Rle_trans with (11234 / 10000 * r * m); [apply Rmult_le_compat; try lra; apply Rabs_pos|].
      apply Rle_trans with (117 / 100 / r * m * (9604 / 10000 * (r * r))).
      - replace (117 / 100 / r * m * (9604 / 10000 * (r * r))) with (117 * 9604 / 1000000 * (r * m)) by (field; lra).
        assert (0 <= r * m) by nra. nra.
      - apply Rmult_le_compat_l; [|exact KK]. apply Rmult_le_pos; [|exact M]. apply Rmult_le_pos; [lra|]. apply Rlt_le, Rinv_0_lt_compat, RP. }
    assert (T2 : Rabs ((nn u - nn v) / c) <= 7 / 1000 * du).
    { unfold Rdiv at 1. rewrite Rabs_mult. rewrite (Rabs_right (/ c)) by (apply Rle_ge, Rlt_le, Rinv_0_lt_compat; lra).
      apply (div_le (Rabs (nn u - nn v))); [lra|]. eapply Rle_trans; [exact ND|].
      assert (0 <= a * du) by nra. apply Rle_trans with (6 / 1000 * (a * du)); [nra|].
      apply Rle_trans with (7 / 1000 * du * (88 / 100 * a)); [nra|]. apply Rmult_le_compat_l; [nra|lra]. }
    eapply Rle_trans; [apply Rplus_le_compat; [exact T1|exact T2]|].
    assert (I : 0 < / r) by (apply Rinv_0_lt_compat, RP).
    assert (AR : a / r <= 10 / 9) by (apply div_le; lra).
    assert (AR0 : 0 <= a / r) by (apply Rmult_le_pos; lra).
    assert (IA : / r <= 10 / 9 * / a).
    { apply (Rmult_le_reg_l (r * a)); [nra|]. replace (r * a * / r) with a by (field; lra).
      replace (r * a * (10 / 9 * / a)) with (10 / 9 * r) by (field; lra). lra. }
    replace (117 / 100 / r * (109 / 100 * r * du + 3 / 10 * e2 * a * du + dx))
      with (117 / 100 * (109 / 100 * du + 3 / 10 * e2 * (a / r) * du + dx * / r)) by (field; lra).
    assert (F1 : 3 / 10 * e2 * (a / r) * du <= 7 / 1000 * du).
    { apply Rmult_le_compat_r; [exact B|]. assert (e2 * (a / r) <= 1 / 50 * (10 / 9)) by (apply Rmult_le_compat; lra). lra. }
    assert (F2 : dx * / r <= 10 / 9 * (dx / a)).
    { unfold Rdiv. apply Rle_trans with (dx * (10 / 9 * / a)); [apply Rmult_le_compat_l; assumption|right; field; lra]. }
    assert (0 <= dx / a) by (apply Rmult_le_pos; [exact Bx|apply Rlt_le, Rinv_0_lt_compat; exact A]).
    lra.
  Qed.

  (** two sequences of estimates come together *)
  Definition apart (x u y v m : R) : Prop := Rabs (u - v) <= m /\ Rabs (x - y) <= m * a.
  Lemma contract : forall x u y v m, okay x u -> okay y v -> apart x u y v m ->
    apart (nn u) (next x u) (nn v) (next y v) (13 / 5 * e2 * m).
  Proof.
    intros x u y v m Ou Ov [H1 H2]. pose proof (next_diff x u y v Ou Ov) as D.
    pose proof (Rabs_pos (u - v)) as B. pose proof (Rabs_pos (x - y)) as Bx.
    assert (X : Rabs (x - y) / a <= m) by (apply div_le; lra).
    split.
    - eapply Rle_trans; [exact D|]. replace (13 / 5 * e2 * m) with (e2 * (13 / 10 * m + 13 / 10 * m)) by field.
      apply Rmult_le_compat_l; [lra|]. lra.
    - destruct Ou as [U _]. destruct Ov as [V _]. eapply Rle_trans; [apply (nn_diff u v U V)|].
      assert (0 <= e2 * a) by nra.
      replace (13 / 5 * e2 * m * a) with (13 / 5 * (e2 * a) * m) by ring.
      apply Rle_trans with (3 / 10 * (e2 * a) * m); [|assert (0 <= m) by lra; nra].
      replace (3 / 10 * e2 * a) with (3 / 10 * (e2 * a)) by ring. apply Rmult_le_compat_l; [nra|exact H1].
  Qed.

  (** what the factors say about latitudes and altitudes *)
  Definition la (u : R) : R := atan (z / (p * (1 - u))).
  Lemma la_diff : forall u v, 0 <= u <= 1 / 40 -> 0 <= v <= 1 / 40 -> Rabs (la u - la v) <= 53 / 100 * Rabs (u - v).
  Proof.
    intros u v U V. unfold la. destruct (sl_diff u v U V) as [D _].
    pose proof (sl_range u U) as Su. pose proof (sl_range v V) as Sv.
    assert (Eu : z / (p * (1 - u)) = z / p * sl u) by (unfold sl; field; lra).
    assert (Ev : z / (p * (1 - v)) = z / p * sl v) by (unfold sl; field; lra).
    rewrite Eu, Ev. set (t := z / p) in *.
    assert (SS : 1 <= sl u * sl v) by nra.
    eapply Rle_trans; [apply atan_diff; replace (t * sl u * (t * sl v)) with (t ^ 2 * (sl u * sl v)) by ring; apply Rmult_le_pos; nra|].
    assert (TT : 0 <= t ^ 2) by nra.
    assert (TS : t ^ 2 <= t * sl u * (t * sl v)) by (replace (t * sl u * (t * sl v)) with (t ^ 2 * (sl u * sl v)) by ring; nra).
    apply div_le; [lra|]. replace (t * sl u - t * sl v) with (t * (sl u - sl v)) by ring. rewrite Rabs_mult.
    assert (T2 : 2 * Rabs t <= 1 + t ^ 2).
    { rewrite <- (pow2_abs t). pose proof (pow2_ge_0 (Rabs t - 1)). nra. }
    pose proof (Rabs_pos (u - v)) as B. pose proof (Rabs_pos t).
    apply Rle_trans with (Rabs t * (106 / 100 * Rabs (u - v))); [apply Rmult_le_compat_l; assumption|].
    assert (Rabs t * Rabs (u - v) <= (1 + t * sl u * (t * sl v)) / 2 * Rabs (u - v)) by (apply Rmult_le_compat_r; lra).
    lra.
  Qed.
  Lemma alt_diff : forall x u y v m, okay x u -> okay y v -> apart x u y v m ->
    Rabs ((w u - x) - (w v - y)) <= (109 / 100 * r + a) * m.
  Proof.
    intros x u y v m [U _] [V _] [H1 H2]. pose proof (w_diff u v U V) as W. pose proof r_pos.
    replace ((w u - x) - (w v - y)) with ((w u - w v) + - (x - y)) by ring.
    eapply Rle_trans; [apply Rabs_triang|]. rewrite Rabs_Ropp. rewrite Rmult_plus_distr_r. apply Rplus_le_compat; [|lra].
    eapply Rle_trans; [exact W|]. apply Rmult_le_compat_l; lra.
  Qed.
  Lemma cos_la : forall u, 0 <= u <= 1 / 40 -> p / cos (la u) = w u.
  Proof.
    intros u U. unfold la. rewrite cos_atan. pose proof (sl_range u U) as S.
    assert (Eu : z / (p * (1 - u)) = z / p * sl u) by (unfold sl; field; lra). rewrite Eu.
    assert (Q : 0 < 1 + (z / p * sl u)²) by (pose proof (Rle_0_sqr (z / p * sl u)); lra).
    pose proof (sqrt_lt_R0 _ Q).
    replace (p / (1 / sqrt (1 + (z / p * sl u)²))) with (p * sqrt (1 + (z / p * sl u)²)) by (field; lra).
    unfold w. rewrite <- (sqrt_pow2 p) at 1 by lra. rewrite <- sqrt_mult by nra. f_equal. unfold Rsqr. field. lra.
  Qed.
  Lemma sin_la : forall u, 0 <= u <= 1 / 40 -> sin (la u) * sin (la u) = sg u.
  Proof.
    clear A Rr E2. intros u U. pose proof (cos_la u U) as C. pose proof (w_ge u U) as W. pose proof r_pos.
    assert (B : cos (la u) = p / w u).
    { rewrite <- C. field. split; [|lra]. intros Z. rewrite Z in C. unfold la in Z. rewrite cos_atan in Z.
      assert (0 < 1 / sqrt (1 + (z / (p * (1 - u)))²)); [|lra].
      apply Rdiv_lt_0_compat; [lra|]. apply sqrt_lt_R0. pose proof (Rle_0_sqr (z / (p * (1 - u)))). lra. }
    pose proof (sin2_cos2 (la u)) as S. rewrite B in S. unfold sg.
    replace (sin (la u) * sin (la u)) with (sin (la u) ^ 2) by ring.
    replace (p ^ 2 / w u ^ 2) with ((p / w u) ^ 2) by (field; lra). lra.
  Qed.
End Iteration.
