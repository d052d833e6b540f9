(** C19. *)
From Coq Require Import List ZArith Lia Reals Lra Bool.
From Verif Require Import Common WindowModel WindowSpec WindowProofs.
Import ListNotations.

(** C19: for every width up to N the window is built, has N weights, and is
    zero outside [first_in N w, first_in N w + w). *)
Theorem C19_size_and_support : forall cpi N sh w, w <= N -> sh <> Other ->
  exists l, azimuth_window cpi N sh w = Ok l /\ length l = N /\
    (sh <> Disabled -> forall i, i < N -> i < first_in N w \/ first_in N w + w <= i ->
       nth_error l i = Some (Num 0)).
Proof.
  intros. destruct (window_ok cpi N sh w) as [l E]; auto.
  exists l. split; auto. apply (window_all cpi N sh w l); auto.
Qed.
Print Assumptions C19_size_and_support.

(** C19: the support is inside the burst and centred to within one pulse. *)
Theorem C19_centred : forall N w, w <= N ->
  first_in N w + w <= N /\
  Nat.max (first_in N w) (N - (first_in N w + w))
    <= 1 + Nat.min (first_in N w) (N - (first_in N w + w)).
Proof.
  intros N w H. pose proof (first_in_bound N w H). pose proof (first_in_centred N w H). lia.
Qed.
Print Assumptions C19_centred.

Theorem C19_boxcar_ones : forall cpi N w l k, w <= N -> k < w ->
  azimuth_window cpi N Boxcar w = Ok l -> nth_error l (first_in N w + k) = Some (Num 1).
Proof.
  intros cpi N w l k Hw Hk H. rewrite window_boxcar in H by auto. inversion H.
  rewrite framed_inside by (rewrite ?repeat_length; auto). apply repeat_at; auto.
Qed.
Print Assumptions C19_boxcar_ones.

(** C19: disabled means all ones, whatever the width; the windowed burst is then
    the burst. *)
Theorem C19_disabled_identity : forall cpi N w (wfm : list (list (R * R))) l,
  length wfm = N -> azimuth_window cpi N Disabled w = Ok l ->
  l = repeat (Num 1) N /\ windowed mul_weight l wfm = Ok (map (map (@Some _)) wfm).
Proof.
  intros cpi N w wfm l HN H. cbn in H. inversion H. split; auto.
  rewrite <- HN. apply windowed_ones.
Qed.
Print Assumptions C19_disabled_identity.

(** C19, false of the code (azimuth_processing.py 61-66): the formulas of
    'hamming' and 'hanning' are exchanged. *)
Theorem C19_hamming_shape_refuted : exists N w l,
  w <= N /\ azimuth_window PI N Hamming w = Ok l /\
  nth_error l (first_in N w) <> Some (Num (hamming_at w 0)).
Proof.
  exists 4, 4, (framed 4 4 (cos_weights PI (5/10) (5/10) 4)).
  split; [lia|]. split; [apply window_hamming; lia|].
  replace (first_in 4 4) with (first_in 4 4 + 0) by lia.
  rewrite framed_inside by (auto; rewrite ?cos_weights_length; lia).
  rewrite cos_weights_at by lia. cbn [Nat.eqb]. unfold hamming_at.
  cbn [INR Nat.sub]. intro H. inversion H as [E]. revert E.
  unfold Rdiv. rewrite !Rmult_0_r, !Rmult_0_l, cos_0. lra.
Qed.
Print Assumptions C19_hamming_shape_refuted.

Theorem C19_hanning_shape_refuted : exists N w l,
  w <= N /\ azimuth_window PI N Hanning w = Ok l /\
  nth_error l (first_in N w) <> Some (Num (hanning_at w 0)).
Proof.
  exists 4, 4, (framed 4 4 (cos_weights PI (54/100) (46/100) 4)).
  split; [lia|]. split; [apply window_hanning; lia|].
  replace (first_in 4 4) with (first_in 4 4 + 0) by lia.
  rewrite framed_inside by (auto; rewrite ?cos_weights_length; lia).
  rewrite cos_weights_at by lia. cbn [Nat.eqb]. unfold hanning_at.
  cbn [INR Nat.sub]. intro H. inversion H as [E]. revert E.
  unfold Rdiv. rewrite !Rmult_0_r, !Rmult_0_l, cos_0. lra.
Qed.
Print Assumptions C19_hanning_shape_refuted.

(** C19, false of the code: with width 1 both cosine windows are NaN. *)
Theorem C19_width_one_refuted : exists l l',
  azimuth_window PI 64 Hamming 1 = Ok l /\ azimuth_window PI 64 Hanning 1 = Ok l' /\
  nth_error l (first_in 64 1) = Some NaN /\ nth_error l' (first_in 64 1) = Some NaN.
Proof.
  do 2 eexists. split; [apply window_hamming; lia|]. split; [apply window_hanning; lia|].
  split; reflexivity.
Qed.
Print Assumptions C19_width_one_refuted.

(** C19, what holds: for widths of at least 2 'hamming' gives the Hanning window
    and 'hanning' the Hamming window, sample by sample. *)
Theorem C19_shapes_exchanged_partial : forall N w k, 2 <= w <= N -> k < w ->
  (exists l, azimuth_window PI N Hamming w = Ok l /\
     nth_error l (first_in N w + k) = Some (Num (hanning_at w k))) /\
  (exists l, azimuth_window PI N Hanning w = Ok l /\
     nth_error l (first_in N w + k) = Some (Num (hamming_at w k))).
Proof.
  intros N w k Hw Hk.
  assert (E1 : Nat.eqb w 1 = false) by (apply Nat.eqb_neq; lia).
  split.
  - exists (framed N w (cos_weights PI (5/10) (5/10) w)).
    split; [apply window_hamming; lia|].
    rewrite framed_inside by (auto; rewrite ?cos_weights_length; lia).
    rewrite cos_weights_at, E1 by lia. unfold hanning_at.
    rewrite INR_pred by lia. reflexivity.
  - exists (framed N w (cos_weights PI (54/100) (46/100) w)).
    split; [apply window_hanning; lia|].
    rewrite framed_inside by (auto; rewrite ?cos_weights_length; lia).
    rewrite cos_weights_at, E1 by lia. unfold hamming_at.
    rewrite INR_pred by lia. reflexivity.
Qed.
Print Assumptions C19_shapes_exchanged_partial.

(** C19, what holds: both cosine windows are symmetric and between 0 and 1. *)
Theorem C19_symmetric_partial : forall N sh w k l, 2 <= w <= N -> k < w ->
  sh = Hamming \/ sh = Hanning -> azimuth_window PI N sh w = Ok l ->
  exists x, nth_error l (first_in N w + k) = Some (Num x) /\
    nth_error l (first_in N w + (w - 1 - k)) = Some (Num x) /\ (0 <= x <= 1)%R.
Proof.
  intros N sh w k l Hw Hk Hs H.
  assert (E1 : Nat.eqb w 1 = false) by (apply Nat.eqb_neq; lia).
  assert (G : forall a b, (a + b <= 1 -> a = b \/ b < a -> 0 <= b ->
     exists x, nth_error (framed N w (cos_weights PI a b w)) (first_in N w + k) = Some (Num x) /\
    nth_error (framed N w (cos_weights PI a b w)) (first_in N w + (w - 1 - k)) = Some (Num x)
     /\ 0 <= x <= 1)%R).
  { intros a b H1 H2 H3. rewrite !framed_inside by (auto; rewrite ?cos_weights_length; lia).
    rewrite !cos_weights_at, E1 by lia. rewrite INR_pred by lia.
    eexists. split; [reflexivity|]. rewrite cos_mirror by lia.
    split; [reflexivity|].
    pose proof (COS_bound (2 * PI * INR k / INR (w - 1))) as HB.
    set (c := cos _) in *. split; nra. }
  destruct Hs as [-> | ->].
  - rewrite window_hamming in H by lia. inversion H. apply G; lra.
  - rewrite window_hanning in H by lia. inversion H. apply G; lra.
Qed.
Print Assumptions C19_symmetric_partial.

Example C19_ex_boxcar : azimuth_window PI 5 Boxcar 2 = Ok [Num 0; Num 1; Num 1; Num 0; Num 0].
Proof. reflexivity. Qed.
Example C19_ex_odd : azimuth_window PI 6 Boxcar 3 = Ok [Num 0; Num 0; Num 1; Num 1; Num 1; Num 0].
Proof. reflexivity. Qed.
(** a width beyond N wraps around for boxcar and fails for the others *)
Example C19_ex_too_wide : azimuth_window PI 4 Boxcar 6 = Ok [Num 0; Num 0; Num 0; Num 1]
  /\ azimuth_window PI 4 Hamming 6 = Err EBroadcast.
Proof. split; reflexivity. Qed.
Example C19_ex_hyp : 2 <= 64 <= 64 /\ 63 < 64. Proof. lia. Qed.
