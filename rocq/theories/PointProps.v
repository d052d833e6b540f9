(** C115: the image of a point target. *)
From Coq Require Import List ZArith Reals Lra Lia Arith Psatz.
From Verif Require Import Common Cplx GcorrModel PointModel PointSpec PointProofs.
Import ListNotations.
Local Open Scope R_scope.

(** Every burst that is well formed gives a look; the power of bin [m] of a look
    whose burst holds the echo of one point target. *)
Theorem C115_look : forall fl k s N zp nlooks l,
  f_doppler fl = true -> f_slant fl = true -> sound k -> (0 < N)%nat -> (0 < zp)%nat -> Forall (usable N) l ->
  exists rows, image fl k s N zp nlooks l = Some rows /\ length rows = Nat.min (length l) nlooks /\
  forall i o b A phi dist a, nth_error l i = Some o -> (i < nlooks)%nat -> in_beam N o b -> is_echo k N o A phi dist a ->
  let P := (zp * k_n k)%nat in
  length (nth i rows []) = P /\
  forall m, (m < P)%nat ->
  nth m (nth i rows []) 0 =
    A * A * (array_power (turn k o b a) N / INR N) *
    (array_power (2 * PI * (INR zp * lag k s o b dist a + INR (Nat.div P 2) - INR m) / INR P) (k_n k) / INR P).
Proof.
  intros fl k s N zp nlooks l F1 F2 Hk HN Hz Hl.
  destruct (image_rows fl k s N zp nlooks l Hk HN Hz Hl) as (rows & E & L & Q).
  exists rows. split; [exact E|]. split; [exact L|].
  intros i o b A phi dist a Ho Hi (B1 & B2 & B3) He P.
  destruct (Q i o Ho Hi) as (g & G & R).
  destruct (compressed k s N zp o a A phi dist b Hk B3 HN Hz B2 B1 He fl F1 F2) as (g' & G' & V).
  rewrite G in G'. injection G' as <-. rewrite R. split.
  - unfold DftModel.power_row. rewrite map_length. apply DftProofs.range_row_length.
  - intros m Hm. apply V. exact Hm.
Qed.
Print Assumptions C115_look.

(** The largest power a target of amplitude [A] can leave in a bin: amplitude
    squared, times the pulses, times the samples, over the zero padding. *)
Definition full_power (A : R) (N n zp : nat) : R := A * A * INR N * INR n / INR zp.

Lemma gain_full : forall A N n zp, (0 < N)%nat -> (0 < zp)%nat -> (0 < n)%nat ->
  A * A * (INR N * INR N / INR N) * (INR n * INR n / INR (zp * n)) = full_power A N n zp.
Proof.
  intros A N n zp HN Hz Hn. unfold full_power. rewrite mult_INR. field.
  repeat split; apply not_0_INR; lia.
Qed.
Lemma bin_turn : forall (P m0 m : nat), (m0 < P)%nat -> (m < P)%nat -> m <> m0 ->
  cis (2 * PI * (INR m0 - INR m) / INR P) <> C1.
Proof.
  intros P m0 m H0 H1 Hne. assert (PP : 0 < INR P) by (apply lt_0_INR; lia). pose proof PI_RGT_0 as Pi.
  destruct (Nat.lt_ge_cases m m0) as [L|L].
  - apply lt_INR in L. apply lt_INR in H0. pose proof (pos_INR m). apply cis_not_one.
    split; [apply Rdiv_lt_0_compat; nra|]. apply Rmult_lt_reg_r with (INR P); [exact PP|].
    unfold Rdiv. rewrite Rmult_assoc, Rinv_l by lra. nra.
  - assert (L' : (m0 < m)%nat) by lia. apply lt_INR in L'. apply lt_INR in H1. pose proof (pos_INR m0). intros E.
    apply (cis_not_one (2 * PI * (INR m - INR m0) / INR P)).
    + split; [apply Rdiv_lt_0_compat; nra|]. apply Rmult_lt_reg_r with (INR P); [exact PP|].
      unfold Rdiv. rewrite Rmult_assoc, Rinv_l by lra. nra.
    + replace (2 * PI * (INR m - INR m0) / INR P) with (- (2 * PI * (INR m0 - INR m) / INR P)) by (unfold Rdiv; ring).
      rewrite cis_neg, E. unfold Cconj, C1. cbn. f_equal. ring.
Qed.

(** A look through which a target on the beam is [d] whole bins behind the
    surface: the largest power of the row is [d] bins after the middle, and only
    there. *)
Theorem C115_peak : forall fl k s N zp nlooks l,
  f_doppler fl = true -> f_slant fl = true -> sound k -> (0 < N)%nat -> (0 < zp)%nat -> Forall (usable N) l ->
  exists rows, image fl k s N zp nlooks l = Some rows /\
  forall i o b A phi dist (m0 : nat), nth_error l i = Some o -> (i < nlooks)%nat -> in_beam N o b ->
  is_echo k N o A phi dist b ->
  let P := (zp * k_n k)%nat in
  (m0 < P)%nat -> INR zp * lag k s o b dist b = INR m0 - INR (Nat.div P 2) ->
  nth m0 (nth i rows []) 0 = full_power A N (k_n k) zp /\
  forall m, (m < P)%nat -> m <> m0 -> A <> 0 -> (2 <= k_n k)%nat ->
    nth m (nth i rows []) 0 < full_power A N (k_n k) zp /\ (zp = 1%nat -> nth m (nth i rows []) 0 = 0).
Proof.
  intros fl k s N zp nlooks l F1 F2 Hk HN Hz Hl.
  destruct (C115_look fl k s N zp nlooks l F1 F2 Hk HN Hz Hl) as (rows & E & _ & Q).
  exists rows. split; [exact E|].
  intros i o b A phi dist m0 Ho Hi Hb He P Hm0 Hlag.
  destruct (Q i o b A phi dist b Ho Hi Hb He) as (_ & V). fold P in V. clear Q.
  destruct Hk as (_ & _ & _ & _ & Kn). assert (NP : 0 < INR N) by (apply lt_0_INR; exact HN).
  assert (PP : 0 < INR P) by (apply lt_0_INR; lia).
  assert (V' : forall m, (m < P)%nat -> nth m (nth i rows []) 0 =
    A * A * (INR N * INR N / INR N) * (array_power (2 * PI * (INR m0 - INR m) / INR P) (k_n k) / INR P)).
  { intros m Hm. rewrite (V m Hm), Hlag.
    replace (turn k o b b) with 0 by (unfold turn, Rdiv; ring). rewrite array_zero.
    replace (INR m0 - INR (P / 2) + INR (P / 2) - INR m) with (INR m0 - INR m) by ring. reflexivity. }
  clear V. rewrite <- gain_full by assumption. fold P. split.
  - rewrite (V' m0 Hm0). replace (2 * PI * (INR m0 - INR m0) / INR P) with 0 by (unfold Rdiv; ring).
    rewrite array_zero. reflexivity.
  - intros m Hm Hne HA H2. rewrite (V' m Hm). split.
    + apply Rmult_lt_compat_l.
      * replace (INR N * INR N / INR N) with (INR N) by (field; lra).
        apply Rmult_lt_0_compat; [destruct (Rdichotomy _ _ HA); nra|exact NP].
      * unfold Rdiv at 1 3. apply Rmult_lt_compat_r; [apply Rinv_0_lt_compat; exact PP|].
        apply array_lt; [|exact H2]. apply bin_turn; assumption.
    + intros Z. assert (EP : P = k_n k) by (unfold P; rewrite Z; lia).
      assert (S0 : array_power (2 * PI * (INR m0 - INR m) / INR P) (k_n k) = 0).
      { rewrite <- EP. apply array_null; [exact (bin_turn P m0 m Hm0 Hm Hne)|].
        replace (2 * PI * (INR m0 - INR m) / INR P * INR P) with (2 * PI * INR m0 - 2 * PI * INR m) by (field; lra).
        unfold Rminus. rewrite cis_add, cis_neg, !cis_2PI_n. unfold Cconj, C1, Cmul. cbn. f_equal; ring. }
      rewrite S0. unfold Rdiv. ring.
Qed.
Print Assumptions C115_peak.

(** A target at the surface itself is imaged, by every burst that sees it, in the
    middle of the row, with the same power whatever the distance, the angle, the
    speed, the window delay and the phase of the echo. *)
Theorem C115_focus : forall fl k s N zp nlooks l,
  f_doppler fl = true -> f_slant fl = true -> sound k -> (0 < N)%nat -> (0 < zp)%nat -> Forall (usable N) l ->
  exists rows, image fl k s N zp nlooks l = Some rows /\
  forall i o b A phi, nth_error l i = Some o -> (i < nlooks)%nat -> in_beam N o b ->
  is_echo k N o A phi (distance o (sx s) (sy s) (sz s)) b ->
  let P := (zp * k_n k)%nat in
  nth (Nat.div P 2) (nth i rows []) 0 = full_power A N (k_n k) zp /\
  forall m, (m < P)%nat -> m <> Nat.div P 2 -> A <> 0 -> (2 <= k_n k)%nat ->
    nth m (nth i rows []) 0 < full_power A N (k_n k) zp /\ (zp = 1%nat -> nth m (nth i rows []) 0 = 0).
Proof.
  intros fl k s N zp nlooks l F1 F2 Hk HN Hz Hl.
  destruct (C115_peak fl k s N zp nlooks l F1 F2 Hk HN Hz Hl) as (rows & E & Q).
  exists rows. split; [exact E|]. intros i o b A phi Ho Hi Hb He P.
  apply (Q i o b A phi _ (P / 2)%nat Ho Hi Hb He).
  - destruct Hk as (_ & _ & _ & _ & Kn). apply Nat.div_lt; [unfold P; nia|lia].
  - unfold lag, P. ring.
Qed.
Print Assumptions C115_focus.

(** So the mean over the looks has its maximum in the middle, and only there. *)
Theorem C115_mean : forall fl k s N zp nlooks l amp,
  f_doppler fl = true -> f_slant fl = true -> sound k -> (0 < N)%nat -> (0 < zp)%nat -> Forall (usable N) l ->
  (0 < length l <= nlooks)%nat -> (2 <= k_n k)%nat ->
  (forall i o, nth_error l i = Some o -> amp i <> 0 /\ exists b phi, in_beam N o b /\
     is_echo k N o (amp i) phi (distance o (sx s) (sy s) (sz s)) b) ->
  let P := (zp * k_n k)%nat in
  exists rows, image fl k s N zp nlooks l = Some rows /\
  forall m, (m < P)%nat -> m <> Nat.div P 2 -> mean_power rows m < mean_power rows (Nat.div P 2).
Proof.
  intros fl k s N zp nlooks l amp F1 F2 Hk HN Hz Hl Hlen H2 Hall P.
  destruct (C115_focus fl k s N zp nlooks l F1 F2 Hk HN Hz Hl) as (rows & E & Q).
  destruct (C115_look fl k s N zp nlooks l F1 F2 Hk HN Hz Hl) as (rows' & E' & L & _).
  rewrite E in E'. injection E' as <-. exists rows. split; [exact E|]. intros m Hm Hne.
  rewrite Nat.min_l in L by lia.
  unfold mean_power. apply Rmult_lt_compat_r; [apply Rinv_0_lt_compat, lt_0_INR; lia|].
  apply sum_strict.
  - intros C. rewrite C in L. cbn in L. lia.
  - intros row Hin. destruct (In_nth _ _ [] Hin) as (i & Hi & Er). rewrite <- Er.
    destruct (nth_error l i) as [o|] eqn:Eo; [|apply nth_error_None in Eo; lia].
    destruct (Hall i o Eo) as (HA & b & phi & Hb & He).
    destruct (Q i o b (amp i) phi Eo ltac:(lia) Hb He) as (Q1 & Q2). fold P in Q1, Q2. rewrite Q1.
    exact (proj1 (Q2 m Hm Hne HA H2)).
Qed.
Print Assumptions C115_mean.

(** Two bursts, of one stack or of two, that see a target with the same amplitude
    and the same lag in their beams give the same row. *)
Theorem C115_same : forall fl k s s' N zp nlooks l l',
  f_doppler fl = true -> f_slant fl = true -> sound k -> (0 < N)%nat -> (0 < zp)%nat ->
  Forall (usable N) l -> Forall (usable N) l' ->
  exists rows rows', image fl k s N zp nlooks l = Some rows /\ image fl k s' N zp nlooks l' = Some rows' /\
  forall i i' o o' b b' A phi phi' dist dist',
  nth_error l i = Some o -> nth_error l' i' = Some o' -> (i < nlooks)%nat -> (i' < nlooks)%nat ->
  in_beam N o b -> in_beam N o' b' -> is_echo k N o A phi dist b -> is_echo k N o' A phi' dist' b' ->
  lag k s o b dist b = lag k s' o' b' dist' b' -> nth i rows [] = nth i' rows' [].
Proof.
  intros fl k s s' N zp nlooks l l' F1 F2 Hk HN Hz Hl Hl'.
  destruct (C115_look fl k s N zp nlooks l F1 F2 Hk HN Hz Hl) as (rows & E & _ & Q).
  destruct (C115_look fl k s' N zp nlooks l' F1 F2 Hk HN Hz Hl') as (rows' & E' & _ & Q').
  exists rows, rows'. split; [exact E|]. split; [exact E'|].
  intros i i' o o' b b' A phi phi' dist dist' Ho Ho' Hi Hi' Hb Hb' He He' Hlag.
  destruct (Q i o b A phi dist b Ho Hi Hb He) as (L1 & V1).
  destruct (Q' i' o' b' A phi' dist' b' Ho' Hi' Hb' He') as (L2 & V2).
  apply (nth_ext _ _ 0 0); [congruence|]. intros m Hm. rewrite L1 in Hm. rewrite (V1 m Hm), (V2 m Hm), Hlag.
  replace (turn k o b b) with 0 by (unfold turn, Rdiv; ring).
  replace (turn k o' b' b') with 0 by (unfold turn, Rdiv; ring). reflexivity.
Qed.
Print Assumptions C115_same.

(** A target off the beam: its power is below the full power in every bin unless
    its Doppler frequency differs from that of the beam by a multiple of the pulse
    repetition frequency ... *)
Theorem C115_off_beam : forall fl k s N zp nlooks l,
  f_doppler fl = true -> f_slant fl = true -> sound k -> (2 <= N)%nat -> (0 < zp)%nat -> Forall (usable N) l ->
  exists rows, image fl k s N zp nlooks l = Some rows /\
  forall i o b A phi dist a m, nth_error l i = Some o -> (i < nlooks)%nat -> in_beam N o b -> is_echo k N o A phi dist a ->
  (m < zp * k_n k)%nat -> A <> 0 ->
  0 <= nth m (nth i rows []) 0 <= full_power A N (k_n k) zp /\
  (cis (turn k o b a) <> C1 -> nth m (nth i rows []) 0 < full_power A N (k_n k) zp) /\
  (cis (turn k o b a) <> C1 -> cis (turn k o b a * INR N) = C1 -> nth m (nth i rows []) 0 = 0).
Proof.
  intros fl k s N zp nlooks l F1 F2 Hk HN Hz Hl.
  destruct (C115_look fl k s N zp nlooks l F1 F2 Hk ltac:(lia) Hz Hl) as (rows & E & _ & Q).
  exists rows. split; [exact E|]. intros i o b A phi dist a m Ho Hi Hb He Hm HA.
  destruct (Q i o b A phi dist a Ho Hi Hb He) as (_ & V). rewrite (V m Hm).
  destruct Hk as (_ & _ & _ & _ & Kn). assert (NP : 0 < INR N) by (apply lt_0_INR; lia).
  assert (PP : 0 < INR (zp * k_n k)) by (apply lt_0_INR; lia).
  assert (KP : 0 < INR (k_n k)) by (apply lt_0_INR; lia).
  rewrite <- gain_full by (assumption || lia).
  set (P := (zp * k_n k)%nat) in *.
  set (t := 2 * PI * (INR zp * lag k s o b dist a + INR (P / 2) - INR m) / INR P).
  pose proof (array_le t (k_n k)) as T1. pose proof (array_nonneg t (k_n k)) as T0.
  pose proof (array_le (turn k o b a) N) as U1. pose proof (array_nonneg (turn k o b a) N) as U0.
  assert (A2 : 0 < A * A) by (destruct (Rdichotomy _ _ HA); nra).
  pose proof (Rinv_0_lt_compat _ NP) as IN. pose proof (Rinv_0_lt_compat _ PP) as IP. unfold Rdiv.
  revert A2. generalize (A * A). intros A2 HA2.
  split; [|split].
  - split.
    + repeat apply Rmult_le_pos; lra.
    + apply Rmult_le_compat; [repeat apply Rmult_le_pos; lra|apply Rmult_le_pos; lra| |].
      * apply Rmult_le_compat_l; [lra|]. apply Rmult_le_compat_r; lra.
      * apply Rmult_le_compat_r; lra.
  - intros Hc. pose proof (array_lt (turn k o b a) N Hc HN) as U2.
    apply Rle_lt_trans with (A2 * (array_power (turn k o b a) N * / INR N) * (INR (k_n k) * INR (k_n k) * / INR P)).
    + apply Rmult_le_compat_l; [repeat apply Rmult_le_pos; lra|]. apply Rmult_le_compat_r; lra.
    + apply Rmult_lt_compat_r; [repeat apply Rmult_lt_0_compat; assumption|].
      apply Rmult_lt_compat_l; [exact HA2|]. apply Rmult_lt_compat_r; assumption.
  - intros Hc Hn. rewrite (array_null (turn k o b a) N Hc Hn). ring.
Qed.
Print Assumptions C115_off_beam.

(** ... and then it is not told from a target on the beam: two targets of the same
    amplitude and lag, whose Doppler frequencies differ by a multiple of the pulse
    repetition frequency, give the same row. *)
Theorem C115_ambiguity : forall fl k s N zp nlooks l,
  f_doppler fl = true -> f_slant fl = true -> sound k -> (0 < N)%nat -> (0 < zp)%nat -> Forall (usable N) l ->
  exists rows, image fl k s N zp nlooks l = Some rows /\
  forall i o b A phi dist a (m0 : nat), nth_error l i = Some o -> (i < nlooks)%nat -> in_beam N o b ->
  is_echo k N o A phi dist a -> cis (turn k o b a) = C1 ->
  (m0 < zp * k_n k)%nat -> INR zp * lag k s o b dist a = INR m0 - INR (Nat.div (zp * k_n k) 2) ->
  nth m0 (nth i rows []) 0 = full_power A N (k_n k) zp.
Proof.
  intros fl k s N zp nlooks l F1 F2 Hk HN Hz Hl.
  destruct (C115_look fl k s N zp nlooks l F1 F2 Hk HN Hz Hl) as (rows & E & _ & Q).
  exists rows. split; [exact E|]. intros i o b A phi dist a m0 Ho Hi Hb He Hc Hm Hlag.
  destruct (Q i o b A phi dist a Ho Hi Hb He) as (_ & V). rewrite (V m0 Hm), Hlag.
  rewrite (array_one _ _ Hc).
  replace (2 * PI * (INR m0 - INR (zp * k_n k / 2) + INR (zp * k_n k / 2) - INR m0) / INR (zp * k_n k)) with 0
    by (unfold Rdiv; ring).
  rewrite array_zero. destruct Hk as (_ & _ & _ & _ & Kn). rewrite gain_full by assumption. reflexivity.
Qed.
Print Assumptions C115_ambiguity.

(** Echoes exist for every burst: its waveform replaced by that of a target. *)
Definition with_echo (k : gconst) (N : nat) (A phi dist a : R) (o : obs) : obs :=
  {| b_x := b_x o; b_y := b_y o; b_z := b_z o; b_speed := b_speed o; b_pri := b_pri o; b_wd := b_wd o;
     b_t0 := b_t0 o; b_angles := b_angles o; b_pos := b_pos o;
     b_wfm := map (fun p => map (fun j => echo_sample (k_c k) (k_lam k) (k_plen k) (k_bw k) (k_n k) o A phi dist a p j)
                                (seq 0 (k_n k))) (seq 0 N) |}.
Lemma map_seq_nth : forall {X} (f : nat -> X) n i d, (i < n)%nat -> nth i (map f (seq 0 n)) d = f i.
Proof.
  intros X f n i d H. rewrite (nth_indep _ d (f 0%nat)) by (rewrite map_length, seq_length; exact H).
  rewrite map_nth, seq_nth by exact H. reflexivity.
Qed.
Lemma with_echo_is : forall k N A phi dist a o, is_echo k N (with_echo k N A phi dist a o) A phi dist a.
Proof.
  intros k N A phi dist a o. unfold is_echo, with_echo. cbn [b_wfm]. split; [rewrite map_length, seq_length; reflexivity|].
  split.
  - intros p Hp. rewrite (map_seq_nth _ N p [] Hp), map_length, seq_length. reflexivity.
  - intros p j Hp Hj. rewrite (map_seq_nth _ N p [] Hp), (map_seq_nth _ (k_n k) j C0 Hj). reflexivity.
Qed.

(** Two bursts at different places, angles and window delays; both rows have their
    maximum in bin 2 of 4. *)
Definition x_k : gconst := {| k_pi := PI; k_c := 2; k_lam := 1; k_plen := 1; k_bw := 3; k_n := 2 |}.
Definition x_s : gsurf := {| sx := 0; sy := 0; sz := 0; s_wd := 7 |}.
Definition x_o1 : obs := with_echo x_k 3 5 1 4 (PI / 2)
  {| b_x := 0; b_y := 0; b_z := 4; b_speed := 1; b_pri := 1; b_wd := 2; b_t0 := 1;
     b_angles := [PI / 2]; b_pos := 0; b_wfm := [] |}.
Definition x_o2 : obs := with_echo x_k 3 5 2 5 (PI / 3)
  {| b_x := 3; b_y := 0; b_z := 4; b_speed := 2; b_pri := 1; b_wd := 3; b_t0 := 2;
     b_angles := [PI / 4; PI / 3]; b_pos := 1; b_wfm := [] |}.
Lemma x_far : distance x_o1 0 0 0 = 4 /\ distance x_o2 0 0 0 = 5.
Proof.
  unfold distance. cbn [x_o1 x_o2 with_echo b_x b_y b_z]. split.
  - replace ((0 - 0) ^ 2 + (0 - 0) ^ 2 + (4 - 0) ^ 2) with (4 * 4) by ring. apply sqrt_square. lra.
  - replace ((3 - 0) ^ 2 + (0 - 0) ^ 2 + (4 - 0) ^ 2) with (5 * 5) by ring. apply sqrt_square. lra.
Qed.
Example C115_example : forall fl, f_doppler fl = true -> f_slant fl = true ->
  exists rows, image fl x_k x_s 3 2 9 [x_o1; x_o2] = Some rows /\
  nth 2 (nth 0 rows []) 0 = 75 /\ nth 2 (nth 1 rows []) 0 = 75 /\
  forall i m, (i < 2)%nat -> (m < 4)%nat -> m <> 2%nat -> nth m (nth i rows []) 0 < 75.
Proof.
  intros fl F1 F2.
  assert (Hk : sound x_k) by (unfold sound, x_k; cbn; repeat split; try lra; lia).
  assert (B1 : in_beam 3 x_o1 (PI / 2)) by (unfold in_beam; cbn; repeat split; [lia|lra]).
  assert (B2 : in_beam 3 x_o2 (PI / 3)) by (unfold in_beam; cbn; repeat split; [lia|lra]).
  assert (U : Forall (usable 3) [x_o1; x_o2]).
  { repeat constructor; unfold usable; eauto. }
  destruct (C115_focus fl x_k x_s 3 2 9 _ F1 F2 Hk ltac:(lia) ltac:(lia) U) as (rows & E & Q).
  exists rows. split; [exact E|]. destruct x_far as (D1 & D2).
  assert (FP : full_power 5 3 (k_n x_k) 2 = 75) by (unfold full_power; cbn; field).
  assert (W1 : is_echo x_k 3 x_o1 5 1 (distance x_o1 (sx x_s) (sy x_s) (sz x_s)) (PI / 2)).
  { cbn [x_s sx sy sz]. rewrite D1. apply (with_echo_is x_k 3 5 1 4 (PI / 2)). }
  assert (W2 : is_echo x_k 3 x_o2 5 2 (distance x_o2 (sx x_s) (sy x_s) (sz x_s)) (PI / 3)).
  { cbn [x_s sx sy sz]. rewrite D2. apply (with_echo_is x_k 3 5 2 5 (PI / 3)). }
  destruct (Q 0%nat x_o1 _ 5 1 eq_refl ltac:(lia) B1 W1) as (P1 & P2).
  destruct (Q 1%nat x_o2 _ 5 2 eq_refl ltac:(lia) B2 W2) as (P3 & P4).
  rewrite FP in *. split; [exact P1|]. split; [exact P3|].
  intros i m Hi Hm Hne. destruct i as [|[|i]]; [| |lia].
  - apply P2; [exact Hm|exact Hne|lra|cbn; lia].
  - apply P4; [exact Hm|exact Hne|lra|cbn; lia].
Qed.
