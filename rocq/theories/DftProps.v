(** C29, C69, C70. *)
From Coq Require Import List ZArith Reals Bool Lia Lra Arith.
From Verif Require Import Common Cplx DftModel DftSpec DftProofs.
Import ListNotations.
Local Open Scope R_scope.

(** C29: the two shifts are inverse to each other for every length. *)
Theorem C29_shifts_inverse : forall (A : Type) (l : list A),
  ifftshift (fftshift l) = l /\ fftshift (ifftshift l) = l.
Proof. intros. split. - apply ifftshift_fftshift. - apply fftshift_ifftshift. Qed.
Print Assumptions C29_shifts_inverse.

Example C29_ex_odd : fftshift [0; 1; 2; 3; 4]%nat = [3; 4; 0; 1; 2]%nat
  /\ ifftshift [3; 4; 0; 1; 2]%nat = [0; 1; 2; 3; 4]%nat
  /\ ifftshift [0; 1; 2; 3; 4]%nat <> fftshift [0; 1; 2; 3; 4]%nat.
Proof. repeat split. discriminate. Qed.

(** C29: the shift places frequency zero in the middle. *)
Theorem C29_shift_places : forall (A : Type) (l : list A) t d, (t < length l)%nat ->
  nth t (fftshift l) d = nth (freq_of (length l) t) l d.
Proof. exact nth_fftshift. Qed.
Print Assumptions C29_shift_places.
Example C29_ex_places : freq_of 5 2 = 0%nat /\ freq_of 4 2 = 0%nat /\ freq_of 4 0 = 2%nat.
Proof. repeat split. Qed.

Lemma map_id_forall : forall A (f : A -> A) (P : A -> Prop) l,
  Forall P l -> (forall x, P x -> f x = x) -> map f l = l.
Proof. induction 1; cbn; intros; auto. rewrite H1, IHForall; auto. Qed.

(** C29: an all-ones table leaves every waveform unchanged. *)
Theorem C29_ones_neutral : forall N n wfm, (0 < n)%nat -> length wfm = N ->
  Forall (fun row => length row = n) wfm ->
  cal2 true N n (repeat 1 n) wfm = Ok (Some wfm).
Proof.
  intros N n wfm Hn HN Hr. unfold cal2. destruct (Nat.eqb_spec n 0); [lia|].
  rewrite repeat_length, HN, !Nat.eqb_refl. cbn [andb negb].
  assert (F : forallb positive (repeat 1 n) = true).
  { apply forallb_positive. clear. induction n; cbn; constructor; auto. lra. }
  rewrite F. do 2 f_equal. eapply map_id_forall; eauto. intros. apply cal2_row_ones. auto.
Qed.
Print Assumptions C29_ones_neutral.
Example C29_ex_neutral : cal2 true 2 3 [1; 1; 1] [[(1,2); (3,4); (5,6)]; [(0,1); (2,-3); (7,0)]]
  = Ok (Some [[(1,2); (3,4); (5,6)]; [(0,1); (2,-3); (7,0)]]).
Proof. apply (C29_ones_neutral 2 3); [lia|reflexivity|repeat constructor]. Qed.

(** C29: in general each frequency of each pulse is divided by the square root
    of the table entry displayed at that frequency. *)
Theorem C29_divides_spectrum : forall N n table wfm,
  (0 < n)%nat -> length wfm = N -> length table = n -> Forall (fun t => 0 < t) table ->
  exists out, cal2 true N n table wfm = Ok (Some out) /\ length out = N /\
    forall p t, (p < N)%nat -> (t < n)%nat ->
      length (nth p out []) = n /\
      spectrum n (nth p out []) (freq_of n t)
      = Cscal (/ sqrt (nth t table 0)) (spectrum n (nth p wfm []) (freq_of n t)).
Proof.
  intros N n table wfm Hn HN Ht Hp. exists (map (cal2_row n table) wfm).
  unfold cal2. destruct (Nat.eqb_spec n 0); [lia|].
  rewrite HN, Ht, !Nat.eqb_refl. cbn [andb negb].
  rewrite (proj2 (forallb_positive table) Hp). split; auto.
  rewrite map_length. split; auto. intros p t Hpn Htn.
  rewrite nth_indep with (d' := cal2_row n table []) by (rewrite map_length; lia).
  rewrite map_nth. split.
  - unfold cal2_row. apply np_ifft_length.
  - rewrite cal2_row_spectrum by (auto; apply freq_of_lt; auto).
    rewrite freq_of_inv' by auto. reflexivity.
Qed.
Print Assumptions C29_divides_spectrum.
Example C29_ex_divides : exists out, cal2 true 1 2 [4; 9] [[(1,0); (0,0)]] = Ok (Some [out]) /\
  spectrum 2 out 0 = (/3, 0) /\ spectrum 2 out 1 = (/2, 0).
Proof.
  destruct (C29_divides_spectrum 1 2 [4; 9] [[(1,0); (0,0)]]) as (out & H1 & H2 & H3);
    [lia|reflexivity|reflexivity|repeat constructor; lra|].
  destruct out as [|o [|? ?]]; cbn in H2; try lia. exists o. split; auto.
  assert (S : forall k, spectrum 2 [(1,0); (0,0)] k = (1, 0)).
  { intros. unfold spectrum, dft. cbn [csum nth]. cbn [INR].
    replace (- (2 * PI * 0 * INR k / (1 + 1))) with 0 by (field).
    rewrite cis_0. apply C_eq; cbn; ring. }
  destruct (H3 0%nat 1%nat) as [_ E0]; [lia|lia|].
  destruct (H3 0%nat 0%nat) as [_ E1]; [lia|lia|].
  cbn [nth] in E0, E1. change (freq_of 2 1) with 0%nat in E0. change (freq_of 2 0) with 1%nat in E1.
  rewrite S in E0, E1. rewrite E0, E1.
  replace 9 with (3 * 3) by ring. replace 4 with (2 * 2) by ring.
  rewrite !sqrt_square by lra. split; apply C_eq; cbn; ring.
Qed.

(** C29: switched off, nothing changes. *)
Theorem C29_off : forall N n table wfm, cal2 false N n table wfm = Ok (Some wfm).
Proof. reflexivity. Qed.
Print Assumptions C29_off.

(** C69: range compression keeps the energy of every beam; sample m of the
    result is the (scaled) content at the frequency displayed at m. *)
Theorem C69_energy : forall zp n nlooks size beams iq power b,
  range_compress zp n nlooks size beams = Ok (iq, power) ->
  (0 < zp)%nat -> (0 < n)%nat -> (b < Nat.min size nlooks)%nat -> (b < length beams)%nat ->
  length (nth b beams []) = n ->
  total (nth b power []) = energy (nth b beams []) /\
  energy (nth b iq []) = energy (nth b beams []) /\
  length (nth b iq []) = (zp * n)%nat /\ length (nth b power []) = (zp * n)%nat.
Proof.
  intros zp n nlooks size beams iq power b H Hz Hn Hb Hbl Hlen. unfold range_compress in H.
  assert (Hp : (0 < zp * n)%nat) by nia.
  destruct (Nat.eqb_spec (zp * n) 0); [lia|]. cbn [andb] in H. inversion H; subst; clear H.
  assert (HL : (b < length (firstn (Nat.min size nlooks) beams))%nat)
    by (rewrite firstn_length; lia).
  rewrite nth_indep with (l := map power_row _) (d' := power_row []) by (rewrite !map_length; auto).
  rewrite map_nth.
  rewrite nth_indep with (l := map (range_row _) _) (d' := range_row (zp * length (nth b beams [])) [])
    by (rewrite map_length; auto).
  rewrite map_nth. rewrite nth_firstn_lt by auto.
  rewrite power_row_total. rewrite range_row_energy by nia.
  repeat split; auto.
  - apply range_row_length.
  - unfold power_row. rewrite map_length. apply range_row_length.
Qed.
Print Assumptions C69_energy.

Theorem C69_samples : forall zp n nlooks size beams iq power b m,
  range_compress zp n nlooks size beams = Ok (iq, power) ->
  (b < Nat.min size nlooks)%nat -> (b < length beams)%nat -> (m < zp * n)%nat ->
  nth m (nth b iq []) C0
    = Cscal (/ sqrt (INR (zp * n))) (spectrum (zp * n) (nth b beams []) (freq_of (zp * n) m)) /\
  nth m (nth b power []) 0 = fst (nth m (nth b iq []) C0) * fst (nth m (nth b iq []) C0)
                           + snd (nth m (nth b iq []) C0) * snd (nth m (nth b iq []) C0).
Proof.
  intros zp n nlooks size beams iq power b m H Hb Hbl Hm. unfold range_compress in H.
  destruct (Nat.eqb_spec (zp * n) 0); [lia|]. cbn [andb] in H. inversion H; subst; clear H.
  assert (HL : (b < length (firstn (Nat.min size nlooks) beams))%nat)
    by (rewrite firstn_length; lia).
  rewrite nth_indep with (l := map power_row _) (d' := power_row []) by (rewrite !map_length; auto).
  rewrite map_nth.
  rewrite nth_indep with (l := map (range_row _) _) (d' := range_row (zp * n) [])
    by (rewrite map_length; auto).
  rewrite map_nth. rewrite nth_firstn_lt by auto. split.
  - apply range_row_sample. auto.
  - rewrite power_row_nth by (rewrite range_row_length; auto). reflexivity.
Qed.
Print Assumptions C69_samples.
Example C69_ex : exists iq power,
  range_compress 2 2 3 5 [[(1,2); (3,0)]; [(1,0); (0,1)]; [(0,0); (4,0)]; [(9,9); (9,9)]] = Ok (iq, power)
  /\ length power = 3%nat /\ total (nth 0 power []) = 14.
Proof.
  destruct (range_compress 2 2 3 5 [[(1,2); (3,0)]; [(1,0); (0,1)]; [(0,0); (4,0)]; [(9,9); (9,9)]])
    as [[iq power]|e] eqn:E; [|discriminate].
  exists iq, power. split; [reflexivity|]. split; [inversion E; reflexivity|].
  destruct (C69_energy 2 2 3 5 _ iq power 0 E) as (T & _); [lia|lia|cbn; lia|cbn; lia|reflexivity|].
  rewrite T. cbn. ring.
Qed.

(** C70: CAL1 turns the phase of every sample of pulse p by the pulse's phase
    and scales its power by cal1_power / 10^(gain/10). *)
Theorem C70_cal1 : forall n agc sig0 power phase wfm,
  length power = length wfm -> length phase = length wfm ->
  Forall (fun r => length r = n) wfm -> Forall (fun x => 0 <= x) power ->
  exists out, cal1 true n agc sig0 power phase wfm = Ok (Some out) /\ length out = length wfm /\
    forall p s, (p < length wfm)%nat -> (s < n)%nat ->
      length (nth p out []) = n /\
      exists r, 0 <= r /\ r * r = nth p power 0 / Rpower 10 ((agc - sig0) / 10) /\
        nth s (nth p out []) C0 = Cscal r (Cmul (cis (nth p phase 0)) (nth s (nth p wfm []) C0)).
Proof.
  intros n agc sig0 power phase wfm H1 H2 H3 H4. eexists. unfold cal1.
  assert (F : forallb (fun r : list C => Nat.eqb (length r) n) wfm = true).
  { apply forallb_forall. rewrite Forall_forall in H3. intros r Hr. apply Nat.eqb_eq. auto. }
  rewrite H1, H2, !Nat.eqb_refl, F. cbn [andb negb].
  rewrite (proj2 (forallb_nonnegative power) H4). split; [reflexivity|].
  assert (Lz : length (zip2 (cal1_factor (agc - sig0)) power phase) = length wfm)
    by (rewrite zip2_length; lia).
  split. { rewrite zip2_length. lia. }
  intros p s Hp Hs.
  rewrite nth_zip2 with (da := C0) (db := []) by lia.
  assert (Lr : length (nth p wfm []) = n).
  { rewrite Forall_forall in H3. apply H3. apply nth_In. auto. }
  split. { rewrite map_length. auto. }
  rewrite nth_zip2 with (da := 0) (db := 0) by lia.
  set (g := (agc - sig0)) in *.
  assert (Hpow : 0 <= nth p power 0).
  { rewrite Forall_forall in H4. apply H4. apply nth_In. lia. }
  assert (Hg : 0 < Rpower 10 (g / 10)) by (unfold Rpower; apply exp_pos).
  assert (Hsg : 0 < sqrt (Rpower 10 (g / 10))) by (apply sqrt_lt_R0; auto).
  exists (sqrt (nth p power 0) / sqrt (Rpower 10 (g / 10))). split; [|split].
  - apply Rmult_le_pos. + apply sqrt_pos. + left. apply Rinv_0_lt_compat. auto.
  - replace (nth p power 0 / Rpower 10 (g / 10)) with
      ((sqrt (nth p power 0) * sqrt (nth p power 0))
       / (sqrt (Rpower 10 (g / 10)) * sqrt (Rpower 10 (g / 10)))).
    + field. lra.
    + rewrite !sqrt_def by lra. reflexivity.
  - rewrite nth_indep with (d' := Cmul C0 (cal1_factor g (nth p power 0) (nth p phase 0)))
      by (rewrite map_length; lia).
    rewrite (map_nth (fun z => Cmul z (cal1_factor g (nth p power 0) (nth p phase 0)))).
    unfold cal1_factor. apply C_eq; cbn; ring.
Qed.
Print Assumptions C70_cal1.

(** C70: a unit calibration (power 1, phase 0, equal gains) changes nothing. *)
Theorem C70_neutral : forall n g wfm, Forall (fun r => length r = n) wfm ->
  cal1 true n g g (repeat 1 (length wfm)) (repeat 0 (length wfm)) wfm = Ok (Some wfm).
Proof.
  intros n g wfm H. unfold cal1.
  assert (F : forallb (fun r : list C => Nat.eqb (length r) n) wfm = true).
  { apply forallb_forall. rewrite Forall_forall in H. intros r Hr. apply Nat.eqb_eq. auto. }
  rewrite !repeat_length, !Nat.eqb_refl, F. cbn [andb negb].
  assert (P : forallb nonnegative (repeat 1 (length wfm)) = true).
  { apply forallb_nonnegative. induction (length wfm); cbn; constructor; auto. lra. }
  rewrite P. do 2 f_equal. clear.
  assert (E : forall z, Cmul z (cal1_factor (g - g) 1 0) = z).
  { intros. unfold cal1_factor. rewrite cis_0.
    replace ((g - g) / 10) with 0 by field. rewrite Rpower_O by lra. rewrite sqrt_1.
    apply C_eq; cbn; field. }
  induction wfm as [|r w IH]; cbn [length repeat zip2]; auto.
  f_equal; auto. clear -E. induction r; cbn [map]; auto. rewrite E, IHr. auto.
Qed.
Print Assumptions C70_neutral.
Theorem C70_off : forall n a s power phase wfm, cal1 false n a s power phase wfm = Ok (Some wfm).
Proof. reflexivity. Qed.
Print Assumptions C70_off.
Example C70_ex : exists out, cal1 true 2 3 1 [4; 2] [0; PI] [[(1,0); (0,1)]; [(2,2); (0,0)]] = Ok (Some out)
  /\ length out = 2%nat.
Proof.
  destruct (C70_cal1 2 3 1 [4; 2] [0; PI] [[(1,0); (0,1)]; [(2,2); (0,0)]]) as (out & H1 & H2 & _);
    try reflexivity; try (repeat constructor; cbn; try reflexivity; lra).
  exists out. auto.
Qed.
