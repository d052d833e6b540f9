(** C71, C72. *)
From Coq Require Import List ZArith Reals Bool Lia Lra Arith.
From Verif Require Import Common Cplx BeamModel BeamSpec BeamProofs DftModel DftSpec DftProofs AzModel AzProofs.
Import ListNotations.
Local Open Scope R_scope.

(** Independent description: coherent sum of the pulses of a burst at sample s,
    each turned by [phase p], with orthogonal scaling. *)
Definition coherent_sum (wfm : list (list C)) (s : nat) (phase : nat -> R) : C :=
  Cscal (/ sqrt (INR (length wfm)))
    (csum (fun p => Cmul (cis (phase p)) (nth s (nth p wfm []) C0)) (length wfm)).

(** The Doppler phase of pulse p for look angle a: 4 pi / wavelength times the
    change of range (speed * cos a * time) since the first pulse. *)
Definition doppler_phase (r : radar) (a : R) (p : nat) : R :=
  4 * cpi r / wavelength r * (speed r * cos a * (INR p * pri r)).

(** C71: the exact method gives, for each angle of the list, the coherent sum
    of the pulses after removing the Doppler phase of that angle. *)
Theorem C71_exact : forall r N ns angles wfm i a,
  (0 < N)%nat -> length wfm = N -> (length angles <= N)%nat -> nth_error angles i = Some a ->
  exists rows row, exact_method r N ns angles wfm = Ok rows /\ nth_error rows i = Some (Row row) /\
    length row = ns /\
    forall s, (s < ns)%nat ->
      nth s row C0 = coherent_sum wfm s (fun p => - doppler_phase r a p).
Proof.
  intros r N ns angles wfm i a HN Hw Hl Ha.
  destruct (exact_row_defined N (fun a => az_fft ns (phase_shift r a wfm)) angles i a HN Hl) as
    (rows & row & H1 & H2 & H3); auto.
  { intros. rewrite az_fft_length. unfold phase_shift. rewrite phase_shift_length. auto. }
  exists rows, row. split; [exact H1|]. split; [exact H2|].
  assert (Hh : (N / 2 < length wfm)%nat) by (rewrite Hw; apply Nat.div_lt; lia).
  apply nth_error_nth' with (d := []) in H3. split.
  - rewrite <- H3. unfold phase_shift. rewrite az_fft_row by (rewrite phase_shift_length; auto).
    rewrite map_length, seq_length. auto.
  - intros s Hs. rewrite <- H3, steered_sample by auto. unfold coherent_sum. f_equal.
    apply csum_ext. intros p Hp. do 2 f_equal. rewrite Hw, freq_of_half by auto.
    unfold steer_phase, doppler_phase. cbn [INR]. unfold Rdiv. ring.
Qed.
Print Assumptions C71_exact.

(** C71: the approximate method gives, for the beam at position q of the full
    set, the coherent sum after removing the Doppler phase of the nadir angle
    and the linear phase of the q-th Doppler frequency (zero at N/2). *)
Theorem C71_approximate : forall r N ns angles t wfm i a,
  length wfm = N -> (length angles <= N)%nat -> (i < length angles)%nat ->
  nadir_beam N angles t = Ok a ->
  exists rows row, approximate_method r N ns angles t wfm = Ok rows /\
    nth_error rows i = Some (Row row) /\ length row = ns /\
    let q := full_position N (length angles) t i in
    forall s, (s < ns)%nat ->
      nth s row C0 = coherent_sum wfm s
        (fun p => - doppler_phase r a p - 2 * PI * (INR p * INR (freq_of N q) / INR N)).
Proof.
  intros r N ns angles t wfm i a Hw Hl Hi Ha.
  set (fft := az_fft ns (phase_shift r a wfm)).
  destruct (approx_row_defined N (length angles) t fft i) as (row & H1 & H2); [|lia|].
  { unfold fft, phase_shift. rewrite az_fft_length, phase_shift_length. auto. }
  exists (approx_rows N (length angles) t fft), row. split.
  { unfold approximate_method. rewrite Ha. reflexivity. }
  split; auto. cbv zeta. set (q := full_position N (length angles) t i) in *.
  assert (Hq : (q < length wfm)%nat).
  { unfold q, full_position. destruct (Z.eqb t 1); lia. }
  apply nth_error_nth' with (d := []) in H2. unfold fft in H2. split.
  - rewrite <- H2. unfold phase_shift. rewrite az_fft_row by (rewrite phase_shift_length; auto).
    rewrite map_length, seq_length. auto.
  - intros s Hs. rewrite <- H2, steered_sample by auto. unfold coherent_sum. f_equal.
    apply csum_ext. intros p Hp. do 2 f_equal. rewrite Hw.
    unfold steer_phase, doppler_phase. unfold Rdiv. ring.
Qed.
Print Assumptions C71_approximate.

Definition ex_radar : radar := {| cpi := PI; wavelength := 2; speed := 1; pri := 1 |}.
Example C71_ex : exists rows row,
  exact_method ex_radar 4 1 [1; PI] [[(1,0)]; [(0,1)]; [(2,0)]; [(0,0)]] = Ok rows /\
  nth_error rows 1 = Some (Row row) /\ length row = 1%nat.
Proof.
  destruct (C71_exact ex_radar 4 1 [1; PI] [[(1,0)]; [(0,1)]; [(2,0)]; [(0,0)]] 1 PI)
    as (rows & row & H1 & H2 & H3 & _); cbn; auto; try lia. eauto.
Qed.
Example C71_ex_approx : nadir_beam 4 [1; PI] 1 = Ok 1 /\ full_position 4 2 1 0 = 2%nat.
Proof. split; reflexivity. Qed.

(** C72: both methods give the same beam at the nadir position, provided the
    burst sees enough surfaces for its list to contain position N/2. *)
Theorem C72_agree_at_nadir_partial : forall r N ns angles t wfm sizes k,
  nth_error sizes k = Some (length angles) -> nth_error (trends N sizes) k = Some t ->
  (0 < length angles <= N)%nat -> Nat.even N = true -> length wfm = N ->
  ((t = 1)%Z -> (N / 2 <= length angles)%nat) -> ((t <> 1)%Z -> (N / 2 < length angles)%nat) ->
  exists i a ar er row, nth_error angles i = Some a /\ nadir_beam N angles t = Ok a /\
    full_position N (length angles) t i = (N / 2)%nat /\
    approximate_method r N ns angles t wfm = Ok ar /\ exact_method r N ns angles wfm = Ok er /\
    nth_error ar i = Some (Row row) /\ nth_error er i = Some (Row row).
Proof.
  intros r N ns angles t wfm sizes k Hs Ht Hl E Hw H1 H2.
  pose proof (trends_zero_iff N sizes k (length angles) t Hs Ht) as Hok.
  destruct (nadir_beam_ok N angles t Hl Hok E) as (i & a & Ha & Hi & Hf).
  assert (Hq : full_position N (length angles) t i = (N / 2)%nat).
  { rewrite Hf. apply Nat.even_spec in E. destruct E as [m ->].
    rewrite (Nat.mul_comm 2 m), Nat.div_mul in * by lia.
    destruct (Z.eqb_spec t 1) as [e|e]; [specialize (H1 e)|specialize (H2 e)]; lia. }
  set (fft := az_fft ns (phase_shift r a wfm)).
  assert (Hi' : (i < length angles)%nat) by (apply nth_error_Some; congruence).
  destruct (approx_row_defined N (length angles) t fft i) as (row & A1 & A2); [|lia|].
  { unfold fft, phase_shift. rewrite az_fft_length, phase_shift_length. auto. }
  destruct (exact_row_defined N (fun a => az_fft ns (phase_shift r a wfm)) angles i a) as
    (rows & row' & B1 & B2 & B3); auto; try lia.
  { intros. rewrite az_fft_length. unfold phase_shift. rewrite phase_shift_length. auto. }
  exists i, a, (approx_rows N (length angles) t fft), rows, row.
  split; [auto|]. split; [auto|]. split; [auto|]. split.
  { unfold approximate_method. rewrite Ha. reflexivity. }
  split; [exact B1|]. split; [auto|]. rewrite Hq in A2. rewrite B2.
  unfold fft in A2. rewrite A2 in B3. congruence.
Qed.
Print Assumptions C72_agree_at_nadir_partial.
Example C72_ex : nth_error (trends 4 [2]%nat) 0 = Some 1%Z /\ (4 / 2 <= length [1%R; PI])%nat.
Proof. split; [reflexivity|cbn; lia]. Qed.

(** C72: for a burst that sees fewer surfaces the two methods differ at the
    beam selected as nadir: the first burst of a run that sees one surface of
    N = 4, with the approximate method, keeps the last beam of the burst although
    the burst was steered so that its central beam points at that surface. *)
Theorem C72_short_list_refuted : exists r N ns angles t wfm sizes k ar er rowa rowe,
  nth_error sizes k = Some (length angles) /\ nth_error (trends N sizes) k = Some t /\
  (0 < length angles <= N)%nat /\ Nat.even N = true /\ length wfm = N /\
  nadir_beam N angles t = Ok (nth 0 angles 0) /\
  approximate_method r N ns angles t wfm = Ok ar /\ exact_method r N ns angles wfm = Ok er /\
  nth_error ar 0 = Some (Row rowa) /\ nth_error er 0 = Some (Row rowe) /\ rowa <> rowe.
Proof.
  set (r := {| cpi := PI; wavelength := 1; speed := 0; pri := 1 |}).
  set (wfm := [[(0,0)]; [(1,0)]; [(0,0)]; [(0,0)]] : list (list C)).
  exists r, 4%nat, 1%nat, [0], 1%Z, wfm, [1%nat], 0%nat.
  destruct (C71_exact r 4 1 [0] wfm 0 0) as (er & rowe & E1 & E2 & E3 & E4); try reflexivity; try (cbn; lia).
  destruct (C71_approximate r 4 1 [0] 1 wfm 0 0) as (ar & rowa & A1 & A2 & A3 & A4); try reflexivity; try (cbn; lia).
  exists ar, er, rowa, rowe. repeat (split; [reflexivity || (cbn; lia) || auto|]).
  intro H. subst rowa. specialize (E4 0%nat (Nat.lt_0_succ 0)).
  specialize (A4 0%nat (Nat.lt_0_succ 0)). rewrite E4 in A4. clear -A4.
  unfold coherent_sum in A4. cbn [length wfm] in A4. cbn [csum nth] in A4.
  change (full_position 4 1 1 0) with 3%nat in A4. change (freq_of 4 3) with 1%nat in A4.
  replace (- doppler_phase r 0 1) with 0 in A4 by (unfold doppler_phase; cbn; field).
  replace (0 - 2 * PI * (INR 1 * INR 1 / INR 4)) with (- (PI / 2)) in A4 by (cbn; field).
  rewrite cis_0 in A4. apply (f_equal fst) in A4. unfold cis in A4.
  rewrite (cos_neg (PI / 2)), cos_PI2 in A4. cbn [fst snd Cscal Cmul Cadd C0 C1] in A4.
  assert (Hs : / sqrt (INR 4) <> 0).
  { apply Rinv_neq_0_compat. apply Rgt_not_eq. apply sqrt_lt_R0. cbn. lra. }
  apply Rmult_eq_reg_l in A4; auto. cbn [nth wfm fst snd] in A4. lra.
Qed.
Print Assumptions C72_short_list_refuted.

(** C71: the approximate transform keeps the energy of the burst at every
    sample. *)
Theorem C71_energy : forall r a ns wfm s, wfm <> [] -> (s < ns)%nat ->
  rsum (fun k => Cnorm2 (nth s (nth k (az_fft ns (phase_shift r a wfm)) []) C0)) (length wfm)
  = rsum (fun p => Cnorm2 (nth s (nth p wfm []) C0)) (length wfm).
Proof.
  intros r a ns wfm s Hne Hs.
  assert (HN : (0 < length wfm)%nat) by (destruct wfm; [congruence|cbn; lia]).
  set (n := length wfm) in *.
  assert (Hn : 0 < INR n) by (apply lt_0_INR; lia).
  assert (Hsq : 0 < sqrt (INR n)) by (apply sqrt_lt_R0; auto).
  set (x := fun p => nth s (nth p (phase_shift r a wfm) []) C0).
  assert (E : forall k, (k < n)%nat ->
     Cnorm2 (nth s (nth k (az_fft ns (phase_shift r a wfm)) []) C0)
     = / INR n * Cnorm2 (nth k (fftshift (map (dft n x) (seq 0 n))) C0)).
  { intros k Hk. unfold phase_shift.
    rewrite az_fft_row by (rewrite phase_shift_length; auto). rewrite phase_shift_length.
    rewrite nth_map_seq by auto. fold n.
    rewrite nth_fftshift by (rewrite map_length, seq_length; auto).
    rewrite map_length, seq_length, nth_map_seq by (apply freq_of_lt; auto).
    unfold Cnorm2, Cscal. cbn [fst snd].
    replace (/ INR n) with (/ sqrt (INR n) * / sqrt (INR n)).
    - unfold x, phase_shift. ring.
    - rewrite <- Rinv_mult. rewrite sqrt_def by lra. auto. }
  rewrite (rsum_ext _ _ n E), rsum_scal.
  rewrite <- (list_as_seq (fftshift (map (dft n x) (seq 0 n))) n)
    by (rewrite fftshift_length, map_length, seq_length; auto).
  rewrite energy_fftshift, energy_map_seq, parseval.
  transitivity (rsum (fun j => Cnorm2 (x j)) n). { field. lra. }
  apply rsum_ext. intros p Hp. unfold x, phase_shift.
  rewrite phase_shift_nth by auto. rewrite nth_map_Cmul, Cnorm2_mul, cis_norm. ring.
Qed.
Print Assumptions C71_energy.
