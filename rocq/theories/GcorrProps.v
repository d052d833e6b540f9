(** C30, C73, C74. *)
From Coq Require Import List ZArith Reals Bool Lia Lra Arith.
From Verif Require Import Common Cplx DftModel DftSpec DftProofs GcorrModel.
Import ListNotations.
Local Open Scope R_scope.

Lemma gc_nth : forall fl k s nlooks size bs i b, nth_error bs i = Some b ->
  (i < Nat.min size nlooks)%nat ->
  nth_error (geometry_corrections fl k s nlooks size bs) i = Some (correct_beam fl k s b).
Proof.
  intros fl k s nlooks size bs i b Hb Hi. unfold geometry_corrections.
  assert (Hl : (i < length bs)%nat) by (apply nth_error_Some; congruence).
  rewrite nth_error_app1 by (rewrite map_length, firstn_length; lia).
  rewrite nth_error_map.
  replace (nth_error (firstn (Nat.min size nlooks) bs) i) with (nth_error bs i).
  - rewrite Hb. reflexivity.
  - revert i Hi Hl Hb. generalize (Nat.min size nlooks). clear. induction bs; intros n i Hi Hl Hb.
    + cbn in Hl. lia.
    + destruct n; [lia|]. destruct i; cbn; auto. apply IHbs; cbn in *; auto; lia.
Qed.

(** C30: a correction switched off contributes zero to every beam; the distance
    to the surface is computed whatever the switches. *)
Theorem C30_switched_off : forall fl k s nlooks size bs o,
  In o (geometry_corrections fl k s nlooks size bs) ->
  (f_doppler fl = false -> o_doppler o = 0) /\ (f_slant fl = false -> o_slant o = 0).
Proof.
  intros fl k s nlooks size bs o H. unfold geometry_corrections in H.
  apply in_app_or in H. destruct H as [H|H].
  - apply in_map_iff in H. destruct H as (b & <- & _). cbn. split; intro E.
    + unfold doppler_correction. rewrite E. auto.
    + unfold slant_correction. rewrite E. auto.
  - apply repeat_spec in H. subst. cbn. auto.
Qed.
Print Assumptions C30_switched_off.

Theorem C30_distance : forall fl k s nlooks size bs i b,
  nth_error bs i = Some b -> (i < Nat.min size nlooks)%nat ->
  exists o, nth_error (geometry_corrections fl k s nlooks size bs) i = Some o /\
    0 <= o_range o /\
    o_range o * o_range o = (g_x b - sx s) * (g_x b - sx s) + (g_y b - sy s) * (g_y b - sy s)
                            + (g_z b - sz s) * (g_z b - sz s).
Proof.
  intros. rewrite (gc_nth fl k s nlooks size bs i b); auto. eexists. split; [reflexivity|].
  cbn [o_range correct_beam]. split. { apply sqrt_pos. }
  unfold range_to. rewrite sqrt_def. { ring. }
  assert (forall x : R, 0 <= x ^ 2) by (intros; cbn; nra).
  pose proof (H1 (g_x b - sx s)). pose proof (H1 (g_y b - sy s)). pose proof (H1 (g_z b - sz s)). lra.
Qed.
Print Assumptions C30_distance.

(** The surface with another reference window delay. *)
Definition set_ref (s : gsurf) (w : R) : gsurf := {| sx := sx s; sy := sy s; sz := sz s; s_wd := w |}.

(** C30: with the slant-range correction on, the total shift and the corrected
    beam do not depend on the reference window delay; off, they do. *)
Theorem C30_reference_independent : forall fl k s nlooks size bs w i b,
  f_slant fl = true -> nth_error bs i = Some b -> (i < Nat.min size nlooks)%nat -> g_t0 b <> 0 ->
  exists o o', nth_error (geometry_corrections fl k s nlooks size bs) i = Some o /\
    nth_error (geometry_corrections fl k (set_ref s w) nlooks size bs) i = Some o' /\
    o_doppler o + o_slant o + o_wdc o = o_doppler o' + o_slant o' + o_wdc o' /\
    o_row o = o_row o'.
Proof.
  intros fl k s nlooks size bs w i b F Hb Hi Ht.
  rewrite (gc_nth fl k s nlooks size bs i b), (gc_nth fl k (set_ref s w) nlooks size bs i b); auto.
  eexists _, _. split; [reflexivity|]. split; [reflexivity|].
  assert (E : slant_correction fl k s b + win_delay_correction (s_wd s) b
            = slant_correction fl k (set_ref s w) b + win_delay_correction w b).
  { unfold slant_correction, win_delay_correction. rewrite F.
    change (range_to (set_ref s w) b) with (range_to s b). cbn [s_wd set_ref].
    unfold Rdiv. ring. }
  assert (E2 : doppler_correction fl k b + slant_correction fl k s b + win_delay_correction (s_wd s) b
    = doppler_correction fl k b + slant_correction fl k (set_ref s w) b + win_delay_correction w b) by lra.
  cbn [o_doppler o_slant o_wdc o_row correct_beam set_ref s_wd].
  split; [exact E2|]. rewrite E2. reflexivity.
Qed.
Print Assumptions C30_reference_independent.

(** C30: the total shift with both corrections on, in samples: Doppler term plus
    the difference between the burst's window delay and the two-way travel time. *)
Theorem C30_total_shift : forall fl k s nlooks size bs i b,
  f_slant fl = true -> f_doppler fl = true ->
  nth_error bs i = Some b -> (i < Nat.min size nlooks)%nat ->
  g_t0 b <> 0 -> k_c k <> 0 -> k_lam k <> 0 -> k_bw k <> 0 ->
  exists o, nth_error (geometry_corrections fl k s nlooks size bs) i = Some o /\
    g_t0 b * (o_doppler o + o_slant o + o_wdc o)
    = - (2 * g_speed b * cos (g_angle b) * k_plen k) / (k_lam k * k_bw k)
      + (g_wd b - 2 * o_range o / k_c k).
Proof.
  intros fl k s nlooks size bs i b F1 F2 Hb Hi Ht Hc Hlam Hbw.
  rewrite (gc_nth fl k s nlooks size bs i b); auto. eexists. split; [reflexivity|].
  cbn [o_doppler o_slant o_wdc o_range correct_beam].
  unfold doppler_correction, slant_correction, win_delay_correction. rewrite F1, F2. field. auto.
Qed.
Print Assumptions C30_total_shift.

Definition ex_k : gconst := {| k_c := 2; k_pi := PI; k_lam := 1; k_plen := 1; k_bw := 1; k_n := 2 |}.
Definition ex_b : gbeam := {| g_x := 3; g_y := 4; g_z := 0; g_speed := 1; g_pri := 1; g_wd := 7;
  g_angle := 0; g_t0 := 1; g_row := [(1,0); (0,1)] |}.
Definition ex_s : gsurf := {| sx := 0; sy := 0; sz := 0; s_wd := 100 |}.
Example C30_ex : exists o,
  nth_error (geometry_corrections {| f_doppler := true; f_slant := true; f_align := 0 |} ex_k ex_s 4 3
     [ex_b; ex_b; ex_b]) 1 = Some o /\ o_doppler o + o_slant o + o_wdc o = 0 /\ o_slant o = 95.
Proof.
  eexists. split; [reflexivity|]. unfold correct_beam. cbn [o_doppler o_slant o_wdc].
  unfold doppler_correction, slant_correction, win_delay_correction. cbn [f_doppler f_slant].
  assert (E : range_to ex_s ex_b = 5).
  { unfold range_to. cbn. replace ((3 - 0) * ((3 - 0) * 1) + (4 - 0) * ((4 - 0) * 1) + (0 - 0) * ((0 - 0) * 1))
      with (5 * 5) by ring. apply sqrt_square. lra. }
  rewrite E. cbn. rewrite cos_0. split; field.
Qed.

(** C73: the correction changes only the phase of each sample. *)
Lemma shift_row_length : forall k sh row j, length (shift_row k sh j row) = length row.
Proof. induction row; cbn; auto. Qed.
Lemma shift_row_nth : forall k sh row j0 j, (j < length row)%nat ->
  nth j (shift_row k sh j0 row) C0
  = Cmul (cis (2 * k_pi k / INR (k_n k) * sh * INR (j0 + j))) (nth j row C0).
Proof.
  induction row; intros j0 j Hj; cbn in Hj; [lia|]. destruct j; cbn [shift_row nth].
  - rewrite Nat.add_0_r. auto.
  - rewrite IHrow by lia. replace (S j0 + j)%nat with (j0 + S j)%nat by lia. auto.
Qed.
Theorem C73_phase_only : forall k sh row j, (j < length row)%nat ->
  length (shift_row k sh 0 row) = length row /\
  Cnorm2 (nth j (shift_row k sh 0 row) C0) = Cnorm2 (nth j row C0).
Proof.
  intros. split. { apply shift_row_length. }
  rewrite shift_row_nth by auto. rewrite Cnorm2_mul, cis_norm. ring.
Qed.
Print Assumptions C73_phase_only.

(** C73: a total shift of a whole number m of samples moves the zero-padded
    spectrum, and so the range-compressed echo, by exactly m*zp bins, cyclically:
    the content of bin f appears in bin f + m*zp. *)
Lemma cis_period : forall x (n : nat), cis (x + 2 * PI * INR n) = cis x.
Proof. intros. rewrite cis_add, cis_2PI_n. ring. Qed.

Theorem C73_integer_shift : forall k zp m row f,
  k_pi k = PI -> (0 < zp)%nat -> (0 < k_n k)%nat -> length row = k_n k ->
  let P := (zp * k_n k)%nat in
  (f < P)%nat ->
  spectrum P (shift_row k (INR m) 0 row) (Nat.modulo (f + m * zp) P) = spectrum P row f.
Proof.
  intros k zp m row f HPI Hz Hn Hl P Hf. unfold spectrum, dft. apply csum_ext. intros j Hj.
  destruct (Nat.lt_ge_cases j (length row)) as [Hjl|Hjl].
  2:{ rewrite !(nth_overflow _ _ Hjl). rewrite nth_overflow by (rewrite shift_row_length; auto). ring. }
  rewrite shift_row_nth by auto. cbn [Nat.add].
  assert (HP0 : INR P <> 0) by (apply not_0_INR; lia).
  assert (Hn0 : INR (k_n k) <> 0) by (apply not_0_INR; lia).
  assert (Hz0 : INR zp <> 0) by (apply not_0_INR; lia).
  pose proof (Nat.div_mod (f + m * zp) P ltac:(lia)) as D.
  set (q := ((f + m * zp) / P)%nat) in *. set (r := ((f + m * zp) mod P)%nat) in *.
  assert (DR : INR f + INR m * INR zp = INR P * INR q + INR r).
  { rewrite <- !mult_INR, <- !plus_INR. f_equal. exact D. }
  replace (Cmul (Cmul (cis (2 * k_pi k / INR (k_n k) * INR m * INR j)) (nth j row C0))
                (cis (- (2 * PI * INR j * INR r / INR P))))
    with (Cmul (nth j row C0) (Cmul (cis (2 * k_pi k / INR (k_n k) * INR m * INR j))
                                    (cis (- (2 * PI * INR j * INR r / INR P))))) by ring.
  f_equal. rewrite <- cis_add. rewrite HPI.
  replace (2 * PI / INR (k_n k) * INR m * INR j + - (2 * PI * INR j * INR r / INR P))
    with (- (2 * PI * INR j * INR f / INR P) + 2 * PI * INR (j * q)).
  - apply cis_period.
  - rewrite mult_INR. replace (INR r) with (INR f + INR m * INR zp - INR P * INR q) by lra.
    unfold P in *. rewrite mult_INR in *. field. split; auto.
Qed.
Print Assumptions C73_integer_shift.
Example C73_ex : (Nat.modulo (1 + 1 * 2) (2 * 2) = 3)%nat /\
  spectrum (2 * 2) (shift_row ex_k (INR 1) 0 [(1,0); (0,1)]) 3 = spectrum (2 * 2) [(1,0); (0,1)] 1.
Proof.
  split; auto. apply (C73_integer_shift ex_k 2 1 [(1,0); (0,1)] 1); cbn; auto; lia.
Qed.

(** C74: over a non-empty stack of at most n_looks beams (which is what
    gathering produces, C20) the reported factor is the arithmetic mean of the
    beams' factors. *)
Theorem C74_mean : forall q nlooks size agc bs arr m,
  sigma0_scaling q nlooks size agc bs = (arr, m) ->
  length bs = nlooks -> (0 < size <= nlooks)%nat ->
  length arr = size /\
  (forall i rng speed pri, (i < size)%nat -> nth_error bs i = Some (rng, speed, pri) ->
     nth_error arr i = Some (sigma0_beam q agc rng speed pri)) /\
  exists v, m = Some v /\ v * INR size = rlist_sum arr.
Proof.
  intros q nlooks size agc bs arr m H Hl Hs. unfold sigma0_scaling in H.
  replace (Nat.min size nlooks) with size in H by lia. rewrite Nat.sub_diag, app_nil_r in H.
  set (f := fun t : R * R * R => match t with (rng, speed, pri) => sigma0_beam q agc rng speed pri end) in *.
  assert (L : length (map f (firstn size bs)) = size) by (rewrite map_length, firstn_length; lia).
  inversion H; subst arr m; clear H. split; auto. split.
  - intros i rng speed pri Hi E. rewrite nth_error_map.
    rewrite <- (firstn_skipn size bs) in E. rewrite nth_error_app1 in E
      by (rewrite firstn_length; lia).
    rewrite E. reflexivity.
  - destruct (map f (firstn size bs)) as [|x l] eqn:E; [cbn in L; lia|].
    eexists. split; [reflexivity|]. rewrite L. field. apply not_0_INR. lia.
Qed.
Print Assumptions C74_mean.

(** C74: an empty stack gives NaN. *)
Theorem C74_empty : forall q nlooks agc bs, sigma0_scaling q nlooks 0 agc bs = ([], None).
Proof. intros. unfold sigma0_scaling. cbn. reflexivity. Qed.
Print Assumptions C74_empty.

(** C74: the factor in power units: offset, R^4, area and gain combine as in the
    radar equation; adding d dB of gain adds d dB, and doubling the illuminated
    area adds 10 log10 2. *)
Lemma rsum_shift : forall d l, rlist_sum (map (fun x => x + d) l) = rlist_sum l + INR (length l) * d.
Proof.
  induction l; cbn [map rlist_sum length]. - cbn; ring. - rewrite IHl, S_INR. ring.
Qed.
Theorem C74_gain : forall q nlooks size agc d bs arr arr' m m',
  length bs = nlooks -> (0 < size <= nlooks)%nat ->
  sigma0_scaling q nlooks size agc bs = (arr, Some m) ->
  sigma0_scaling q nlooks size (agc + d) bs = (arr', Some m') ->
  arr' = map (fun x => x + d) arr /\ m' = m + d.
Proof.
  intros q nlooks size agc d bs arr arr' m m' Hl Hs H H'. unfold sigma0_scaling in *.
  replace (Nat.min size nlooks) with size in * by lia. rewrite Nat.sub_diag, app_nil_r in *.
  assert (L : length (firstn size bs) = size) by (rewrite firstn_length; lia).
  set (l := firstn size bs) in *.
  assert (E : map (fun t : R * R * R => match t with (rng, speed, pri) => sigma0_beam q (agc + d) rng speed pri end) l
    = map (fun x => x + d) (map (fun t : R * R * R => match t with (rng, speed, pri) => sigma0_beam q agc rng speed pri end) l)).
  { rewrite map_map. apply map_ext. intros [[rng sp] pri]. unfold sigma0_beam. ring. }
  rewrite E in H'. clear E.
  set (a := map (fun t : R * R * R => match t with (rng, speed, pri) => sigma0_beam q agc rng speed pri end) l) in *.
  assert (La : length a = size) by (unfold a; rewrite map_length; auto).
  clearbody a.
  assert (HN : INR size <> 0) by (apply not_0_INR; lia).
  destruct a as [|x a']; [cbn in La; lia|]. cbn [map] in H'.
  assert (A : arr = x :: a') by congruence. assert (A' : arr' = x + d :: map (fun x => x + d) a') by congruence.
  assert (M : m = rlist_sum (x :: a') / INR (length (x :: a'))) by congruence.
  assert (M' : m' = rlist_sum (x + d :: map (fun x => x + d) a')
                    / INR (length (x + d :: map (fun x => x + d) a'))) by congruence.
  split. { rewrite A, A'. reflexivity. }
  change (x + d :: map (fun x => x + d) a') with (map (fun x => x + d) (x :: a')) in M'.
  rewrite map_length, rsum_shift, La in M'. rewrite La in M. rewrite M, M'. field. auto.
Qed.
Print Assumptions C74_gain.

Lemma log10_mult : forall x y, 0 < x -> 0 < y -> log10 (x * y) = log10 x + log10 y.
Proof. intros. unfold log10. rewrite ln_mult by auto. unfold Rdiv. ring. Qed.
Theorem C74_radar_equation : forall q agc rng speed pri,
  0 < q_pi q -> 0 < q_ptx q -> 0 < q_lam q -> (0 < q_np q)%nat -> 0 < rng ->
  0 < surface_area q rng speed pri ->
  sigma0_beam q agc rng speed pri
  = 10 * log10 (q_ptx q * (q_lam q * q_lam q) * surface_area q rng speed pri)
    - 10 * log10 (64 * (q_pi q * q_pi q * q_pi q) * (rng * rng * (rng * rng)) * INR (q_np q))
    + 2 * q_gain q - q_trc q + agc.
Proof.
  intros q agc rng speed pri H1 H2 H3 H4 H5 H6.
  assert (Hn : 0 < INR (q_np q)) by (apply lt_0_INR; lia).
  assert (P2 : 0 < q_lam q * q_lam q) by nra.
  assert (P3 : 0 < q_pi q * q_pi q) by nra.
  assert (P4 : 0 < q_pi q * q_pi q * q_pi q) by nra.
  assert (P5 : 0 < rng * rng) by nra. assert (P6 : 0 < rng * rng * (rng * rng)) by nra.
  unfold sigma0_beam, sigma0_offset.
  rewrite !log10_mult; auto; try nra; try (repeat apply Rmult_lt_0_compat; auto; lra).
Qed.
Print Assumptions C74_radar_equation.
(** The illuminated area: the width of a Doppler beam along the track (from the
    angle lambda / (2 v PRI Np)) times twice the radius of the pulse-limited
    footprint on a sphere, times 0.886.  Both are characterised by equations. *)
Theorem C74_area : forall q rng speed pri a rho,
  0 < q_re q -> 0 < rng -> 0 < pri -> 0 < speed -> (0 < q_np q)%nat -> 0 <= rho ->
  a * (2 * speed * pri * INR (q_np q)) = q_lam q * rng * (1 + rng / q_re q) ->
  rho ^ 2 * (1 / rng + 1 / q_re q) = q_c q * q_ptr q ->
  surface_area q rng speed pri = 886 / 1000 * a * (2 * rho).
Proof.
  intros q rng speed pri a rho H1 H2 H3 H4 H5 H6 Ha Hr. unfold surface_area. cbv zeta.
  assert (Hn : 0 < INR (q_np q)) by (apply lt_0_INR; lia).
  replace (q_c q * rng * q_ptr q * q_re q / (q_re q + rng)) with (rho ^ 2).
  - rewrite sqrt_pow2 by assumption.
    replace ((1 + rng / q_re q) * q_lam q * rng / pri / (2 * speed * INR (q_np q))) with a; [ring|].
    apply (Rmult_eq_reg_r (2 * speed * pri * INR (q_np q))).
    + rewrite Ha. field. repeat split; lra.
    + assert (0 < 2 * speed * pri) by (repeat apply Rmult_lt_0_compat; lra).
      apply Rgt_not_eq, Rmult_lt_0_compat; assumption.
  - replace (q_c q * rng * q_ptr q * q_re q / (q_re q + rng))
      with (q_c q * q_ptr q * (rng * q_re q / (q_re q + rng))) by (field; lra).
    rewrite <- Hr. field. repeat split; lra.
Qed.
Print Assumptions C74_area.
Example C74_area_ex : exists q a rho, 0 < q_re q /\ (0 < q_np q)%nat /\ 0 <= rho /\
  a * (2 * 1 * 1 * INR (q_np q)) = q_lam q * 1 * (1 + 1 / q_re q) /\ rho ^ 2 * (1 / 1 + 1 / q_re q) = q_c q * q_ptr q /\
  surface_area q 1 1 1 = 886 / 1000.
Proof.
  set (q := {| q_c := 2; q_pi := 3; q_re := 1; q_ptx := 1; q_gain := 1; q_trc := 0; q_ptr := 1; q_np := 1; q_lam := 1 / 2 |}).
  assert (E1 : 1 / 2 * (2 * 1 * 1 * INR (q_np q)) = q_lam q * 1 * (1 + 1 / q_re q)) by (cbn; field).
  assert (E2 : 1 ^ 2 * (1 / 1 + 1 / q_re q) = q_c q * q_ptr q) by (cbn; field).
  exists q, (1 / 2), 1. split; [cbn; lra|]. split; [cbn; lia|]. split; [lra|]. split; [exact E1|]. split; [exact E2|].
  rewrite (C74_area q 1 1 1 (1 / 2) 1) by (first [exact E1 | exact E2 | cbn; lra | cbn; lia]). field.
Qed.
Definition ex_q : sconst := {| q_c := 1; q_pi := 3; q_re := 1; q_ptx := 1; q_gain := 1; q_trc := 0;
  q_ptr := 1; q_np := 2; q_lam := 1 |}.
Example C74_ex : 0 < surface_area ex_q 1 1 1 /\
  exists arr m, sigma0_scaling ex_q 3 2 5 [(1,1,1); (2,1,1); (0,0,0)] = (arr, Some m) /\ length arr = 2%nat.
Proof.
  split.
  - unfold surface_area. cbn.
    assert (0 < sqrt (1 * 1 * 1 * 1 / (1 + 1))) by (apply sqrt_lt_R0; lra). nra.
  - eexists _, _. split; reflexivity.
Qed.
