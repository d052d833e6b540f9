(** C140: from the looks of a surface to its waveform, and to the counts in the
    file. *)
From Coq Require Import List ZArith QArith Reals Bool Lia Lra.
From Verif Require Import Common Cplx GeoModel ChainModel ChainSpec FullSpec FullProps HoleSpec ManySpec WholeModel WholeSpec WholeProps.
From Verif Require SurfModel DopModel GcorrModel MaskModel PointModel PointSpec PointProps LinModel LinProps.
From Verif Require Import LaidSpec LaidProps CircSpec CircProofs CircProps WaveModel WaveSpec WaveProofs.
Import ListNotations.
Local Open Scope R_scope.

(** Shifts are rounded to the nearest integer; there is only one. *)
Theorem C140_round : forall x z, z = r_round x <-> nearest x z.
Proof.
  intros x z. split; [intros ->; apply r_round_nearest|]. intros H. apply (nearest_unique x); [exact H|apply r_round_nearest].
Qed.
Print Assumptions C140_round.

(** The mask of a look is 1 where the sample is visible and 0 elsewhere, and the
    look is left out when nothing is visible. *)
Theorem C140_mask : forall v N zp k,
  length (mask_of v N zp k) = (N * zp)%nat /\
  (forall m, (m < N * zp)%nat -> nth m (mask_of v N zp k) 0%Z = if visible v N zp m k then 1%Z else 0%Z) /\
  ((2 <= N * zp)%nat -> exists z, vector_of v N zp k = Some z /\ (z = 0%Z <-> used v N zp k = false)).
Proof.
  intros v N zp k. split; [apply mask_length|]. split; [intros m; apply mask_nth|]. intros P2.
  destruct (vector_used v N zp k P2) as (z & E & Q). exists z. split; [exact E|]. rewrite <- Z.eqb_eq, Q. apply negb_true_iff.
Qed.
Print Assumptions C140_mask.

(** Both limits must be set for look angles to be tested, and are excluded. *)
Theorem C140_limits : forall v a, inside v a = true <->
  (forall lo hi, v_lo v = Some lo -> v_hi v = Some hi -> lo < a < hi).
Proof.
  intros v a. unfold inside. destruct (v_lo v) as [lo|], (v_hi v) as [hi|]; try (split; [discriminate|reflexivity]).
  - rewrite andb_true_iff. destruct (Rlt_dec lo a) as [A|A], (Rlt_dec a hi) as [B|B]; split;
      try (intros _ lo' hi' E1 E2; injection E1 as <-; injection E2 as <-; split; assumption);
      try (intros (X & Y); discriminate); try (intros H; destruct (H lo hi eq_refl eq_refl); contradiction); intros _; split; reflexivity.
Qed.
Print Assumptions C140_limits.

(** The look of a record: its shift undoes the delay at which the record hears the
    surface; the look angle is counted from the vertical, the pointing angle from
    the boresight. *)
Theorem C140_entry : forall u input l e row r a k, nth_error input (fst (fst e)) = Some (WValid r) -> snd e = Some a ->
  look_of u input (ground l) e row = Some k ->
  k_row k = row /\
  (GcorrModel.f_doppler (u_flags u) = true -> GcorrModel.f_slant (u_flags u) = true -> PointSpec.sound (u_k u) ->
   PointModel.b_t0 (LinModel.r_burst (w_echo r)) <> 0 -> k_shift k = - heard u r (SurfModel.l_surf l) a) /\
  exists d, DopModel.doppler_angle (SurfModel.g_k (u_g u)) (u_mean u) (SurfModel.b_lla (w_geo r)) (SurfModel.b_vel (w_geo r)) = Some d /\
    k_look k = k_pi (SurfModel.g_k (u_g u)) / 2 + d - a /\ k_point k = k_look k - SurfModel.b_pitch (w_geo r).
Proof.
  intros u input l e row r a k N A K. split; [|split].
  - unfold look_of in K. destruct (record_of input (fst (fst e))); [|discriminate]. rewrite A in K. destruct (dop u _); [|discriminate]. injection K as <-. reflexivity.
  - intros F1 F2 SK T. exact (shift_heard u l r a F1 F2 SK T e row input k N A K).
  - unfold look_of, record_of in K. rewrite N, A in K. destruct (dop u (prepared u r)) as [d|] eqn:D; [|discriminate]. injection K as <-.
    exists d. split; [exact D|]. split; reflexivity.
Qed.
Print Assumptions C140_entry.

(** Before its look was shifted, a sample that is visible was in the window of the
    burst, to half a sample; one that was in the window by more is visible. *)
Theorem C140_window : forall v N zp m k, v_mask v = true -> (0 < zp)%nat ->
  let b := INR m - INR zp * k_shift k in
  let half := INR zp / 2 in
  (visible v N zp m k = true -> inside v (k_look k) = true /\ - half <= b <= INR (N * zp) - 1 + half) /\
  (inside v (k_look k) = true -> half <= b < INR (N * zp) - half -> visible v N zp m k = true).
Proof. exact window_lemma. Qed.
Print Assumptions C140_window.

(** A sample of the waveform is the mean of the weighted looks there; it is no
    number if no look counts. *)
Theorem C140_sample : forall v N zp ks, (2 <= N * zp)%nat -> Forall (proper v N zp) ks ->
  exists w, multilooked v N zp ks = Some w /\ length w = (N * zp)%nat /\
    forall m, (m < N * zp)%nat -> nth m w None = sample v N zp ks m.
Proof. exact multilooked_sample. Qed.
Print Assumptions C140_sample.

(** No burst of a run has more beams than pulses, so that the looks of a product
    are always those of C122. *)
Theorem C140_looks : forall u cancel input, SurfModel.g_focus (u_g u) = false -> c_approx (u_cf u) = false ->
  let w := wfinal (whole u cancel input) in
  beams_fit u (x_angles w) /\
  forall p x l, In p (x_out w) -> pr_surf p = Some x -> SurfModel.s_loc x = Some l -> pr_looks p = looks_of u input l p.
Proof.
  intros u cancel input NF AP w. pose proof (whole_fits u input cancel) as BF. split; [exact BF|]. intros p x l I X L.
  destruct (C122_looks u cancel input NF p I) as (_ & Q). destruct (Q x l X L) as (_ & Q2). apply Q2; assumption.
Qed.
Print Assumptions C140_looks.

(** A run over one bright point: the waveform of the surface at the point has its
    largest sample in the middle, with the power of a target seen by all pulses
    and samples, whatever the pass, the window delays and the shifts of the
    looks. *)
Theorem C140_target : forall u v cancel input p x l A, SurfModel.g_focus (u_g u) = false -> c_approx (u_cf u) = false ->
  In p (x_out (wfinal (whole u cancel input))) -> pr_surf p = Some x -> SurfModel.s_loc x = Some l ->
  plain u v -> admitted u v input p -> A <> 0 -> pr_bursts p <> [] ->
  (forall i, In i (pr_bursts p) -> bright u input (SurfModel.l_surf l) A i) ->
  exists w, wave_of u v input p = Some w /\ length w = (u_zp u * GcorrModel.k_n (u_k u))%nat /\
    peaked w ((u_zp u * GcorrModel.k_n (u_k u)) / 2) (PointProps.full_power A (c_N (u_cf u)) (GcorrModel.k_n (u_k u)) (u_zp u)).
Proof.
  intros u v cancel input p x l A NF AP. apply (run_target u v cancel input p x l A NF AP). apply whole_fits.
Qed.
Print Assumptions C140_target.

(** On a circle above the equator: the point below record [s * K] and the surface [s]. *)
Theorem C140_ring : forall u v g K m cancel input p A, ring_pass u g K m input -> c_approx (u_cf u) = false ->
  In p (x_out (wfinal (whole u cancel input))) -> plain u v -> admitted u v input p -> A <> 0 -> pr_bursts p <> [] ->
  (forall i, In i (pr_bursts p) -> bright u input (around (r_ground g) (lon g (pr_number p * K))) A i) ->
  exists w, wave_of u v input p = Some w /\ length w = (u_zp u * GcorrModel.k_n (u_k u))%nat /\
    peaked w ((u_zp u * GcorrModel.k_n (u_k u)) / 2) (PointProps.full_power A (c_N (u_cf u)) (GcorrModel.k_n (u_k u)) (u_zp u)).
Proof.
  intros u v g K m cancel input p A P AP IP PL AD NZ NB BR.
  destruct (C137_surfaces u input cancel p (ring_steady u g K m input P) IP) as (r & x & N & X).
  destruct (C138_surfaces u g K m input (pr_number p) P) as (_ & Q). destruct (Q r x N) as (_ & l & L & E & _).
  apply (C140_target u v cancel input p x l A); auto; [exact (p_focus _ _ _ _ _ P)|]. rewrite E. exact BR.
Qed.
Print Assumptions C140_ring.

(** In the file the scale factor of such a waveform is its largest sample, the
    count in the middle is the largest there is, and all others come from less. *)
Theorem C140_counts : forall rnd w c top, (1 < length w)%nat -> peaked w c top ->
  (forall m, (m < length w)%nat -> nth m w None <> None) ->
  exists ns, counts rnd w = Some (top, ns) /\ length ns = length w /\ nth c ns 0%Z = rnd 4294967294 /\
    forall m, (m < length w)%nat -> m <> c -> exists x, nth m ns 0%Z = rnd x /\ 0 <= x < 4294967294.
Proof. exact counts_peak. Qed.
Print Assumptions C140_counts.

(** Echoes [g] times as strong give waveforms |g|^2 times as strong, the same
    counts and scale factors |g|^2 times as large. *)
Theorem C140_louder : forall g u v input cancel,
  like (same_run (fun t t' => t' = t)
          (fun p p' => pr_number p' = pr_number p /\
             wave_of u v (louder_input (fun _ => g) 0 input) p' = option_map (map (option_map (Rmult (Cnorm2 g)))) (wave_of u v input p)))
       (whole u cancel input) (whole u cancel (louder_input (fun _ => g) 0 input)) /\
  forall rnd w, 0 < Cnorm2 g ->
    counts rnd (map (option_map (Rmult (Cnorm2 g))) w) = option_map (fun c => (Cnorm2 g * fst c, snd c)) (counts rnd w).
Proof.
  intros g u v input cancel. split; [|intros rnd w; apply counts_scale].
  pose proof (C124_louder (fun _ => g) u input cancel) as H.
  assert (M : forall w w', same_run (fun t t' => t' = t) (louder_product (fun _ => g)) w w' ->
    same_run (fun t t' => t' = t) (fun p p' => pr_number p' = pr_number p /\
             wave_of u v (louder_input (fun _ => g) 0 input) p' = option_map (map (option_map (Rmult (Cnorm2 g)))) (wave_of u v input p)) w w').
  { intros w w' (A & B & D & F). repeat split; auto. clear - F. induction F as [|p p' l l' LP F IH]; constructor; [|exact IH].
    split; [exact (proj1 LP)|]. apply wave_louder. exact LP. }
  unfold like in *. destruct (whole u cancel input), (whole u cancel (louder_input (fun _ => g) 0 input)); try contradiction.
  - destruct H as (H & E). split; [apply M; exact H|exact E].
  - destruct H as (H & E). split; [apply M; exact H|exact E].
  - apply M; exact H.
Qed.
Print Assumptions C140_louder.

(** Non-vacuity: the circular pass of C138 over a bright point below record 2. *)
Definition w_u : setup :=
  mk_setup c_cf c_g 1 (4 * c_off) 1 false false LinProps.x_fl LinProps.x_k 2 (fun l => seq 0 (length l))
    (fun _ => false) (fun _ => false) (fun _ => false) (fun _ => false).
Definition w_v : settings := mk_settings true None None None false.
Definition w_y : vec := around 1 (lon c_ring 2).
Definition w_with (p : nat) (s : list (list C)) : rec :=
  mk_rec (inject_Z (Z.of_nat p)) (w_geo (c_rec p))
    {| LinModel.r_burst := {| PointModel.b_x := 0; PointModel.b_y := 0; PointModel.b_z := 0; PointModel.b_speed := 0; PointModel.b_pri := 1; PointModel.b_wd := 0;
         PointModel.b_t0 := 100; PointModel.b_angles := []; PointModel.b_pos := 0; PointModel.b_wfm := s |};
       LinModel.r_agc := 0; LinModel.r_sig0 := 0; LinModel.r_power := []; LinModel.r_phase := []; LinModel.r_table := [] |}.
Definition w_angle (p : nat) : R :=
  match DopModel.beam_angle (lla2ecef c_k false (SurfModel.b_lla (w_geo (c_rec p)))) (SurfModel.b_vel (w_geo (c_rec p))) w_y with Some a => a | None => 0 end.
Definition w_rec (p : nat) : rec :=
  let o := aimed w_u (w_with p []) (w_angle p) in
  w_with p (PointModel.b_wfm (PointProps.with_echo LinProps.x_k 3 2 0 (PointSpec.distance o (vx w_y) (vy w_y) (vz w_y)) (w_angle p) o)).
Definition w_in : list witem := map (fun p => WValid (w_rec p)) (seq 0 6).
Lemma w_pass : ring_pass w_u c_ring 1 1 w_in.
Proof.
  destruct c_pass as [PR ? ? ? ? ? ? ? ? ? ? ? ? ? ? ? ? ? ?]. constructor; try assumption.
  intros p i N. assert (L : (p < 6)%nat) by (change 6%nat with (length w_in); apply nth_error_Some; congruence).
  specialize (PR p (WValid (c_rec p))).
  assert (N' : nth_error c_in p = Some (WValid (c_rec p))) by (do 6 (destruct p as [|p]; [reflexivity|]); lia).
  assert (i = WValid (w_rec p)) as -> by (clear - N L; do 6 (destruct p as [|p]; [injection N as <-; reflexivity|]); lia).
  destruct (PR N') as (r & E & O). injection E as <-. exists (w_rec p). split; [reflexivity|]. exact O.
Qed.
Lemma w_echo_at : forall p a, (p < 6)%nat ->
  DopModel.beam_angle (lla2ecef c_k false (SurfModel.b_lla (w_geo (w_rec p)))) (SurfModel.b_vel (w_geo (w_rec p))) w_y = Some a ->
  holds_echo w_u w_y 2 (w_rec p) a.
Proof.
  intros p a L B. assert (AN : a = w_angle p) by (unfold w_angle; change (w_geo (c_rec p)) with (w_geo (w_rec p)); rewrite B; reflexivity).
  split; [cbn; lra|]. split.
  - exists 0. subst a. apply (PointProps.with_echo_is LinProps.x_k 3 2 0 (PointSpec.distance (aimed w_u (w_with p []) (w_angle p)) (vx w_y) (vy w_y) (vz w_y)) (w_angle p) (aimed w_u (w_with p []) (w_angle p))).
  - unfold heard, PointSpec.beat. change (GcorrModel.k_n (u_k w_u)) with 2%nat. change (GcorrModel.k_c (u_k w_u)) with 1. change (GcorrModel.k_lam (u_k w_u)) with 1.
    change (GcorrModel.k_plen (u_k w_u)) with 1. change (GcorrModel.k_bw (u_k w_u)) with 1. change (PointModel.b_t0 (aimed w_u (w_rec p) a)) with 100.
    change (PointModel.b_wd (aimed w_u (w_rec p) a)) with 2. change (INR 2) with 2.
    assert (SP : PointModel.b_speed (aimed w_u (w_rec p) a) = 1).
    { change (norm (vlist (along 1 (lon c_ring p))) = 1). unfold along, vlist, norm. cbn [vx vy vz dot].
      match goal with |- sqrt ?z = 1 => replace z with 1; [apply sqrt_1|] end. pose proof (sin2_cos2 (lon c_ring p)). unfold Rsqr in *. lra. }
    unfold PointSpec.doppler_hz. rewrite SP. pose proof (COS_bound a) as CB.
    assert (DB : 0 <= PointSpec.distance (aimed w_u (w_rec p) a) (vx w_y) (vy w_y) (vz w_y) <= 3).
    { unfold PointSpec.distance. cbn [aimed PointModel.b_x PointModel.b_y PointModel.b_z].
      change (lla2ecef (SurfModel.g_k (u_g w_u)) false (SurfModel.b_lla (w_geo (w_rec p)))) with (lla2ecef c_k false (V 0 (lon c_ring p) 1)).
      rewrite ecef_equator. change (k_major c_k) with 1. unfold around, w_y. cbn [around vx vy vz].
      pose proof (sin2_cos2 (lon c_ring p)) as S1. pose proof (sin2_cos2 (lon c_ring 2)) as S2. unfold Rsqr in S1, S2.
      pose proof (COS_bound (lon c_ring p - lon c_ring 2)) as CC. rewrite cos_minus in CC.
      split; [apply sqrt_pos|]. rewrite <- (sqrt_Rsqr 3) by lra. apply sqrt_le_1_alt. unfold Rsqr. nra. }
    apply Rabs_def1; lra.
Qed.
Lemma pick_all : forall {T} (l a : list T),
  flat_map (fun i => match nth_error (a ++ l) i with Some e => [e] | None => [] end) (seq (length a) (length l)) = l.
Proof.
  intros T. induction l as [|e l IH]; intros a; [reflexivity|]. cbn [length seq flat_map].
  rewrite nth_error_app2 by lia. rewrite Nat.sub_diag. cbn [nth_error app]. f_equal. specialize (IH (a ++ [e])).
  rewrite app_length, Nat.add_1_r, <- app_assoc in IH. exact IH.
Qed.
Example C140_example : ring_pass w_u c_ring 1 1 w_in /\ plain w_u w_v /\
  exists w p y, whole w_u no_cancel w_in = WEnd w false /\ In p (x_out w) /\ pr_number p = 2%nat /\
    wave_of w_u w_v w_in p = Some y /\ length y = 4%nat /\ peaked y 2 12.
Proof.
  assert (PL : plain w_u w_v).
  { constructor; cbn; try reflexivity; try lia. repeat split; cbn; try lra; lia. }
  split; [exact w_pass|]. split; [exact PL|].
  destruct (C138_ends w_u c_ring 1 1 w_in w_pass ltac:(cbn; lia) eq_refl ltac:(intros x; repeat split) ltac:(cbn; lia)) as (w & E).
  pose proof (C138_output w_u c_ring 1 1 w_in no_cancel w w_pass ltac:(cbn; lia) E) as O. cbv zeta in O.
  assert (O2 : In (2%nat, [1%nat; 2%nat; 3%nat]) (map (fun p => (pr_number p, records_in p)) (x_out w))) by (rewrite O; vm_compute; tauto).
  apply in_map_iff in O2 as (p & PE & IP). injection PE as PN PR.
  assert (IW : In p (x_out (wfinal (whole w_u no_cancel w_in)))) by (rewrite E; exact IP).
  assert (PB : pr_bursts p = records_in p).
  { destruct (C122_looks w_u no_cancel w_in eq_refl p IW) as (Q & _). rewrite Q. unfold kept_looks, records_in. f_equal. clear.
    change (u_pick w_u) with (fun l : list (option R) => seq 0 (length l)). cbv beta. rewrite map_length.
    exact (pick_all (pr_stack p) []). }
  destruct (C140_ring w_u w_v c_ring 1 1 no_cancel w_in p 2 w_pass eq_refl IW PL) as (y & Y1 & Y2 & Y3).
  - intros e x _ _. reflexivity.
  - lra.
  - rewrite PB, PR. discriminate.
  - rewrite PN. intros i I r a N B. rewrite PB, PR in I.
    assert (L : (i < 6)%nat) by (destruct I as [<-|[<-|[<-|[]]]]; lia).
    assert (r = w_rec i) as -> by (destruct I as [<-|[<-|[<-|[]]]]; injection N as <-; reflexivity).
    apply w_echo_at; [exact L|]. exact B.
  - exists w, p, y. split; [exact E|]. split; [exact IP|]. split; [exact PN|]. split; [exact Y1|]. split; [exact Y2|].
    replace 12 with (PointProps.full_power 2 (c_N (u_cf w_u)) (GcorrModel.k_n (u_k w_u)) (u_zp w_u)); [exact Y3|]. unfold PointProps.full_power. cbn. field.
Qed.
