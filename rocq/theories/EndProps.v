(** C141: from the L1A file to the L1B file. *)
From Coq Require Import String List ZArith Reals Bool Lia Lra Arith.
From Coq Require QArith Qreals.
From Verif Require Import Common Cplx GeoModel GeoSpec ReaderModel ChainModel ChainSpec FullSpec WholeModel WholeSpec FileModel FileSpec FileProofs FileProps WriterModel EndModel EndSpec EndProofs EndRing.
From Verif Require Import LaidSpec LaidProps CircSpec CircProofs CircProps.
From Verif Require SurfModel GcorrModel SchModel SchSpec WaveModel WaveSpec WaveProofs WaveProps WholeProps PktModel PointModel PointSpec PointProps LinModel LinProps DopModel FullProps ChainProps.
Import ListNotations.
Local Open Scope string_scope.
Local Open Scope R_scope.

(** A file is made whenever the input can be opened; no record is refused, there
    is one for each product of the run and in the order of the products, and every
    variable of the format holds what it is said to be made of. *)
Theorem C141_file : forall j cancel fi, usual j ->
  ((exists r, l1b j cancel fi = Some r) <-> exists input, delivered (j_o j) (j_g j) fi = Ok input) /\
  forall input answers out, delivered (j_o j) (j_g j) fi = Ok input -> l1b j cancel fi = Some (answers, out) ->
    let ps := x_out (wfinal (whole (j_u j) cancel input)) in
    answers = repeat None (length ps) /\ w_len out = length ps /\
    (forall n p x s v a b r, nth_error ps n = Some p -> In (x, s) (SchModel.p_writes (format j)) ->
       SchModel.eval (env_of j fi input p) s = Some v -> elem R v a b = Some r -> w_tbl out x n a b = Some r).
Proof.
  intros j cancel fi U. split; [apply l1b_some|]. intros input answers out D L. exact (file_of j cancel fi input answers out U D L).
Qed.
Print Assumptions C141_file.

(** What the file says of the place and time of a surface is its location. *)
Theorem C141_stated : forall j cancel fi input answers out n p x l y r, usual j ->
  delivered (j_o j) (j_g j) fi = Ok input -> l1b j cancel fi = Some (answers, out) ->
  nth_error (x_out (wfinal (whole (j_u j) cancel input))) n = Some p -> pr_surf p = Some x -> SurfModel.s_loc x = Some l ->
  In (y, r) (located (k_c (SurfModel.g_k (u_g (j_u j)))) l) -> said out n y 0 = Some r.
Proof.
  intros j cancel fi input answers out n p x l y r U D L N X S I.
  destruct (file_of j cancel fi input answers out U D L) as (_ & _ & F).
  destruct (eval_located j fi input p x l y r X S I) as (s & v & I1 & I2 & I3). exact (F n p _ s v 0%nat 0%nat r N I1 I2 I3).
Qed.
Print Assumptions C141_stated.

(** The variables taken over from the L1A file are those of the record whose look
    is nearest to the right angle, the first if there are several: of the looks
    kept, and of that record and no other. *)
Theorem C141_copied : forall j cancel fi input answers out n p, usual j -> complete (j_o j) fi -> SurfModel.g_focus (u_g (j_u j)) = false ->
  delivered (j_o j) (j_g j) fi = Ok input -> l1b j cancel fi = Some (answers, out) ->
  nth_error (x_out (wfinal (whole (j_u j) cancel input))) n = Some p -> WaveModel.chosen (j_u j) input p <> [] ->
  exists i, first_nearest (k_pi (SurfModel.g_k (u_g (j_u j)))) (WaveModel.chosen (j_u j) input p) i /\
    (forall i', first_nearest (k_pi (SurfModel.g_k (u_g (j_u j)))) (WaveModel.chosen (j_u j) input p) i' -> i' = i) /\
    (i < length input)%nat /\ (first_record (j_g j) fi + i < f_size fi)%nat /\
    (exists it, nth_error input i = Some it /\ item_for (j_o j) (j_g j) fi (first_record (j_g j) fi + i) it) /\
    forall b, In b copied -> said out n b 0 = Some (number_at fi (first_record (j_g j) fi + i) b).
Proof.
  intros j cancel fi input answers out n p U C NF D L N NE.
  pose proof (stack_numbers (j_u j) cancel input p NF (nth_error_In _ _ N)) as SN.
  destruct (closest_is (k_pi (SurfModel.g_k (u_g (j_u j)))) _ NE (fun e I => proj1 (SN e I))) as (i & E & FN).
  exists i. split; [exact FN|]. split; [intros i' FN'; exact (nearest_one _ _ _ _ FN' FN)|].
  destruct (first_is (j_o j) (j_g j) fi input C D) as (F1 & F2).
  assert (LI : (i < length input)%nat).
  { destruct FN as (k & b & a & Nk & _). exact (proj2 (SN _ (nth_error_In _ _ Nk))). }
  split; [exact LI|]. split; [lia|]. split; [exact (F2 i LI)|].
  intros b I. destruct (copied_from b I) as (f & W & A). destruct (file_of j cancel fi input answers out U D L) as (_ & _ & F).
  unfold said. apply (F n p _ (SchModel.SBurst f) (VNum (number_at fi (first_record (j_g j) fi + i) b)) 0%nat 0%nat); [exact N|apply W| |reflexivity].
  unfold env_of. cbv zeta. cbn [SchModel.eval SchModel.e_burst]. rewrite E, field_at, A by (auto; lia). reflexivity.
Qed.
Print Assumptions C141_copied.

(** The waveform: as it is in the standard format, divided by its largest sample
    in the extended one, which has that sample beside it. *)
Theorem C141_waveform : forall j cancel fi input answers out n p w m x, usual j ->
  delivered (j_o j) (j_g j) fi = Ok input -> l1b j cancel fi = Some (answers, out) ->
  nth_error (x_out (wfinal (whole (j_u j) cancel input))) n = Some p -> WaveModel.wave_of (j_u j) (j_v j) input p = Some w ->
  (m < GcorrModel.k_n (u_k (j_u j)) * u_zp (j_u j))%nat -> nth m w None = Some x ->
  (j_ext j = false -> said out n "i2q2_meas_ku" m = Some x) /\
  (j_ext j = true -> forall t, WaveModel.scale_factor w = Some t ->
     said out n "i2q2_meas_ku" m = Some (x / t) /\ said out n "i2q2_scale_factor" 0 = Some t).
Proof.
  intros j cancel fi input answers out n p w m x U D L N W LM NM. destruct (file_of j cancel fi input answers out U D L) as (_ & _ & F). split.
  - intros X. destruct (eval_wave_std j fi input p w m x X W LM NM) as (s & v & I1 & I2 & I3). exact (F n p _ s v m 0%nat x N I1 I2 I3).
  - intros X t T. destruct (eval_wave_ext j fi input p w m x t X W LM NM T) as ((s & v & I1 & I2 & I3) & (s' & v' & J1 & J2 & J3)).
    split; [exact (F n p _ s v m 0%nat _ N I1 I2 I3)|exact (F n p _ s' v' 0%nat 0%nat _ N J1 J2 J3)].
Qed.
Print Assumptions C141_waveform.

(** A file with the echoes of one bright point, at a surface: in the extended
    L1B file the scale factor is the power of the target, the sample in the middle
    is one, stored as the largest count there is, and all others are less. *)
Theorem C141_bright : forall j cancel fi input answers out n p x l A rnd wrap, usual j ->
  delivered (j_o j) (j_g j) fi = Ok input -> l1b j cancel fi = Some (answers, out) -> j_ext j = true ->
  SurfModel.g_focus (u_g (j_u j)) = false -> c_approx (u_cf (j_u j)) = false ->
  nth_error (x_out (wfinal (whole (j_u j) cancel input))) n = Some p -> pr_surf p = Some x -> SurfModel.s_loc x = Some l ->
  WaveSpec.plain (j_u j) (j_v j) -> WaveModel.v_avoid (j_v j) = false -> WaveSpec.admitted (j_u j) (j_v j) input p -> A <> 0 -> pr_bursts p <> [] ->
  (forall i, In i (pr_bursts p) -> WaveSpec.bright (j_u j) input (SurfModel.l_surf l) A i) -> SchSpec.nearest rnd ->
  let ns := (u_zp (j_u j) * GcorrModel.k_n (u_k (j_u j)))%nat in
  said out n "i2q2_scale_factor" 0 = Some (PointProps.full_power A (c_N (u_cf (j_u j))) (GcorrModel.k_n (u_k (j_u j))) (u_zp (j_u j))) /\
  said out n "i2q2_meas_ku" (ns / 2) = Some 1 /\
  stored j rnd wrap out "i2q2_meas_ku_l1b_echo_sar_ku" n (ns / 2) = Some 4294967294%Z /\
  forall m, (m < ns)%nat -> m <> (ns / 2)%nat ->
    exists y, said out n "i2q2_meas_ku" m = Some y /\ 0 <= y < 1 /\
      exists z, stored j rnd wrap out "i2q2_meas_ku_l1b_echo_sar_ku" n m = Some z /\ (0 <= z <= 4294967294)%Z.
Proof.
  intros j cancel fi input answers out n p x l A rnd wrap U D L X NF AP N PX PL PLA AV AD NZ NB BR NR ns.
  destruct (WaveProps.C140_target (j_u j) (j_v j) cancel input p x l A NF AP (nth_error_In _ _ N) PX PL PLA AD NZ NB BR) as (w & W & WL & PK).
  fold ns in WL, PK. set (top := PointProps.full_power _ _ _ _) in *. destruct PK as (P1 & P2 & P3).
  assert (ALL : forall m, (m < length w)%nat -> nth m w None <> None) by exact (wave_numbers _ _ _ _ _ _ _ AV W P2).
  assert (L1 : (1 < length w)%nat).
  { rewrite WL. unfold ns. pose proof (WaveSpec.l_zp _ _ PLA). pose proof (WaveSpec.l_samples _ _ PLA). nia. }
  assert (SF : WaveModel.scale_factor w = Some top /\ top <> 0).
  { destruct (WaveProps.C140_counts rnd w (ns / 2) top L1 (conj P1 (conj P2 P3)) ALL) as (zs & CT & _). unfold WaveModel.counts in CT.
    destruct (WaveModel.scale_factor w) as [t|]; [|discriminate]. match type of CT with context [match ?z with Some _ => _ | None => _ end] => destruct z as [xs|]; [|discriminate] end.
    destruct (Req_EM_T t 0) as [Z|Z]; [discriminate|]. injection CT as -> _. split; [reflexivity|exact Z]. }
  destruct SF as (SF & T0).
  assert (WF : forall m y, (m < ns)%nat -> nth m w None = Some y ->
    said out n "i2q2_meas_ku" m = Some (y / top) /\ said out n "i2q2_scale_factor" 0 = Some top).
  { intros m y LM NM. apply (proj2 (C141_waveform j cancel fi input answers out n p w m y U D L N W ltac:(unfold ns in LM; lia) NM) X top SF). }
  rewrite WL in *. destruct (WF _ _ P1 P2) as (S1 & S2). replace (top / top) with 1 in S1 by (field; exact T0).
  split; [exact S2|]. split; [exact S1|]. split.
  - destruct (stored_count j rnd wrap out n (ns / 2) 1 X NR ltac:(lra) S1) as (-> & _). rewrite Rmult_1_l. f_equal. exact (nearest_int rnd 4294967294 NR).
  - intros m LM NE. specialize (ALL m LM). destruct (nth m w None) as [y|] eqn:EY; [|now elim ALL].
    specialize (P3 m y LM NE EY). destruct (WF m y LM EY) as (S3 & _). exists (y / top). split; [exact S3|].
    assert (B : 0 <= y / top < 1).
    { assert (TP : 0 < top) by lra. split; [apply Rmult_le_pos; [lra|left; apply Rinv_0_lt_compat; exact TP]|].
      apply (Rmult_lt_reg_r top); [exact TP|]. unfold Rdiv. rewrite Rmult_assoc, Rinv_l by exact T0. lra. }
    split; [exact B|]. destruct (stored_count j rnd wrap out n m (y / top) X NR ltac:(lra) S3) as (-> & RB). eexists. split; [reflexivity|exact RB].
Qed.
Print Assumptions C141_bright.

(** On a circle above the equator, from the one file to the other: surface [s] is
    stated at the time, longitude and altitude of record [s * K], on the equator, at
    the range of the pass; and if that record is in its stack, all variables taken
    over are those of that record. *)
Theorem C141_circle : forall j cancel fi g K m answers out n p, usual j -> complete (j_o j) fi -> j_g j = everywhere ->
  let k := SurfModel.g_k (u_g (j_u j)) in
  let input := all_records (j_o j) fi in
  ring_pass (j_u j) g K m input -> oblate k -> consistent k -> k_major k - k_minor k ^ 2 / k_major k < r_ground g ->
  2 <= r_ground g ^ 2 -> k_c k <> 0 -> l1b j cancel fi = Some (answers, out) ->
  nth_error (x_out (wfinal (whole (j_u j) cancel input))) n = Some p ->
  let q := (pr_number p * K)%nat in
  (q < f_size fi)%nat /\
  said out n "time" 0 = Some (number_at fi q "time") /\ said out n "orb_alt_rate" 0 = Some (number_at fi q "orb_alt_rate") /\
  said out n "lat" 0 = Some 0 /\
  (said out n "lon" 0 = Some (number_at fi q "lon") \/ said out n "lon" 0 = Some (number_at fi q "lon" + 360)) /\
  said out n "alt" 0 = Some (number_at fi q "alt") /\ said out n "range_ku" 0 = Some (r_sat g - r_ground g) /\
  (In q (pr_bursts p) -> forall b, In b copied -> said out n b 0 = Some (number_at fi q b)).
Proof.
  intros j cancel fi g K m answers out n p U C G k input P OB CO HI R2 C0 L N q.
  destruct (C139_circle (j_u j) g K m (j_o j) fi cancel C P) as (D & _). rewrite <- G in D. fold input in D.
  assert (LA : length input = f_size fi) by (unfold input, all_records; now rewrite map_length, seq_length).
  pose proof (nth_error_In _ _ N) as IP.
  destruct (C137_surfaces (j_u j) input cancel p (ring_steady (j_u j) g K m input P) IP) as (r & x & NL & X).
  destruct (ring_stated (j_u j) g K m input P OB CO HI R2 C0 _ r x NL) as (b & l & w & NB & SL & T1 & T2 & T3 & T4 & T5 & T6 & T7).
  fold q in NB, T5.
  assert (LQ : (q < length input)%nat).
  { destruct (laid_nth (j_u j) g K m input P _ r x NL) as (_ & _ & LQ). exact LQ. }
  assert (NI : nth_error input q = Some (WValid (record_at (j_o j) fi q))).
  { unfold input, all_records. rewrite nth_error_map, (nth_error_nth' (seq 0 (f_size fi)) 0%nat) by (rewrite seq_length; lia). rewrite seq_nth by lia. reflexivity. }
  destruct (p_rec _ _ _ _ _ P q _ NI) as (r' & [= <-] & (R1 & R3 & R4)).
  pose proof (bursts_nth (j_u j) input (all_valid_in (j_u j) g K m input P) q) as BN. rewrite NI in BN. cbn in BN. rewrite NB in BN. injection BN as BE.
  assert (B1 : SurfModel.b_time b = number_at fi q "time").
  { assert (ET : is_exact (at_ fi q "time")).
    { pose proof C as (LC & XC & _). assert (IV : In v_time [v_lat; v_lon; v_time]) by (cbn; tauto). specialize (XC v_time IV). rewrite Forall_forall in XC. apply XC.
      unfold at_. apply nth_In. change (("time" ++ "_l1a_echo_sar_ku")%string) with v_time. rewrite LC by (vm_compute; tauto). lia. }
    destruct ET as (tq & EQ). rewrite BE. unfold number_at. change (SurfModel.b_time (prepared (j_u j) (record_at (j_o j) fi q))) with (Rdefinitions.Q2R (exact (at_ fi q "time"))). rewrite EQ. reflexivity. }
  assert (B2 : SurfModel.b_rate b = number_at fi q "orb_alt_rate") by (rewrite BE; reflexivity).
  cbn [record_at w_geo SurfModel.b_lla] in R1. injection R1 as _ RL RA. unfold degrees in RL.
  assert (ST : forall y v, In (y, v) (located (k_c k) l) -> said out n y 0 = Some v) by (intros y v I; exact (C141_stated j cancel fi input answers out n p x l y v U D L N X SL I)).
  pose proof PI_RGT_0 as PP.
  split; [lia|]. split; [rewrite <- B1, <- T1; apply ST; cbn; tauto|]. split; [rewrite <- B2, <- T2; apply ST; cbn; tauto|].
  split; [replace 0 with (in_degrees (vx (SurfModel.l_surf_lla l))) by (rewrite T3; unfold in_degrees; field; lra); apply ST; cbn; tauto|].
  split.
  { assert (S : said out n "lon" 0 = Some (in_degrees (vy (SurfModel.l_surf_lla l)))) by (apply ST; cbn; tauto). rewrite S, T4. unfold in_degrees.
    destruct T5 as [-> | ->]; [left|right]; rewrite <- RL; f_equal; field; lra. }
  split; [replace (number_at fi q "alt") with (vz (SurfModel.l_sat_lla l)) by (rewrite T6; symmetry; exact RA); apply ST; cbn; tauto|].
  split; [rewrite <- T7; apply ST; cbn; tauto|].
  intros IB bb IC. pose proof (p_focus _ _ _ _ _ P) as NF.
  assert (NE : WaveModel.chosen (j_u j) input p <> []).
  { destruct (WholeProps.C122_looks (j_u j) cancel input NF p IP) as (PB & _). rewrite PB, <- WaveProofs.chosen_kept in IB. intros E. rewrite E in IB. destruct IB. }
  destruct (C141_copied j cancel fi input answers out n p U C NF D L N NE) as (i & FN & _ & _ & _ & _ & Q).
  assert (i = q) as -> by exact (straight (j_u j) g K m input cancel p i P IP IB FN).
  assert (F0 : first_record (j_g j) fi = 0%nat) by (rewrite G; reflexivity). rewrite F0 in Q. exact (Q bb IC).
Qed.
Print Assumptions C141_circle.

(** Non-vacuity: a file of six records of a pass on a circle, with the echoes of a
    bright point below record 2. *)
Definition e_ring : ring := mk_ring 4 2 (PI / 2) (PI / 24) 1.
Definition e_off : R := off_nadir e_ring (INR 1 * (PI / 24)).
Definition e_g : SurfModel.settings :=
  {| SurfModel.g_k := c_k; SurfModel.g_focus := false; SurfModel.g_target := V 0 0 0; SurfModel.g_freq := 1; SurfModel.g_pulses := 1;
     SurfModel.g_pri := / (2 * e_off) |}.
Definition e_u : setup :=
  mk_setup c_cf e_g 1 (4 * e_off) 1 false false LinProps.x_fl LinProps.x_k 2 (fun l => seq 0 (length l))
    (fun _ => false) (fun _ => false) (fun _ => false) (fun _ => false).
Definition e_aux : PktModel.aux := {| PktModel.a_c := 1; PktModel.a_chd := fun x => if (x =? "t0_nom")%string then 100 else 1 |}.
Definition e_o : opener := mk_opener e_aux 1 0 40.
Definition e_y : vec := around 2 (lon e_ring 2).
Definition e_lla (p : nat) : vec := V 0 (lon e_ring p) 3.
Definition e_angle (p : nat) : R :=
  match DopModel.beam_angle (lla2ecef c_k false (e_lla p)) (along 1 (lon e_ring p)) e_y with Some a => a | None => 0 end.
(** the burst of record [p], seen along the beam towards the point *)
Definition e_obs (p : nat) (w : list (list C)) : PointModel.obs :=
  let sat := lla2ecef c_k false (e_lla p) in
  {| PointModel.b_x := vx sat; PointModel.b_y := vy sat; PointModel.b_z := vz sat;
     PointModel.b_speed := norm (vlist (along 1 (lon e_ring p))); PointModel.b_pri := 1; PointModel.b_wd := 4; PointModel.b_t0 := 100;
     PointModel.b_angles := [e_angle p]; PointModel.b_pos := 0; PointModel.b_wfm := w |}.
Definition e_dist (p : nat) : R := PointSpec.distance (e_obs p []) (vx e_y) (vy e_y) (vz e_y).
Definition e_wfm (p : nat) : list (list C) := PointModel.b_wfm (PointProps.with_echo LinProps.x_k 3 2 0 (e_dist p) (e_angle p) (e_obs p [])).
Definition e_cell (v : string) (p : nat) : cell :=
  if (v =? v_lat)%string then CExact (QArith_base.inject_Z 0)
  else if (v =? v_lon)%string then CExact (QArith_base.Qplus (QArith_base.inject_Z 90) (QArith_base.Qmult (QArith_base.inject_Z (Z.of_nat p)) (QArith_base.Qmake 15 2)))
  else if (v =? v_time)%string then CExact (QArith_base.inject_Z (Z.of_nat p))
  else if (v =? "alt_l1a_echo_sar_ku")%string then CNum 3
  else if (v =? "range_ku_l1a_echo_sar_ku")%string then CNum 2
  else if (v =? "x_vel_l1a_echo_sar_ku")%string then CNum (- (1 * sin (lon e_ring p)))
  else if (v =? "y_vel_l1a_echo_sar_ku")%string then CNum (1 * cos (lon e_ring p))
  else if (v =? "seq_count_l1a_echo_sar_ku")%string then CNum (INR p)
  else if (v =? v_gprw)%string then CTable [[]]
  else if (v =? v_i)%string then CTable (map (map fst) (e_wfm p))
  else if (v =? v_q)%string then CTable (map (map snd) (e_wfm p))
  else CNum 0.
Definition e_file : file := mk_file 6 (fun v => map (e_cell v) (seq 0 6)).
Definition e_in : list witem := all_records e_o e_file.
Definition e_j (ext : bool) : job :=
  mk_job e_o everywhere e_u WaveProps.w_v ext (fun _ f => if existsb (String.eqb f) SchSpec.stack_vectors then VVec (c_looks c_cf) (fun _ => 0) else VNum 0) 0.
Lemma e_usual : forall x, usual (e_j x).
Proof.
  intros x. split; [cbn; lia|]. split; [cbn; lia|]. intros p f. cbn [e_j j_rest].
  destruct (existsb (String.eqb f) SchSpec.stack_vectors) eqn:E; split; intros I.
  - do 2 eexists. split; [reflexivity|]. cbn. lia.
  - exfalso. apply I. apply existsb_exists in E as (f' & J & Q). apply String.eqb_eq in Q. now subst f'.
  - exfalso. assert (T : existsb (String.eqb f) SchSpec.stack_vectors = true) by (apply existsb_exists; exists f; split; [exact I|apply String.eqb_refl]). congruence.
  - eexists. reflexivity.
Qed.
Lemma e_complete : complete e_o e_file.
Proof.
  split; [|split; [|split]].
  - intros v _. reflexivity.
  - intros v [<-|[<-|[<-|[]]]]; repeat constructor; eexists; reflexivity.
  - repeat constructor; (exists [[]]; split; [reflexivity|cbn; lia]).
  - reflexivity.
Qed.
Lemma e_at : forall p x, (p < 6)%nat -> at_ e_file p x = e_cell (x ++ "_l1a_echo_sar_ku")%string p.
Proof.
  intros p x L. unfold at_, e_file. cbn [f_var]. rewrite (nth_indep _ _ (e_cell (x ++ "_l1a_echo_sar_ku")%string 0)) by (rewrite map_length, seq_length; exact L).
  rewrite map_nth, seq_nth by exact L. reflexivity.
Qed.
Lemma e_number : forall p x v, (p < 6)%nat -> num (e_cell (x ++ "_l1a_echo_sar_ku")%string p) = v -> number_at e_file p x = v.
Proof. intros p x v L E. unfold number_at. rewrite e_at by exact L. exact E. Qed.
Lemma e_nth : forall p, (p < 6)%nat -> nth_error e_in p = Some (WValid (record_at e_o e_file p)).
Proof.
  intros p L. unfold e_in, all_records. rewrite nth_error_map, (nth_error_nth' (seq 0 (f_size e_file)) 0%nat) by (rewrite seq_length; exact L).
  rewrite seq_nth by exact L. reflexivity.
Qed.
Lemma e_geo : forall p, (p < 6)%nat ->
  SurfModel.b_lla (w_geo (record_at e_o e_file p)) = e_lla p /\ SurfModel.b_wd (w_geo (record_at e_o e_file p)) = 4 /\
  SurfModel.b_vel (w_geo (record_at e_o e_file p)) = along 1 (lon e_ring p).
Proof.
  intros p L. pose proof PI_RGT_0 as PP. unfold record_at, delay_at. cbn [w_geo SurfModel.b_lla SurfModel.b_wd SurfModel.b_vel]. split; [|split].
  - rewrite (e_number p "lat" 0 L), (e_number p "alt" 3 L), (e_number p "lon" (90 + INR p * (15 / 2)) L); try reflexivity.
    + unfold e_lla, lon, degrees. cbn [e_ring r_first r_step]. f_equal; field.
    + change (Rdefinitions.Q2R (QArith_base.Qplus (QArith_base.inject_Z 90) (QArith_base.Qmult (QArith_base.inject_Z (Z.of_nat p)) (QArith_base.Qmake 15 2)))
        = 90 + INR p * (15 / 2)).
      rewrite Qreals.Q2R_plus, Qreals.Q2R_mult. unfold Rdefinitions.Q2R. cbn. rewrite <- INR_IZR_INZ. field.
    + change (Rdefinitions.Q2R (QArith_base.Qmake 0 1) = 0). unfold Rdefinitions.Q2R. cbn. lra.
  - rewrite (e_number p "range_ku" 2 L eq_refl), (e_number p "cog_cor" 0 L eq_refl). change (PktModel.a_c (n_aux e_o)) with 1. lra.
  - rewrite (e_number p "x_vel" _ L eq_refl), (e_number p "y_vel" _ L eq_refl), (e_number p "z_vel" _ L eq_refl). reflexivity.
Qed.
Lemma e_far : INR (length e_in + 1 + 1) * (PI / 24) = PI / 3.
Proof. change (length e_in) with 6%nat. cbn [Nat.add INR]. lra. Qed.
Lemma e_off_lt : 0 < e_off < off_nadir e_ring (INR 2 * (PI / 24)).
Proof.
  pose proof PI_RGT_0 as PP. assert (GR : 0 < r_ground e_ring < r_sat e_ring) by (cbn; lra).
  assert (HR : r_ground e_ring <= r_sat e_ring * cos (PI / 3)) by (rewrite cos_PI3; cbn; lra).
  assert (HP : 0 <= PI / 3 <= PI / 2) by lra.
  split.
  - rewrite <- (off_0 e_ring). apply (off_lt e_ring GR (PI / 3) HP HR); cbn; lra.
  - apply (off_lt e_ring GR (PI / 3) HP HR); cbn; lra.
Qed.
Lemma e_pass : ring_pass e_u e_ring 1 1 e_in.
Proof.
  pose proof PI_RGT_0 as PP. pose proof e_off_lt as CO. constructor.
  - intros p i N. assert (L : (p < 6)%nat) by (change 6%nat with (length e_in); apply nth_error_Some; congruence).
    rewrite (e_nth p L) in N. injection N as <-. exists (record_at e_o e_file p). split; [reflexivity|]. destruct (e_geo p L) as (G1 & G2 & G3).
    split; [rewrite G1; unfold e_lla; cbn; f_equal; lra|]. split; [rewrite G2; cbn; lra|exact G3].
  - intros p L. unfold lon. cbn [e_ring r_first r_step]. assert (L5 : (p <= 5)%nat) by (change (length e_in) with 6%nat in L; lia). apply le_INR in L5. cbn [INR] in L5. pose proof (pos_INR p).
    assert (0 <= INR p * (PI / 24)) by (apply Rmult_le_pos; lra). assert (INR p * (PI / 24) <= 5 * (PI / 24)) by (apply Rmult_le_compat_r; lra). lra.
  - reflexivity.
  - cbn. lra.
  - cbn. lia.
  - cbn. lra.
  - cbn. lra.
  - cbn. lra.
  - cbn [e_u u_g e_g SurfModel.g_pulses SurfModel.g_pri]. assert (0 < / (2 * e_off)) by (apply Rinv_0_lt_compat; lra). lra.
  - cbn [e_ring r_step]. lra.
  - change (r_step e_ring) with (PI / 24). rewrite e_far. lra.
  - change (r_step e_ring) with (PI / 24). rewrite e_far, cos_PI3. cbn. lra.
  - cbn [e_u u_g e_g SurfModel.g_k SurfModel.g_freq SurfModel.g_pulses SurfModel.g_pri c_k k_c]. change (off_nadir e_ring (INR 1 * r_step e_ring)) with e_off. change (r_speed e_ring) with 1. field. lra.
  - cbn [e_u u_g u_prf e_g SurfModel.g_k SurfModel.g_freq c_k k_c]. change (off_nadir e_ring (INR 1 * r_step e_ring)) with e_off.
    change (r_speed e_ring) with 1. change (r_step e_ring) with (PI / 24).
    replace (1 / (1 / (4 * e_off)) / 4 / 1 / 1) with e_off by (field; lra). lra.
  - lia.
  - cbn. lia.
  - cbn. lia.
  - reflexivity.
  - change (map erase e_in) with (ChainProps.track 0 6). apply FullProps.track_gapless.
Qed.
(** the samples of the file make up the echo *)
Lemma zip_back : forall (w : list C), map (fun z => (fst z / 1, snd z / 1)) (combine (map fst w) (map snd w)) = w.
Proof. induction w as [|[a b] w IH]; [reflexivity|]. cbn [map combine fst snd]. rewrite IH. replace (a / 1) with a by field. replace (b / 1) with b by field. reflexivity. Qed.
Lemma zips_back : forall (w : list (list C)),
  map (fun iq : list R * list R => map (fun z => (fst z / 1, snd z / 1)) (combine (fst iq) (snd iq))) (combine (map (map fst) w) (map (map snd) w)) = w.
Proof. induction w as [|a w IH]; [reflexivity|]. cbn [map combine fst snd]. rewrite IH, zip_back. reflexivity. Qed.
Lemma e_wave : forall p, (p < 6)%nat -> PointModel.b_wfm (LinModel.r_burst (w_echo (record_at e_o e_file p))) = e_wfm p.
Proof.
  intros p L. unfold record_at. cbn [w_echo LinModel.r_burst PointModel.b_wfm]. rewrite !e_at by exact L.
  rewrite (e_number p "agc_ku" 0 L eq_refl). replace (- 0 / 20) with 0 by field. rewrite Rpower_O by lra.
  change (table (e_cell ("i_meas_ku" ++ "_l1a_echo_sar_ku") p)) with (map (map fst) (e_wfm p)).
  change (table (e_cell ("q_meas_ku" ++ "_l1a_echo_sar_ku") p)) with (map (map snd) (e_wfm p)). apply zips_back.
Qed.
Lemma e_aimed : forall p, (p < 6)%nat -> WaveSpec.aimed e_u (record_at e_o e_file p) (e_angle p) = e_obs p (e_wfm p).
Proof.
  intros p L. destruct (e_geo p L) as (G1 & G2 & G3). unfold WaveSpec.aimed. rewrite G1, G2, G3, (e_wave p L). reflexivity.
Qed.
Lemma e_echo_at : forall p a, (p < 6)%nat ->
  DopModel.beam_angle (lla2ecef c_k false (SurfModel.b_lla (w_geo (record_at e_o e_file p)))) (SurfModel.b_vel (w_geo (record_at e_o e_file p))) e_y = Some a ->
  WaveSpec.holds_echo e_u e_y 2 (record_at e_o e_file p) a.
Proof.
  intros p a L B. destruct (e_geo p L) as (G1 & G2 & G3). rewrite G1, G3 in B.
  assert (AN : a = e_angle p) by (unfold e_angle; rewrite B; reflexivity). subst a.
  unfold WaveSpec.holds_echo. split; [change (100 <> 0); lra|]. unfold WaveSpec.heard. rewrite (e_aimed p L). split.
  - exists 0. exact (PointProps.with_echo_is LinProps.x_k 3 2 0 (e_dist p) (e_angle p) (e_obs p [])).
  - unfold PointSpec.beat. change (GcorrModel.k_n (u_k e_u)) with 2%nat. change (GcorrModel.k_c (u_k e_u)) with 1. change (GcorrModel.k_lam (u_k e_u)) with 1.
    change (GcorrModel.k_plen (u_k e_u)) with 1. change (GcorrModel.k_bw (u_k e_u)) with 1.
    change (PointModel.b_t0 (e_obs p (e_wfm p))) with 100. change (PointModel.b_wd (e_obs p (e_wfm p))) with 4. change (INR 2) with 2.
    change (PointSpec.distance (e_obs p (e_wfm p)) (vx e_y) (vy e_y) (vz e_y)) with (e_dist p).
    assert (SP : PointModel.b_speed (e_obs p (e_wfm p)) = 1).
    { change (norm (vlist (along 1 (lon e_ring p))) = 1). unfold along, vlist, norm. cbn [vx vy vz dot].
      match goal with |- sqrt ?z = 1 => replace z with 1; [apply sqrt_1|] end. pose proof (sin2_cos2 (lon e_ring p)). unfold Rsqr in *. lra. }
    unfold PointSpec.doppler_hz. rewrite SP. pose proof (COS_bound (e_angle p)) as CB.
    assert (DB : 0 <= e_dist p <= 6).
    { unfold e_dist, PointSpec.distance, e_obs, e_lla. cbn [PointModel.b_x PointModel.b_y PointModel.b_z].
      rewrite ecef_equator. change (k_major c_k) with 1. unfold around, e_y. cbn [around vx vy vz].
      pose proof (sin2_cos2 (lon e_ring p)) as S1. pose proof (sin2_cos2 (lon e_ring 2)) as S2. unfold Rsqr in S1, S2.
      pose proof (COS_bound (lon e_ring p - lon e_ring 2)) as CC. rewrite cos_minus in CC.
      split; [apply sqrt_pos|]. rewrite <- (sqrt_Rsqr 6) by lra. apply sqrt_le_1_alt. unfold Rsqr. nra. }
    apply Rabs_def1; lra.
Qed.
(** The third record of the L1B file: stated at the time and place of record 2,
    the burst counter of record 2, and the largest count in the middle. *)
Example C141_example : exists answers out, l1b (e_j true) no_cancel e_file = Some (answers, out) /\ answers = repeat None 6 /\ w_len out = 6%nat /\
  said out 2 "time" 0 = Some 2 /\ said out 2 "lat" 0 = Some 0 /\ said out 2 "alt" 0 = Some 3 /\ said out 2 "range_ku" 0 = Some 2 /\
  said out 2 "seq_count" 0 = Some 2 /\ said out 2 "i2q2_scale_factor" 0 = Some 12 /\ said out 2 "i2q2_meas_ku" 2 = Some 1 /\
  forall rnd wrap, SchSpec.nearest rnd -> stored (e_j true) rnd wrap out "i2q2_meas_ku_l1b_echo_sar_ku" 2 2 = Some 4294967294%Z.
Proof.
  pose proof e_pass as P. destruct (C138_ends e_u e_ring 1 1 e_in P ltac:(cbn; lia) eq_refl ltac:(intros x; repeat split) ltac:(cbn; lia)) as (w & E).
  pose proof (C138_output e_u e_ring 1 1 e_in no_cancel w P ltac:(cbn; lia) E) as O. cbv zeta in O.
  assert (O' : map (fun p => (pr_number p, records_in p)) (x_out w) =
    [(0, [0; 1]); (1, [0; 1; 2]); (2, [1; 2; 3]); (3, [2; 3; 4]); (4, [3; 4; 5]); (5, [4; 5])]%nat) by (rewrite O; reflexivity). clear O.
  assert (LP : length (x_out w) = 6%nat) by (apply (f_equal (@length _)) in O'; rewrite map_length in O'; exact O').
  destruct (nth_error (x_out w) 2) as [p|] eqn:N; [|exfalso; apply nth_error_None in N; lia].
  assert (PE : (pr_number p, records_in p) = (2, [1; 2; 3])%nat).
  { apply (f_equal (fun l => nth_error l 2)) in O'. rewrite nth_error_map, N in O'. now injection O' as <- <-. }
  injection PE as PN PR.
  assert (NW : nth_error (x_out (wfinal (whole e_u no_cancel e_in))) 2 = Some p) by (rewrite E; exact N).
  assert (IW : In p (x_out (wfinal (whole e_u no_cancel e_in)))) by exact (nth_error_In _ _ NW).
  destruct (C139_circle e_u e_ring 1 1 e_o e_file no_cancel e_complete P) as (D & _).
  destruct (C141_file (e_j true) no_cancel e_file (e_usual true)) as (F1 & F2).
  destruct (proj2 F1 (ex_intro _ e_in D)) as ((answers & out) & L). destruct (F2 e_in answers out D L) as (A1 & A2 & _).
  change (j_u (e_j true)) with e_u in A1, A2. rewrite E in A1, A2. cbn [wfinal] in A1, A2. rewrite LP in A1, A2.
  assert (PB : pr_bursts p = records_in p).
  { destruct (WholeProps.C122_looks e_u no_cancel e_in eq_refl p IW) as (Q & _). rewrite Q. unfold kept_looks, records_in. f_equal. clear.
    change (u_pick e_u) with (fun l : list (option R) => seq 0 (length l)). cbv beta. rewrite map_length.
    exact (WaveProps.pick_all (pr_stack p) []). }
  destruct (C141_circle (e_j true) no_cancel e_file e_ring 1 1 answers out 2 p (e_usual true) e_complete eq_refl P) as (C1 & C2 & _ & C3 & _ & C4 & C5 & C6);
    [unfold oblate; cbn; lra|unfold consistent; cbn; lra|cbn; lra|cbn; lra|cbn; lra|exact L|exact NW|].
  rewrite PN in *. change (2 * 1)%nat with 2%nat in *.
  destruct (C137_surfaces e_u e_in no_cancel p (ring_steady e_u e_ring 1 1 e_in P) IW) as (r & x & NL & X).
  destruct (C138_surfaces e_u e_ring 1 1 e_in (pr_number p) P) as (_ & Q). destruct (Q r x NL) as (_ & l & SL & EL & _). rewrite PN in EL.
  assert (PL : WaveSpec.plain e_u WaveProps.w_v) by (constructor; cbn; try reflexivity; try lia; repeat split; cbn; try lra; lia).
  assert (BR : forall rnd wrap, SchSpec.nearest rnd ->
    said out 2 "i2q2_scale_factor" 0 = Some 12 /\ said out 2 "i2q2_meas_ku" 2 = Some 1 /\
    stored (e_j true) rnd wrap out "i2q2_meas_ku_l1b_echo_sar_ku" 2 2 = Some 4294967294%Z).
  { intros rnd wrap NR.
    destruct (C141_bright (e_j true) no_cancel e_file e_in answers out 2 p x l 2 rnd wrap (e_usual true) D L eq_refl eq_refl eq_refl NW X SL PL eq_refl) as (B1 & B2 & B3 & _).
    - intros e y _ _. reflexivity.
    - lra.
    - rewrite PB, PR. discriminate.
    - rewrite PB, PR, EL. intros i I r' a Ni Ba. assert (L6 : (i < 6)%nat) by (destruct I as [<-|[<-|[<-|[]]]]; lia).
      rewrite (e_nth i L6) in Ni. injection Ni as <-. exact (e_echo_at i a L6 Ba).
    - exact NR.
    - split; [|split; [exact B2|exact B3]]. rewrite B1. f_equal. unfold PointProps.full_power. cbn. field. }
  exists answers, out. split; [exact L|]. split; [exact A1|]. split; [exact A2|].
  split; [rewrite C2; f_equal; apply e_number; [lia|]; change (Rdefinitions.Q2R (QArith_base.Qmake 2 1) = 2); unfold Rdefinitions.Q2R; cbn; lra|].
  split; [exact C3|]. split; [rewrite C4; reflexivity|]. split; [rewrite C5; f_equal; cbn; lra|].
  split; [rewrite (C6 ltac:(rewrite PB, PR; cbn; tauto) "seq_count" ltac:(cbn; tauto)); f_equal|].
  assert (NR0 : SchSpec.nearest WaveModel.r_round).
  { intros y. destruct (proj1 (WaveProps.C140_round y _) eq_refl) as (H & _). rewrite <- Rabs_Ropp. replace (- (IZR (WaveModel.r_round y) - y)) with (y - IZR (WaveModel.r_round y)) by ring. exact H. }
  destruct (BR WaveModel.r_round (fun _ z => z) NR0) as (B1 & B2 & _).
  split; [exact B1|]. split; [exact B2|]. intros rnd wrap NR. exact (proj2 (proj2 (BR rnd wrap NR))).
Qed.
