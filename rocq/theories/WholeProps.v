(** C122: the chain with its geometry is an instance of the chain with an oracle,
    and its stacks hold what is seen.  C123: the same scene elsewhere.  C124: other
    echoes. *)
From Coq Require Import List ZArith QArith Qreals Reals Bool Lia Lra.
From Verif Require Import Common Cplx GeoModel GeoSpec GeoProofs BeamModel ChainModel ChainSpec ChainProofs ChainProps RotSpec RotProofs RotProps
  WholeModel WholeSpec WholeChain WholeProofs WholeSim WholeMove WholeCal.
From Verif Require SurfModel DopModel GcorrModel PointModel LinModel LinSpec LinProps.
Import ListNotations.
Local Open Scope nat_scope.

(** * C122 *)

(** Whatever the geometry, there are answers of the oracle of ChainModel with which
    the loop does the same: all that is proved there for every oracle holds here. *)
Theorem C122_instance : forall u cancel input, fuel_enough u input ->
  exists o, failing u input o /\ same_end (whole u cancel input) (run (u_cf u) o cancel (map erase input)).
Proof.
  intros u cancel input F. destruct (whole_chain u input cancel (fun w => whole_ends u input cancel w F)) as (o & HF & E).
  exists o. split; [|exact E]. destruct (HF SurfModel.st0 SurfModel.st0) as (F1 & F2 & F3 & F4).
  repeat split; intros x; symmetry; [apply F1|apply F2|apply F3|apply F4].
Qed.
Print Assumptions C122_instance.

(** Every run ends: there is a bound for the loops of normalize that suffices, and
    with it the run ends by itself, by cancellation or by an error. *)
Theorem C122_ends : forall u input, (0 < k_pi (SurfModel.g_k (u_g u)))%R ->
  exists f0, forall f, f0 <= f -> fuel_enough (with_fuel u f) input /\
    forall cancel w, whole (with_fuel u f) cancel input <> WFuel w.
Proof.
  intros u input P.
  assert (E : exists f0, forall f, f0 <= f -> fuel_enough (with_fuel u f) input).
  { unfold fuel_enough. cbn [with_fuel u_fuel u_g]. induction input as [|i l IH].
    - exists 0. intros f _ r [].
    - destruct IH as (f0 & IH). destruct i as [r| |].
      + destruct (normalize_ends _ (vx (SurfModel.b_lla (w_geo r))) P) as (x & (f1 & N1) & _).
        destruct (normalize_ends _ (vy (SurfModel.b_lla (w_geo r))) P) as (y & (f2 & N2) & _).
        exists (max f0 (max f1 f2)). intros f L r' [E|I]; [|apply (IH f); [lia|exact I]]. injection E as <-.
        rewrite (normalize_more _ _ _ _ f N1), (normalize_more _ _ _ _ f N2) by lia. split; discriminate.
      + exists f0. intros f L r [E|I]; [discriminate|apply (IH f L r I)].
      + exists f0. intros f L r [E|I]; [discriminate|apply (IH f L r I)]. }
  destruct E as (f0 & E). exists f0. intros f L. split; [exact (E f L)|]. intros cancel w. apply whole_ends. exact (E f L).
Qed.
Print Assumptions C122_ends.

(** The geometry kept is that of the surfaces and bursts queued, at the beginning of every
    iteration and at the end. *)
Theorem C122_parallel : forall u input,
  (forall n w, state_after u input n = Some w -> parallel u input w) /\
  (forall cancel, parallel u input (wfinal (whole u cancel input))).
Proof.
  intros u input. split.
  - intros n w H. destruct (state_after_par u input n w H) as (o & _ & P). exact P.
  - intros cancel. apply whole_par.
Qed.
Print Assumptions C122_parallel.

(** Without focusing, every product shows a surface seen by every record of its
    stack: the angle of the beam used is the angle between the velocity and the direction of this
    surface, and within the beams of the record. *)
Theorem C122_stack : forall u cancel input, SurfModel.g_focus (u_g u) = false ->
  Forall (seen_by_stack u input) (x_out (wfinal (whole u cancel input))).
Proof.
  intros u cancel input NF. eapply Forall_impl; [|exact (whole_made u input cancel NF)]. intros p. apply made_seen.
Qed.
Print Assumptions C122_stack.

(** ... and its looks are those of the records of its stack that are picked by their
    look angles, each steered to the surface with its own angle, whatever other beams it has (if
    they are not more than pulses). *)
Theorem C122_looks : forall u cancel input, SurfModel.g_focus (u_g u) = false ->
  let w := wfinal (whole u cancel input) in
  forall p, In p (x_out w) ->
    pr_bursts p = map (fun e => fst (fst e)) (kept_looks u input p) /\
    forall x l, pr_surf p = Some x -> SurfModel.s_loc x = Some l ->
      (forall rows, pr_looks p = Some rows -> looks_of u input l p = Some rows) /\
      (c_approx (u_cf u) = false -> beams_fit u (x_angles w) -> pr_looks p = looks_of u input l p).
Proof.
  intros u cancel input NF w p I. pose proof (whole_made u input cancel NF) as M. rewrite Forall_forall in M.
  destruct (made_looks u input _ p (M p I)) as (M1 & M2). split; [symmetry; exact M1|exact M2].
Qed.
Print Assumptions C122_looks.

(** The products in order: as many as surfaces are written, with ascending numbers, each with
    enough looks from different bursts, in the order of the file. *)
Theorem C122_products : forall u cancel input, fuel_enough u input ->
  let w := wfinal (whole u cancel input) in
  increasing (map pr_number (x_out w)) /\
  forall p, In p (x_out w) ->
    c_looks (u_cf u) / 2 <= length (pr_stack p) /\ increasing (map (fun e => fst (fst e)) (pr_stack p)).
Proof.
  intros u cancel input F w. destruct (C122_instance u cancel input F) as (o & _ & E).
  pose proof (whole_products u input cancel) as Q. fold w in Q.
  assert (W : w_l1b (s_out (x_s w)) = written (run (u_cf u) o cancel (map erase input))).
  { unfold w, written, same_end in *. destruct (whole u cancel input) as [w0 c|e w0|w0], (run (u_cf u) o cancel (map erase input)) as [s c'|e' s|s];
      try contradiction; destruct E as (E & _); cbn [wfinal final]; rewrite E; reflexivity. }
  rewrite W in Q. split.
  - assert (N : map pr_number (x_out w) = numbers (written (run (u_cf u) o cancel (map erase input)))).
    { unfold numbers. clear - Q. induction Q as [|p s l l' (H & _) Q IH]; cbn; [reflexivity|]. rewrite H, IH. reflexivity. }
    rewrite N. apply (C02_output_order (u_cf u) o cancel (map erase input)).
  - intros p I.
    assert (S : exists s, In s (written (run (u_cf u) o cancel (map erase input))) /\ product_for p s).
    { clear - Q I. induction Q as [|p' s l l' H Q IH]; [destruct I|]. destruct I as [->|I]; [exists s; split; [left; reflexivity|exact H]|].
      destruct (IH I) as (s' & S1 & S2). exists s'. split; [right; exact S1|exact S2]. }
    destruct S as (s & S1 & S2 & S3). split.
    + apply (f_equal (@length _)) in S3. rewrite !map_length in S3. rewrite S3. apply (C04_written_enough_looks (u_cf u) o cancel (map erase input)). exact S1.
    + assert (M : map (fun e => fst (fst e)) (pr_stack p) = bursts_of s).
      { unfold bursts_of. rewrite <- (map_map fst fst), S3, map_map. reflexivity. }
      rewrite M. apply (C03_stack_once (u_cf u) o cancel (map erase input) s). right. exact S1.
Qed.
Print Assumptions C122_products.

(** Every record of a stack was calibrated as often as the looks say: twice if a gap was
    noticed at it, otherwise once. *)
Theorem C122_calibrations : forall u cancel input, fuel_enough u input ->
  let w := wfinal (whole u cancel input) in
  forall p i j a, In p (x_out w) -> In (i, j, a) (pr_stack p) ->
    count_occ Nat.eq_dec (m_cals (s_mon (x_s w))) i = (if after_gap (c_gap (u_cf u)) None (map erase input) i then 2 else 1) /\
    (after_gap (c_gap (u_cf u)) None (map erase input) i = true -> gap_at (c_gap (u_cf u)) (map erase input) i).
Proof.
  intros u cancel input F w p i j a IP IS. destruct (C122_instance u cancel input F) as (o & _ & E).
  pose proof (whole_products u input cancel) as Q. fold w in Q.
  assert (W : x_s w = final (run (u_cf u) o cancel (map erase input))).
  { unfold w, same_end in *. destruct (whole u cancel input) as [w0 c|e w0|w0], (run (u_cf u) o cancel (map erase input)) as [s c'|e' s|s];
      try contradiction; destruct E as (E & _); cbn [wfinal final]; exact E. }
  assert (S : exists s, In s (written (run (u_cf u) o cancel (map erase input))) /\ product_for p s).
  { unfold written. rewrite <- W. clear - Q IP. induction Q as [|p' s l l' H Q IH]; [destruct IP|].
    destruct IP as [->|IP]; [exists s; split; [left; reflexivity|exact H]|].
    destruct (IH IP) as (s' & S1 & S2). exists s'. split; [right; exact S1|exact S2]. }
  destruct S as (s & S1 & _ & S3).
  assert (EI : exists e, In e (s_stack s) /\ e_uid e = i).
  { apply (in_map fst) in IS. cbn [fst] in IS. rewrite S3 in IS. apply in_map_iff in IS. destruct IS as (e & E1 & E2).
    exists e. split; [exact E2|]. congruence. }
  destruct EI as (e & E1 & E2). destruct (C16_beam_of_surface (u_cf u) o cancel (map erase input) s e (or_intror S1) E1) as (b & B1 & B2 & _).
  assert (IA : In i (map a_uid (q_az (s_q (final (run (u_cf u) o cancel (map erase input))))))).
  { rewrite <- E2, <- B2. apply in_map. exact B1. }
  pose proof (calibrations (u_cf u) o (map erase input) cancel i IA) as CC. rewrite W. split; [exact CC|].
  intros G. rewrite G in CC. destruct (C07_calibrated_once_partial (u_cf u) o cancel (map erase input) i IA) as (H1 & H2).
  destruct (ChainMain.gapb (u_cf u) (map erase input) i) eqn:GB; [apply ChainMain.gapb_spec; exact GB|].
  rewrite H1 in CC; [discriminate|]. intros K. apply ChainMain.gapb_spec in K. congruence.
Qed.
Print Assumptions C122_calibrations.

(** What the second calibration does: with equal gains for all pulses, no phases and
    CAL2 off, the record of a gap is weighted with the gain once more than the others. *)
Theorem C122_twice : forall u input i r g, u_cal1 u = true -> u_cal2 u = false -> record_of input i = Some r -> (0 <= g)%R ->
  let w := w_echo r in
  let wfm := PointModel.b_wfm (LinModel.r_burst w) in
  let factor := (sqrt g / sqrt (Rpower 10 ((LinModel.r_agc w - LinModel.r_sig0 w) / 10)))%R in
  LinModel.r_power w = repeat g (length wfm) -> LinModel.r_phase w = repeat 0%R (length wfm) ->
  Forall (fun row => length row = GcorrModel.k_n (u_k u)) wfm ->
  held u input i w = Some (if after_gap (c_gap (u_cf u)) None (map erase input) i then map (map (Cscal factor)) wfm else wfm).
Proof.
  intros u input i r g C1 C2 _ G w wfm factor P1 P2 FA. unfold held. destruct (after_gap _ _ _ _); [|reflexivity].
  unfold LinModel.calibrated, DftModel.cal1, DftModel.cal2. fold wfm. rewrite C1, C2, P1, P2, !repeat_length, !Nat.eqb_refl.
  assert (E1 : forallb (fun r0 : list C => length r0 =? GcorrModel.k_n (u_k u)) wfm = true).
  { apply forallb_forall. intros x X. rewrite Forall_forall in FA. apply Nat.eqb_eq, FA, X. }
  assert (E2 : forallb DftModel.nonnegative (repeat g (length wfm)) = true).
  { apply DftProofs.forallb_nonnegative. apply Forall_forall. intros x X. apply repeat_spec in X. subst x. exact G. }
  rewrite E1, E2. cbn [andb negb option_map LinModel.with_wfm PointModel.b_wfm]. f_equal.
  assert (K : forall l : list (list C), DftModel.zip2 (fun c row => map (fun z => Cmul z c) row)
    (DftModel.zip2 (DftModel.cal1_factor (LinModel.r_agc w - LinModel.r_sig0 w)) (repeat g (length l)) (repeat 0%R (length l))) l
    = map (map (Cscal (sqrt g / sqrt (Rpower 10 ((LinModel.r_agc w - LinModel.r_sig0 w) / 10)))%R)) l).
  { induction l as [|row l IH]; [reflexivity|]. cbn [length repeat DftModel.zip2 map]. rewrite IH. f_equal. apply map_ext. intros z.
    unfold DftModel.cal1_factor, cis, Cscal, Cmul. rewrite cos_0, sin_0. destruct z as [x y]. cbn [fst snd]. f_equal; ring. }
  apply K.
Qed.
Print Assumptions C122_twice.

(** * C123 *)

(** The scene turned about the polar axis and mirrored at the equator: as long as
    the surfaces stay clear of the axis, the same happens, with the same surfaces elsewhere, the
    same stacks, beam angles and looks. *)
Theorem C123_moved_partial : forall phi flip u input input' cancel,
  ellipsoid (SurfModel.g_k (u_g u)) -> k_pi (SurfModel.g_k (u_g u)) = PI ->
  Forall2 (moved_item phi flip) input input' ->
  (forall r, In (WValid r) input \/ In (WValid r) input' -> plain_angles (u_fuel u) (w_geo r)) ->
  (forall n w, state_after u input n = Some w -> clear_state (SurfModel.g_k (u_g u)) (fst (geo_read u input w))) ->
  like (same_run (moved_state phi flip) (moved_product phi flip))
    (whole u cancel input) (whole (moved_setup phi flip u) cancel input').
Proof. intros phi flip u input input' cancel E KP F PA CL. apply whole_moved; assumption. Qed.
Print Assumptions C123_moved_partial.

(** * C124 *)

(** The echoes decide nothing but the looks, and the looks of a product depend on the
    echoes of the bursts looking only. *)
Theorem C124_echoes : forall u input input' cancel, Forall2 echo_item input input' ->
  like (same_run (fun t t' => t' = t) (echo_product input input')) (whole u cancel input) (whole u cancel input').
Proof. intros u input input' cancel F. apply whole_echo. exact F. Qed.
Print Assumptions C124_echoes.
(** Echoes multiplied by complex numbers: the powers of a look are multiplied by the squared modulus
    of the number of its burst. *)
Theorem C124_louder : forall gain u input cancel,
  like (same_run (fun t t' => t' = t) (louder_product gain)) (whole u cancel input) (whole u cancel (louder_input gain 0 input)).
Proof. intros gain u input cancel. apply whole_louder. Qed.
Print Assumptions C124_louder.
(** Phases of the bursts do not matter at all. *)
Theorem C124_phase : forall phase u input cancel, whole u cancel (louder_input (fun i => cis (phase i)) 0 input) = whole u cancel input.
Proof.
  intros phase u input cancel. pose proof (C124_louder (fun i => cis (phase i)) u input cancel) as H.
  set (gain := fun i => cis (phase i)) in *.
  assert (P : forall p p', louder_product gain p p' -> p' = p).
  { intros [n x st b l] [n' x' st' b' l'] (A & B & D & E & F). cbn in *. subst. f_equal.
    destruct l as [l|], l' as [l'|]; try contradiction; [|reflexivity]. f_equal. apply (LinProps.louder_one _ _ _ F).
    apply Forall_forall. intros g I. apply in_map_iff in I. destruct I as (i & <- & _). apply cis_norm. }
  assert (R : forall w w', same_run (fun t t' => t' = t) (louder_product gain) w w' -> w' = w).
  { intros [a b c d] [a' b' c' d'] (A & B & D & E). cbn in *. subst. f_equal.
    induction E as [|p p' l l' E1 E2 IH]; [reflexivity|]. rewrite IH, (P _ _ E1). reflexivity. }
  unfold like in H. destruct (whole u cancel input) as [w c|e w|w], (whole u cancel (louder_input gain 0 input)) as [w' c'|e' w'|w']; try contradiction.
  - destruct H as (H & <-). rewrite (R _ _ H). reflexivity.
  - destruct H as (H & <-). rewrite (R _ _ H). reflexivity.
  - rewrite (R _ _ H). reflexivity.
Qed.
Print Assumptions C124_phase.

(** * A record over the equator *)
Open Scope R_scope.
Definition e_cf : cfg := mk_cfg 2 2 1 1 false false.
Definition e_g : SurfModel.settings :=
  {| SurfModel.g_k := ball; SurfModel.g_focus := false; SurfModel.g_target := V 0 0 0; SurfModel.g_freq := 1; SurfModel.g_pulses := 2; SurfModel.g_pri := 1 |}.
Definition e_u : setup :=
  mk_setup e_cf e_g 1 1 1 true true LinProps.x_fl LinProps.x_k 1 (fun l => seq 0 (length l))
    (fun _ => false) (fun _ => false) (fun _ => false) (fun _ => false).
Definition e_rec : rec :=
  mk_rec 0 {| SurfModel.b_time := 0; SurfModel.b_lla := V 0 0 2; SurfModel.b_wd := 2; SurfModel.b_sat := V 0 0 0; SurfModel.b_surf := V 0 0 0;
              SurfModel.b_vel := V 0 0 1; SurfModel.b_rate := 0; SurfModel.b_roll := 0; SurfModel.b_pitch := 0; SurfModel.b_yaw := 0;
              SurfModel.b_days := 0; SurfModel.b_secs := 0; SurfModel.b_leap := 0 |} (LinProps.x_raw LinProps.x_w1).
Lemma e_ecef : forall h, lla2ecef ball false (V 0 0 h) = V (10 + h) 0 0.
Proof.
  intros h. unfold lla2ecef, ball. cbn [vx vy vz k_major k_minor]. rewrite sin_0, cos_0, !Rmult_0_r.
  replace (1 - 0 ^ 2) with 1 by ring. rewrite sqrt_1. f_equal; field.
Qed.
Lemma e_data : exists b, data e_u [WValid e_rec] 0 = Some b /\ SurfModel.b_sat b = V 12 0 0 /\ SurfModel.b_vel b = V 0 0 1 /\ SurfModel.b_lla b = V 0 0 2.
Proof.
  eexists. split; [reflexivity|]. cbn [prepared SurfModel.locate_burst SurfModel.b_sat SurfModel.b_vel SurfModel.b_lla]. split; [|split; reflexivity].
  change (lla2ecef ball false (V 0 0 2) = V 12 0 0). rewrite e_ecef. f_equal. lra.
Qed.

Notation e_in := [WValid e_rec].
Definition e_o : oracle :=
  mk_oracle (fun _ p => Nat.eqb p 0) (fun s p => Nat.eqb s 0 && Nat.eqb p 0) (fun _ => false) (fun _ => false) (fun _ => false) (fun _ => false).
Lemma e_geo : exists t1 x l, geo_read e_u e_in (wst0 e_in) = (t1, true) /\ SurfModel.t_surfs t1 = [x] /\ SurfModel.s_uid x = 0%nat /\
  SurfModel.s_loc x = Some l /\ SurfModel.l_surf l = V 11 0 0 /\ SurfModel.l_sat l = V 12 0 0 /\
  found e_u e_in SurfModel.st0 0 = true.
Proof.
  destruct e_data as (b & D & B1 & B2 & B3).
  assert (L : exists l, SurfModel.first_location ball 1 SurfModel.loc0 b = Some l /\ SurfModel.l_surf l = V 11 0 0 /\ SurfModel.l_sat l = V 12 0 0).
  { unfold SurfModel.first_location. rewrite B3. change (k_pi ball) with PI. cbn [vx vy vz].
    assert (N : normalize 1 PI 0 = Some 0) by (apply normalize_id; pose proof PI_RGT_0; lra). rewrite N.
    eexists. split; [reflexivity|]. cbn [SurfModel.l_surf SurfModel.l_sat]. split; [|exact B1].
    assert (W : SurfModel.b_wd b = 2) by (unfold data in D; cbn in D; injection D as <-; reflexivity). rewrite W.
    change (k_c ball) with 1. rewrite e_ecef. f_equal. lra. }
  destruct L as (l & L & L1 & L2).
  unfold geo_read, found. replace (arrived _ _) with (Some 0%nat) by reflexivity. rewrite D.
  unfold SurfModel.step_burst. change (i_resume (s_in (x_s (wst0 e_in)))) with false. cbn [wst0 x_t SurfModel.st0 SurfModel.t_surfs SurfModel.last1 rev hd_error].
  change (SurfModel.g_k (u_g e_u)) with ball. change (u_fuel e_u) with 1%nat. cbn [SurfModel.t_last SurfModel.st0]. rewrite L.
  unfold SurfModel.focus. cbn [SurfModel.g_focus u_g e_u e_g andb]. eexists. exists (SurfModel.new_surface e_g 0 (Some l)), l.
  split; [reflexivity|]. cbn [SurfModel.t_surfs SurfModel.t_next]. split; [reflexivity|]. split; [reflexivity|]. split; [reflexivity|]. split; [exact L1|]. split; [exact L2|reflexivity].
Qed.
Lemma norm3 : forall x y z, norm (vlist (V x y z)) = sqrt (x * x + (y * y + (z * z + 0))).
Proof. reflexivity. Qed.
Lemma e_sees : forall b x l, SurfModel.b_sat b = V 12 0 0 -> SurfModel.b_vel b = V 0 0 1 -> SurfModel.b_lla b = V 0 0 2 ->
  SurfModel.s_loc x = Some l -> SurfModel.l_surf l = V 11 0 0 -> angle b x = Some (PI / 2) /\ dop e_u b = Some 0 /\ sees e_u b x = true.
Proof.
  intros b x l B1 B2 B3 X L.
  assert (N1 : norm (vlist (V 0 0 1)) = 1) by (rewrite norm3; replace (0 * 0 + (0 * 0 + (1 * 1 + 0))) with 1 by ring; apply sqrt_1).
  assert (A : angle b x = Some (PI / 2)).
  { unfold angle. rewrite X, B1, B2, L. unfold DopModel.beam_angle. rewrite N1. unfold vsub. cbn [vx vy vz].
    assert (N : norm (vlist (V (11 - 12) (0 - 0) (0 - 0))) = 1).
    { rewrite norm3. replace ((11 - 12) * (11 - 12) + ((0 - 0) * (0 - 0) + ((0 - 0) * (0 - 0) + 0))) with 1 by ring. apply sqrt_1. }
    rewrite N. destruct (Req_EM_T (1 * 1) 0); [lra|]. cbn [vlist vx vy vz dot].
    replace (((11 - 12) * 0 + ((0 - 0) * 0 + ((0 - 0) * 1 + 0))) / (1 * 1)) with 0 by field.
    unfold arccos. destruct (Rlt_dec 0 (-1)); [lra|]. destruct (Rlt_dec 1 0); [lra|]. rewrite acos_0. reflexivity. }
  assert (D : dop e_u b = Some 0).
  { unfold dop, DopModel.doppler_angle. rewrite B2, B3. change (SurfModel.g_k (u_g e_u)) with ball. change (u_mean e_u) with 1. cbn [vx vy vz].
    rewrite !e_ecef. unfold vsub, DopModel.cross. cbn [vx vy vz]. unfold angle_between. rewrite N1.
    set (m := V _ _ _). assert (M : m = V 0 0 1) by (unfold m; f_equal; ring). rewrite M, N1.
    destruct (Req_EM_T (1 * 1) 0); [lra|]. cbn [vlist vx vy vz dot]. replace ((0 * 0 + (0 * 0 + (1 * 1 + 0))) / (1 * 1)) with 1 by field.
    destruct (Rlt_dec 1 1); [lra|]. unfold arccos. destruct (Rlt_dec 1 (-1)); [lra|]. destruct (Rlt_dec 1 1); [lra|].
    rewrite acos_1. change (k_pi ball) with PI. pose proof PI_RGT_0. destruct (Rlt_dec 0 (PI / 2)); [|lra]. f_equal. ring. }
  split; [exact A|]. split; [exact D|]. unfold sees. rewrite A, D. unfold lowest, DopModel.q_min. rewrite B2, N1.
  destruct (Req_EM_T 1 0); [lra|]. change (k_c (SurfModel.g_k (u_g e_u))) with 1. change (u_prf e_u) with 1. change (SurfModel.g_freq (u_g e_u)) with 1.
  replace (1 / (1 / 1) / 4 / 1 / 1) with (/ 4) by field. unfold arccos. destruct (Rlt_dec (/ 4) (-1)); [lra|]. destruct (Rlt_dec 1 (/ 4)); [lra|].
  unfold DopModel.in_range. change (k_pi (SurfModel.g_k (u_g e_u))) with PI.
  assert (Q : acos (/ 4) <= PI / 2). { rewrite <- acos_0. destruct (Rle_or_lt (acos (/ 4)) (acos 0)) as [H|H]; [exact H|exfalso].
    pose proof (cos_decreasing_1 (acos 0) (acos (/ 4))) as C. pose proof (acos_bound 0). pose proof (acos_bound (/ 4)). pose proof PI_RGT_0.
    rewrite !cos_acos in C by lra. lra. }
  destruct (Rle_dec (acos (/ 4)) (PI / 2 - 0)); [|lra]. destruct (Rle_dec (PI / 2 - 0) (PI - acos (/ 4))); [|lra]. reflexivity.
Qed.
Lemma e_low : forall b, SurfModel.b_vel b = V 0 0 1 -> lowest e_u b <> None.
Proof.
  intros b B2. unfold lowest, DopModel.q_min. rewrite B2.
  assert (N1 : norm (vlist (V 0 0 1)) = 1) by (rewrite norm3; replace (0 * 0 + (0 * 0 + (1 * 1 + 0))) with 1 by ring; apply sqrt_1). rewrite N1.
  destruct (Req_EM_T 1 0); [lra|]. change (k_c (SurfModel.g_k (u_g e_u))) with 1. change (u_prf e_u) with 1. change (SurfModel.g_freq (u_g e_u)) with 1.
  replace (1 / (1 / 1) / 4 / 1 / 1) with (/ 4) by field. unfold arccos. destruct (Rlt_dec (/ 4) (-1)); [lra|]. destruct (Rlt_dec 1 (/ 4)); [lra|]. discriminate.
Qed.
Definition e_s0 : st := init [] [] 0 [Valid 0].
Lemma e_body : forall t1 x l b, data e_u e_in 0 = Some b -> SurfModel.b_sat b = V 12 0 0 -> SurfModel.b_vel b = V 0 0 1 -> SurfModel.b_lla b = V 0 0 2 ->
  SurfModel.t_surfs t1 = [x] -> SurfModel.s_uid x = 0%nat -> SurfModel.s_loc x = Some l -> SurfModel.l_surf l = V 11 0 0 ->
  found e_u e_in SurfModel.st0 0 = true ->
  body e_cf (oracle_at e_u e_in SurfModel.st0 t1) 0 e_s0 = body e_cf e_o 0 e_s0.
Proof.
  intros t1 x l b D B1 B2 B3 T U X L F. destruct (e_sees b x l B1 B2 B3 X L) as (_ & _ & S).
  destruct (body_ext e_cf e_o 0 e_s0 _ eq_refl) as (new & AZ & NEW & _ & EXT). apply EXT.
  - split; [|repeat split]. intros p. cbn [e_o o_az_fail oracle_at u_az_fail e_u orb]. destruct p as [|p].
    + change (data (mk_setup _ _ _ _ _ _ _ _ _ _ _ _ _ _ _) e_in 0) with (data e_u e_in 0). rewrite D.
      change (lowest (mk_setup _ _ _ _ _ _ _ _ _ _ _ _ _ _ _) b) with (lowest e_u b). pose proof (e_low b B2). destruct (lowest e_u b); [reflexivity|congruence].
    + unfold data, record_of. cbn [nth_error]. destruct p; reflexivity.
  - intros a A. assert (a_uid a = 0%nat) as ->.
    { vm_compute in AZ. subst new. destruct A as [<-|[]]. reflexivity. }
    intros s. cbn [e_o o_vis oracle_at]. rewrite D, T. unfold by_uid. cbn [find]. rewrite U.
    destruct s as [|s]; cbn [Nat.eqb andb]; [symmetry; exact S|reflexivity].
  - intros p A _ s. cbn [e_o o_new oracle_at]. assert (p = 0%nat) as -> by (injection A as <-; reflexivity). symmetry. exact F.
Qed.
Lemma e_run : exists w p, whole e_u (fun _ => false) e_in = WEnd w false /\ x_out w = [p] /\ pr_number p = 0%nat /\
  pr_stack p = [(0%nat, 0%nat, Some (PI / 2))] /\ pr_bursts p = [0%nat] /\ beams_fit e_u (x_angles w) /\ exists rows, pr_looks p = Some rows.
Proof.
  destruct e_data as (b & D & B1 & B2 & B3). destruct e_geo as (t1 & x & l & G & T & U & X & L1 & L2 & F).
  destruct (e_sees b x l B1 B2 B3 X L1) as (A & DO & SE).
  pose proof (e_body t1 x l b D B1 B2 B3 T U X L1 F) as B.
  unfold whole. replace (enough [] (map erase e_in)) with (S (pred (enough [] (map erase e_in)))) by reflexivity.
  cbn [wloop]. unfold wbody. rewrite G. change (u_cf e_u) with e_cf. change (x_t (wst0 e_in)) with SurfModel.st0. change (x_s (wst0 e_in)) with e_s0.
  rewrite B. set (r := body e_cf e_o 0 e_s0). vm_compute in r. subst r. cbn [step_st].
  eexists. eexists. split; [reflexivity|]. unfold advance.
  cbn [x_out x_s wst0 s_out init w_l1b length skipn app map s_q q_az x_angles].
  assert (BU : by_uid (SurfModel.t_surfs t1) 0 = Some x) by (rewrite T; unfold by_uid; cbn [find]; rewrite U; reflexivity).
  assert (ST : stored e_u e_in t1 {| a_uid := 0; a_seen := [0%nat]; a_trend := 1 |} = (0%nat, [Some (PI / 2)])).
  { unfold stored. cbn [a_uid a_seen map]. rewrite D, BU, A. reflexivity. }
  rewrite ST. split; [reflexivity|]. unfold product_of. cbn [s_uid s_counter s_stack pr_number pr_stack pr_bursts pr_looks]. rewrite BU, X.
  split; [reflexivity|]. split; [reflexivity|]. split; [reflexivity|].
  split; [cbn [x_angles]; intros i q [H|[]]; injection H as <- <-; cbn; lia|].
  match goal with |- context [picked ?a ?b ?c ?d] => replace (picked a b c d) with d by reflexivity end.
  cbn [map all_some]. unfold view, echo_of. cbn [e_uid record_of nth_error map erase after_gap all_some option_map]. change (c_approx (u_cf e_u)) with false. cbv iota.
  match goal with |- context [LinModel.looks _ _ _ _ _ _ _ _ [?r]] => set (q := r) end.
  assert (NN : forallb DftModel.nonnegative [1; 1] = true).
  { apply DftProofs.forallb_nonnegative. repeat constructor; lra. }
  assert (PP : DftModel.positive 1 = true) by (apply DftProofs.positive_true; lra).
  unfold LinModel.looks, LinModel.calibrated_all, LinModel.calibrated, DftModel.cal1, DftModel.cal2.
  change (LinModel.r_power q) with [1; 1]. change (LinModel.r_phase q) with [0; 0]. change (LinModel.r_table q) with [1; 1].
  change (PointModel.b_wfm (LinModel.r_burst q)) with LinProps.x_w1. change (u_cal1 e_u) with true. change (u_cal2 e_u) with true.
  change (GcorrModel.k_n (u_k e_u)) with 2%nat. change (c_N (u_cf e_u)) with 2%nat. unfold LinProps.x_w1.
  rewrite NN. cbn [Nat.eqb forallb length andb negb DftModel.zip2 map]. rewrite PP. cbn [andb]. eexists. reflexivity.
Qed.

(** Non-vacuity: the record makes a surface below the satellite, which is seen with one
    look; so it does elsewhere, and with echoes twice as strong. *)
Example C122_example : fuel_enough e_u e_in /\ SurfModel.g_focus (u_g e_u) = false /\
  exists w p, whole e_u (fun _ => false) e_in = WEnd w false /\ x_out w = [p] /\ pr_number p = 0%nat /\
    pr_stack p = [(0%nat, 0%nat, Some (PI / 2))] /\ pr_bursts p = [0%nat] /\ beams_fit e_u (x_angles w) /\ exists rows, pr_looks p = Some rows.
Proof.
  split; [|split; [reflexivity|exact e_run]].
  intros r [E|[]]. injection E as <-. change (k_pi (SurfModel.g_k (u_g e_u))) with PI. change (u_fuel e_u) with 1%nat. cbn [e_rec w_geo SurfModel.b_lla vx vy].
  assert (N : normalize 1 PI 0 = Some 0) by (apply normalize_id; pose proof PI_RGT_0; lra). rewrite N. split; discriminate.
Qed.
Definition e_rec' : rec :=
  mk_rec 0 {| SurfModel.b_time := 0; SurfModel.b_lla := V (flipped true 0) (PI / 2) 2; SurfModel.b_wd := 2; SurfModel.b_sat := V 0 0 0; SurfModel.b_surf := V 0 0 0;
              SurfModel.b_vel := move (PI / 2) true (V 0 0 1); SurfModel.b_rate := 0; SurfModel.b_roll := 0; SurfModel.b_pitch := 0; SurfModel.b_yaw := 0;
              SurfModel.b_days := 0; SurfModel.b_secs := 0; SurfModel.b_leap := 0 |} (LinProps.x_raw LinProps.x_w1).
Lemma e_states : forall n w, state_after e_u e_in n = Some w -> n = 0%nat /\ w = wst0 e_in.
Proof.
  destruct e_data as (b & D & B1 & B2 & B3). destruct e_geo as (t1 & x & l & G & T & U & X & L1 & L2 & F).
  assert (W : exists s w', wbody e_u e_in (wst0 e_in) = Some (BEnd s, w')).
  { unfold wbody. rewrite G. change (u_cf e_u) with e_cf. change (x_t (wst0 e_in)) with SurfModel.st0. change (x_s (wst0 e_in)) with e_s0.
    rewrite (e_body t1 x l b D B1 B2 B3 T U X L1 F). set (r := body e_cf e_o 0 e_s0). vm_compute in r. subst r. eauto. }
  destruct W as (s & w' & W).
  assert (N : forall n, state_after e_u e_in (S n) = None).
  { induction n as [|n IH].
    - cbn [state_after]. rewrite W. reflexivity.
    - cbn [state_after] in IH |- *. rewrite IH. reflexivity. }
  intros [|n] w H; [injection H as <-; auto|]. rewrite N in H. discriminate.
Qed.
Example C123_example : ellipsoid (SurfModel.g_k (u_g e_u)) /\ k_pi (SurfModel.g_k (u_g e_u)) = PI /\
  Forall2 (moved_item (PI / 2) true) e_in [WValid e_rec'] /\
  (forall r, In (WValid r) e_in \/ In (WValid r) [WValid e_rec'] -> plain_angles (u_fuel e_u) (w_geo r)) /\
  (forall n w, state_after e_u e_in n = Some w -> clear_state (SurfModel.g_k (u_g e_u)) (fst (geo_read e_u e_in w))) /\
  exists w p, whole (moved_setup (PI / 2) true e_u) (fun _ => false) [WValid e_rec'] = WEnd w false /\ x_out w = [p] /\
    pr_stack p = [(0%nat, 0%nat, Some (PI / 2))] /\ exists rows, pr_looks p = Some rows.
Proof.
  assert (E : ellipsoid (SurfModel.g_k (u_g e_u))) by (unfold ellipsoid; cbn [e_u u_g e_g SurfModel.g_k ball k_major k_flat]; lra).
  assert (M : Forall2 (moved_item (PI / 2) true) e_in [WValid e_rec']).
  { constructor; [|constructor]. split; [reflexivity|]. split; [|reflexivity]. split; [|repeat split].
    split; [reflexivity|]. split; [|reflexivity]. exists 0%Z. cbn. lra. }
  assert (PA : forall r, In (WValid r) e_in \/ In (WValid r) [WValid e_rec'] -> plain_angles (u_fuel e_u) (w_geo r)).
  { pose proof PI_RGT_0. intros r [[R|[]]|[R|[]]]; injection R as <-; split; change (u_fuel e_u) with 1%nat; cbn [e_rec e_rec' w_geo SurfModel.b_lla vx vy flipped]; try lra;
      rewrite normalize_id by lra; discriminate. }
  assert (CL : forall n w, state_after e_u e_in n = Some w -> clear_state (SurfModel.g_k (u_g e_u)) (fst (geo_read e_u e_in w))).
  { intros n w H. apply e_states in H. destruct H as (_ & ->). destruct e_geo as (t1 & x & l & G & T & U & X & L1 & L2 & F).
    rewrite G. intros s l' I XL. cbn [fst] in I. rewrite T in I. destruct I as [<-|[]]. rewrite X in XL. injection XL as <-. rewrite L1, L2.
    change (SurfModel.g_k (u_g e_u)) with ball. unfold clear. cbn [vx vy vz ball k_flat k_major].
    split; (split; [lra|right]); replace ((1 - (1 - 0) ^ 2) * 10) with 0 by ring; apply sqrt_pos. }
  split; [exact E|]. split; [reflexivity|]. split; [exact M|]. split; [exact PA|]. split; [exact CL|].
  pose proof (C123_moved_partial (PI / 2) true e_u e_in [WValid e_rec'] (fun _ => false) E eq_refl M PA CL) as H.
  destruct e_run as (w & p & W & O & _ & S & _ & _ & rows & L). rewrite W in H. unfold like in H.
  destruct (whole (moved_setup (PI / 2) true e_u) (fun _ => false) [WValid e_rec']) as [w' c|e w'|w']; try contradiction.
  destruct H as ((_ & _ & _ & Q) & <-). rewrite O in Q. inversion Q as [|? p' ? ? (_ & _ & Q1 & _ & Q2) Q3 EQ1 EQ2]; subst. inversion Q3; subst.
  exists w', p'. split; [reflexivity|]. split; [auto|]. split; [congruence|]. exists rows. congruence.
Qed.
Example C124_example : exists w w' p p' rows rows',
  whole e_u (fun _ => false) e_in = WEnd w false /\ whole e_u (fun _ => false) (louder_input (fun _ => (2, 0)) 0 e_in) = WEnd w' false /\
  x_out w = [p] /\ x_out w' = [p'] /\ pr_looks p = Some rows /\ pr_looks p' = Some rows' /\ LinSpec.louder [(2, 0)] rows rows'.
Proof.
  destruct e_run as (w & p & W & O & _ & S & B & _ & rows & L). pose proof (C124_louder (fun _ => (2, 0)) e_u e_in (fun _ => false)) as H.
  rewrite W in H. unfold like in H.
  destruct (whole e_u (fun _ => false) (louder_input (fun _ => (2, 0)) 0 e_in)) as [w' c|e w'|w']; try contradiction.
  destruct H as ((_ & _ & _ & Q) & <-). rewrite O in Q. inversion Q as [|? p' ? ? (_ & _ & _ & _ & Q2) Q3 EQ1 EQ2]; subst. inversion Q3; subst.
  rewrite L, B in Q2. destruct (pr_looks p') as [rows'|] eqn:L'; [|contradiction].
  exists w, w', p, p', rows, rows'. split; [exact W|]. split; [reflexivity|]. split; [exact O|]. split; [auto|]. split; [exact L|]. split; [exact L'|exact Q2].
Qed.

(** Non-vacuity of C122_twice: two equal records with a gap between them and pulses with gain 4:
    the samples of the second are twice those of the first. *)
Example C122_gap_example :
  let u := mk_setup e_cf e_g 1 1 1 true false LinProps.x_fl LinProps.x_k 1 (fun l => seq 0 (length l))
    (fun _ => false) (fun _ => false) (fun _ => false) (fun _ => false) in
  let echo := {| LinModel.r_burst := LinProps.x_o LinProps.x_w1; LinModel.r_agc := 0; LinModel.r_sig0 := 0;
                 LinModel.r_power := [4; 4]; LinModel.r_phase := [0; 0]; LinModel.r_table := [1; 1] |} in
  let at_time := fun t => mk_rec t (w_geo e_rec) echo in
  let input := [WValid (at_time 0%Q); WNothing; WValid (at_time 9%Q)] in
  after_gap (c_gap (u_cf u)) None (map erase input) 0 = false /\ after_gap (c_gap (u_cf u)) None (map erase input) 2 = true /\
  held u input 0 echo = Some LinProps.x_w1 /\ held u input 2 echo = Some (map (map (Cscal 2)) LinProps.x_w1).
Proof.
  intros u echo at_time input. split; [reflexivity|]. split; [reflexivity|].
  assert (S2 : sqrt 4 / sqrt (Rpower 10 ((0 - 0) / 10)) = 2).
  { replace ((0 - 0) / 10) with 0 by field. rewrite Rpower_O by lra. rewrite sqrt_1. replace 4 with (2 * 2) by ring. rewrite sqrt_square by lra. field. }
  split.
  - apply (C122_twice u input 0 (at_time 0%Q) 4); try reflexivity; [lra|repeat constructor].
  - pose proof (C122_twice u input 2 (at_time 9%Q) 4 eq_refl eq_refl eq_refl ltac:(lra) eq_refl eq_refl ltac:(repeat constructor)) as H.
    change (LinModel.r_agc (w_echo (at_time 9%Q))) with 0 in H. change (LinModel.r_sig0 (w_echo (at_time 9%Q))) with 0 in H.
    cbv zeta in H. rewrite S2 in H. exact H.
Qed.
