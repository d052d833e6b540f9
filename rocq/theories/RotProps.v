(** C121: turning the scene about the polar axis, or mirroring it at the
    equator, moves the surfaces with it and changes nothing else. *)
From Coq Require Import Reals List Bool ZArith Lra Lia Psatz.
From Verif Require Import Common Cplx GeoModel GeoSpec GeoProofs SurfModel SurfProofs BeamModel DopModel DopSpec DopProofs RotSpec RotProofs.
From Verif Require GcorrModel PointModel.
Import ListNotations.
Open Scope R_scope.

(** Conversions of coordinates. *)
Theorem C121_convert_partial : forall phi flip k,
  (forall p q, moved_lla phi flip p q -> lla2ecef k false q = move phi flip (lla2ecef k false p)) /\
  (ellipsoid k -> forall v, clear k v -> moved_lla phi flip (ecef2lla k v) (ecef2lla k (move phi flip v))).
Proof.
  intros phi flip k. split.
  - intros. apply lla2ecef_move. assumption.
  - intros. apply ecef2lla_move; assumption.
Qed.
Print Assumptions C121_convert_partial.

(** The surfaces found along a pass. *)
Lemma run_snoc : forall g fuel os o t, run_ops g fuel (os ++ [o]) t = run_op g fuel o (run_ops g fuel os t).
Proof. intros. unfold run_ops. rewrite fold_left_app. reflexivity. Qed.
Theorem C121_surfaces_partial : forall phi flip g fuel os os' t t',
  ellipsoid (g_k g) -> k_pi (g_k g) = PI -> moved_state phi flip t t' -> Forall2 (moved_op phi flip) os os' ->
  Forall (plain_op fuel) os -> Forall (plain_op fuel) os' ->
  (forall n, clear_state (g_k g) (run_ops g fuel (firstn n os) t)) ->
  moved_state phi flip (run_ops g fuel os t) (run_ops (moved_settings phi flip g) fuel os' t').
Proof.
  intros phi flip g fuel os os' t t' E KP T F. revert F. revert os'. induction os as [|o os IH] using rev_ind; intros os' F P P' K.
  - inversion F. exact T.
  - apply Forall2_app_inv_l in F. destruct F as (os1 & os2 & F1 & F2 & ->).
    inversion F2 as [|? o' ? r FO FR]; subst. inversion FR; subst. rewrite !run_snoc.
    apply Forall_app in P. destruct P as (P1 & P2). apply Forall_app in P'. destruct P' as (P1' & P2').
    apply Forall_inv in P2. apply Forall_inv in P2'. apply op_moved; try assumption.
    + apply IH; try assumption. intros n. destruct (Nat.le_gt_cases n (length os)) as [L|L].
      * specialize (K n). rewrite firstn_app in K. replace (n - length os)%nat with 0%nat in K by lia.
        rewrite firstn_O, app_nil_r in K. exact K.
      * rewrite firstn_all2 by lia. specialize (K (length os)). rewrite firstn_app, Nat.sub_diag, firstn_all in K.
        rewrite firstn_O, app_nil_r in K. exact K.
    + specialize (K (length (os ++ [o]))). rewrite firstn_all, run_snoc in K. exact K.
Qed.
Print Assumptions C121_surfaces_partial.
(** From records as they are read, and from the initial state. *)
Theorem C121_records : forall phi flip,
  (forall k b b', moved_record phi flip b b' -> moved_burst phi flip (locate_burst k b) (locate_burst k b')) /\
  moved_state phi flip st0 st0.
Proof.
  intros phi flip. split; [intros; apply locate_moved; assumption|].
  unfold moved_state; cbn. repeat split; constructor.
Qed.
Print Assumptions C121_records.
(** Whether a surface was made, or an error raised, by a burst. *)
Theorem C121_result_partial : forall phi flip g fuel force b b' t t', ellipsoid (g_k g) -> k_pi (g_k g) = PI ->
  moved_state phi flip t t' -> moved_burst phi flip b b' -> plain_angles fuel b -> plain_angles fuel b' ->
  clear_state (g_k g) (fst (step_burst g fuel force b t)) ->
  snd (step_burst (moved_settings phi flip g) fuel force b' t') = snd (step_burst g fuel force b t).
Proof. intros. apply step_moved; assumption. Qed.
Print Assumptions C121_result_partial.

(** Doppler angles and beams. *)
Lemma cross_twice : forall n v, cross (cross n v) n =
  vsub (vscale (inner n n) v) (vscale (inner n v) n).
Proof. intros [a b c] [d e f]. unfold cross, vsub, vscale, inner; cbn. f_equal; ring. Qed.
Lemma inner_move : forall phi flip u v, inner (move phi flip u) (move phi flip v) = inner u v.
Proof. intros. rewrite <- !dot_inner. apply dot_move. Qed.
Theorem C121_angles : forall phi flip,
  (forall k mean lla lla' vel, moved_lla phi flip lla lla' ->
     doppler_angle k mean lla' (move phi flip vel) = doppler_angle k mean lla vel) /\
  (forall N k prf freq pos vel dop work work' surfs, (forall s, work' (fst s, move phi flip (snd s)) = work s) ->
     burst_beams N k prf freq (move phi flip pos) (move phi flip vel) dop work'
       (map (fun s => (fst s, move phi flip (snd s))) surfs) =
     burst_beams N k prf freq pos vel dop work surfs).
Proof.
  intros phi flip. split.
  - intros k mean lla lla' vel H. unfold doppler_angle.
    rewrite (lla2ecef_move phi flip k lla lla' H).
    rewrite (lla2ecef_move phi flip k (V (vx lla) (vy lla) (vz lla - mean)) (V (vx lla') (vy lla') (vz lla' - mean)) (lla_up _ _ _ _ mean H)).
    rewrite move_sub, !cross_twice, !inner_move, !move_scale, move_sub, angle_move. reflexivity.
  - intros N k prf freq pos vel dop work work' surfs W. unfold burst_beams, q_min. rewrite norm_move.
    destruct (Req_EM_T (norm (vlist vel)) 0); [reflexivity|]. destruct (arccos _) as [q|]; [|reflexivity].
    f_equal.
    assert (BA : forall s : nat * vec, beam_angle (move phi flip pos) (move phi flip vel) (move phi flip (snd s)) = beam_angle pos vel (snd s)).
    { intros s. unfold beam_angle. rewrite move_sub, !norm_move, dot_move. reflexivity. }
    unfold beam_angles.
    assert (SC : forall l prev acc seen,
      beam_scan N (fun s => in_range k q dop (beam_angle (move phi flip pos) (move phi flip vel) (snd s)))
        (fun s => beam_angle (move phi flip pos) (move phi flip vel) (snd s)) fst work'
        (map (fun s => (fst s, move phi flip (snd s))) l) prev acc seen =
      beam_scan N (fun s => in_range k q dop (beam_angle pos vel (snd s)))
        (fun s => beam_angle pos vel (snd s)) fst work l prev acc seen).
    { induction l as [|s l IH]; intros prev acc seen; [reflexivity|]. cbn [map beam_scan snd fst]. rewrite BA, W.
      destruct (in_range k q dop (beam_angle pos vel (snd s))); [apply IH|]. destruct prev; [reflexivity|apply IH]. }
    apply SC.
Qed.
Print Assumptions C121_angles.

(** The powers of the looks. *)
Definition moved_gbeam (phi : R) (flip : bool) (b : GcorrModel.gbeam) : GcorrModel.gbeam :=
  let p := move phi flip (V (GcorrModel.g_x b) (GcorrModel.g_y b) (GcorrModel.g_z b)) in
  {| GcorrModel.g_x := vx p; GcorrModel.g_y := vy p; GcorrModel.g_z := vz p; GcorrModel.g_speed := GcorrModel.g_speed b;
     GcorrModel.g_pri := GcorrModel.g_pri b; GcorrModel.g_wd := GcorrModel.g_wd b; GcorrModel.g_angle := GcorrModel.g_angle b;
     GcorrModel.g_t0 := GcorrModel.g_t0 b; GcorrModel.g_row := GcorrModel.g_row b |}.
Lemma gathered_moved : forall phi flip k N l,
  PointModel.gathered_all k N (map (moved_obs phi flip) l) = option_map (map (moved_gbeam phi flip)) (PointModel.gathered_all k N l).
Proof.
  intros phi flip k N. induction l as [|o l IH]; [reflexivity|]. cbn [map PointModel.gathered_all]. rewrite IH.
  assert (G : PointModel.gathered k N (moved_obs phi flip o) = option_map (moved_gbeam phi flip) (PointModel.gathered k N o)).
  { unfold PointModel.gathered. cbn [PointModel.b_angles PointModel.b_wfm PointModel.b_pos moved_obs].
    change (PointModel.obs_radar k (moved_obs phi flip o)) with (PointModel.obs_radar k o).
    destruct (AzModel.exact_method _ _ _ _ _) as [rows|]; [|reflexivity].
    destruct (nth_error (PointModel.b_angles o) (PointModel.b_pos o)) as [a|]; [|reflexivity].
    destruct (nth_error rows (PointModel.b_pos o)) as [[|row]|]; reflexivity. }
  rewrite G. destruct (PointModel.gathered k N o); [|reflexivity].
  destruct (PointModel.gathered_all k N l); reflexivity.
Qed.
Lemma range_moved : forall phi flip s b,
  GcorrModel.range_to (moved_gsurf phi flip s) (moved_gbeam phi flip b) = GcorrModel.range_to s b.
Proof.
  intros phi flip s b. unfold GcorrModel.range_to. cbn [moved_gsurf moved_gbeam GcorrModel.sx GcorrModel.sy GcorrModel.sz GcorrModel.g_x GcorrModel.g_y GcorrModel.g_z].
  set (p := V (GcorrModel.g_x b) (GcorrModel.g_y b) (GcorrModel.g_z b)). set (r := V (GcorrModel.sx s) (GcorrModel.sy s) (GcorrModel.sz s)).
  pose proof (inner_move phi flip (vsub p r) (vsub p r)) as H. rewrite <- move_sub in H. f_equal.
  unfold inner, vsub in H. cbn [vx vy vz] in H. unfold p, r in *. cbn [vx vy vz] in *. nra.
Qed.
Theorem C121_image : forall phi flip fl k s N zp nlooks l,
  PointModel.image fl k (moved_gsurf phi flip s) N zp nlooks (map (moved_obs phi flip) l) = PointModel.image fl k s N zp nlooks l.
Proof.
  intros phi flip fl k s N zp nlooks l. unfold PointModel.image. rewrite gathered_moved.
  destruct (PointModel.gathered_all k N l) as [bs|]; [|reflexivity]. cbn [option_map]. rewrite map_length.
  assert (G : GcorrModel.geometry_corrections fl k (moved_gsurf phi flip s) nlooks (length bs) (map (moved_gbeam phi flip) bs) =
              GcorrModel.geometry_corrections fl k s nlooks (length bs) bs).
  { unfold GcorrModel.geometry_corrections. f_equal. rewrite firstn_map, map_map. apply map_ext. intros b.
    unfold GcorrModel.correct_beam, GcorrModel.slant_correction. rewrite range_moved. reflexivity. }
  rewrite G. reflexivity.
Qed.
Print Assumptions C121_image.

(** Within a metre and a half of the axis it is false: the test for the axis is
    a square, so that turning it changes the altitude (here of a point above the
    pole of a sphere); and mirroring changes the altitude of every point of
    the axis. *)
Definition ball : consts := {| k_c := 1; k_pi := PI; k_major := 10; k_minor := 10; k_flat := 0; k_day := 1 |}.
Lemma atan2_half_polar : forall y x, 0 < x -> cos (atan2 y x) = x / sqrt (x ^ 2 + y ^ 2).
Proof.
  intros y x X. assert (H : (x, y) <> (0, 0)) by (intros E; injection E; lra).
  destruct (atan2_polar y x H) as (C & _ & _).
  assert (0 < sqrt (x ^ 2 + y ^ 2)) by (apply sqrt_lt_R0; nra). apply (Rmult_eq_reg_l (sqrt (x ^ 2 + y ^ 2))); [|lra].
  rewrite C. field. lra.
Qed.
Theorem C121_axis_refuted :
  (exists phi k v, ellipsoid k /\ vz (ecef2lla k (move phi false v)) <> vz (ecef2lla k v)) /\
  (forall k z, ellipsoid k -> z <> 0 -> vz (ecef2lla k (move 0 true (V 0 0 z))) <> vz (ecef2lla k (V 0 0 z))).
Proof.
  split.
  - exists (PI / 4), ball, (V (4 / 5) (4 / 5) 20). split; [unfold ellipsoid; cbn; lra|].
    assert (E : ellipsoid ball) by (unfold ellipsoid; cbn; lra). destruct E as (E1 & E2).
    set (w := move (PI / 4) false (V (4 / 5) (4 / 5) 20)).
    assert (W : vx w = 0 /\ vy w = 8 / 5 / sqrt 2 /\ vz w = 20).
    { unfold w, move; cbn [vx vy vz flipped]. rewrite cos_PI4, sin_PI4. assert (0 < sqrt 2) by (apply sqrt_lt_R0; lra).
      repeat split; field; lra. }
    destruct W as (W1 & W2 & W3).
    assert (S2 : sqrt 2 * sqrt 2 = 2) by (apply sqrt_sqrt; lra). assert (P2 : 0 < sqrt 2) by (apply sqrt_lt_R0; lra).
    assert (Y : 1 < vy w).
    { rewrite W2. apply (Rmult_lt_reg_r (sqrt 2)); [lra|]. replace (8 / 5 / sqrt 2 * sqrt 2) with (8 / 5) by (field; lra). nra. }
    assert (N1 : near_axis w = false).
    { destruct (near_axis w) eqn:Q; [|reflexivity]. apply near_axis_spec in Q. rewrite (Rabs_right (vy w)) in Q by lra. lra. }
    assert (N2 : near_axis (V (4 / 5) (4 / 5) 20) = true).
    { apply near_axis_spec. cbn. rewrite Rabs_right by lra. lra. }
    unfold ecef2lla. rewrite !raw_eq by assumption. rewrite N1, N2. cbv zeta. cbn [vx vy vz ball k_major k_flat].
    unfold lat_of. rewrite W1, W3. replace (1 - (1 - 0) ^ 2) with 0 by ring.
    replace (0 / (1 - 0) * 10) with 0 by field. rewrite !Rmult_0_l, !Rplus_0_r, !Rminus_0_r.
    assert (Q : sqrt (0 ^ 2 + vy w ^ 2) = vy w) by (replace (0 ^ 2 + vy w ^ 2) with (vy w ^ 2) by ring; apply sqrt_pow2; lra).
    rewrite Q, sqrt_1, atan2_half_polar by lra.
    assert (B : 20 < sqrt (vy w ^ 2 + 20 ^ 2)).
    { rewrite <- (sqrt_pow2 20) at 1 by lra. apply sqrt_lt_1; nra. }
    replace (vy w / (vy w / sqrt (vy w ^ 2 + 20 ^ 2))) with (sqrt (vy w ^ 2 + 20 ^ 2)) by (field; lra). lra.
  - intros k z (E1 & E2) Z. unfold ecef2lla. rewrite !raw_eq by assumption.
    assert (N : forall u, vx u = 0 -> vy u = 0 -> near_axis u = true).
    { intros u U1 U2. apply near_axis_spec. rewrite U1, U2, Rabs_R0. lra. }
    rewrite !N by (cbn; ring). cbn. lra.
Qed.
Print Assumptions C121_axis_refuted.

(** A burst above the equator, and the same burst a quarter turn farther and
    mirrored: one surface each. *)
Definition x_burst (lon : R) (vel : vec) : burst :=
  {| b_time := 0; b_lla := V 0 lon 10; b_wd := 10; b_sat := V 0 0 0; b_surf := V 0 0 0; b_vel := vel;
     b_rate := 0; b_roll := 0; b_pitch := 0; b_yaw := 0; b_days := 0; b_secs := 0; b_leap := 0 |}.
Definition x_set : settings := {| g_k := ball; g_focus := true; g_target := V 0 0 10; g_freq := 1; g_pulses := 1; g_pri := 1 |}.
Example C121_example :
  let b := locate_burst ball (x_burst 0 (V 0 1 1)) in
  let b' := locate_burst ball (x_burst (PI / 2) (V (-1) 0 (-1))) in
  moved_burst (PI / 2) true b b' /\ plain_angles 1 b /\ plain_angles 1 b' /\
  (forall n, clear_state ball (run_ops x_set 1 (firstn n [Burst false b]) st0)) /\
  (exists s l, t_surfs (run_ops x_set 1 [Burst false b] st0) = [s] /\ s_loc s = Some l /\ l_surf l = V 15 0 0) /\
  exists s l, t_surfs (run_ops (moved_settings (PI / 2) true x_set) 1 [Burst false b'] st0) = [s] /\
    s_loc s = Some l /\ l_surf l = V 0 15 0.
Proof.
  pose proof PI_RGT_0 as PP.
  assert (LE : forall lon h, lla2ecef ball false (V 0 lon h) = V ((10 + h) * cos lon) ((10 + h) * sin lon) 0).
  { intros lon h. unfold lla2ecef. cbn [vx vy vz ball k_major k_minor]. replace ((10 - 10) / 10) with 0 by field.
    rewrite Rmult_0_l, sqrt_0, cos_0, sin_0. replace (1 - (0 * 0) ^ 2) with 1 by ring. rewrite sqrt_1. f_equal; field. }
  assert (N1 : forall x, - PI <= x <= PI -> normalize 1 PI x = Some x) by (intros; apply normalize_id; assumption).
  set (b := locate_burst ball (x_burst 0 (V 0 1 1))). set (b' := locate_burst ball (x_burst (PI / 2) (V (-1) 0 (-1)))).
  cbv zeta.
  assert (MR : moved_burst (PI / 2) true b b').
  { apply locate_moved. unfold moved_record, moved_lla, x_burst, move; cbn [b_lla b_vel b_time b_wd b_rate b_roll b_pitch b_yaw b_days b_secs b_leap vx vy vz flipped].
    split; [split; [ring|split; [exists 0%Z; ring|reflexivity]]|].
    split; [rewrite cos_PI2, sin_PI2; f_equal; ring|]. repeat split; reflexivity. }
  assert (S1 : forall lon vel g, - PI <= lon <= PI -> g_k g = ball ->
    exists l, t_surfs (run_ops g 1 [Burst false (locate_burst ball (x_burst lon vel))] st0) = [new_surface g 0 (Some l)] /\
      l_surf l = V (15 * cos lon) (15 * sin lon) 0 /\ l_sat l = V (20 * cos lon) (20 * sin lon) 0).
  { intros lon vel g HL HG. unfold run_ops. cbn [fold_left run_op]. unfold step_burst. rewrite HG.
    change (last1 (t_surfs st0)) with (@None surface). unfold first_location.
    change (vx (b_lla (locate_burst ball (x_burst lon vel)))) with 0.
    change (vy (b_lla (locate_burst ball (x_burst lon vel)))) with lon. change (k_pi ball) with PI.
    rewrite (N1 0), (N1 lon) by lra. eexists. split.
    { unfold focus. cbn [t_surfs st0 rev t_found negb andb]. destruct (g_focus g && true); cbn [fst t_surfs app t_next]; reflexivity. }
    cbn [l_surf l_sat]. unfold locate_burst, x_burst; cbn [b_sat b_lla b_wd vz k_c ball]. rewrite !LE. split; f_equal; field. }
  assert (A1 : plain_angles 1 b). { split; [cbn; lra|]. cbn [b locate_burst x_burst b_lla vy]. rewrite N1 by lra. discriminate. }
  assert (A2 : plain_angles 1 b'). { split; [cbn; lra|]. cbn [b' locate_burst x_burst b_lla vy]. rewrite N1 by lra. discriminate. }
  destruct (S1 0 (V 0 1 1) x_set ltac:(lra) eq_refl) as (l & R1 & R2 & R3). fold b in R1.
  destruct (S1 (PI / 2) (V (-1) 0 (-1)) (moved_settings (PI / 2) true x_set) ltac:(lra) eq_refl) as (l' & R1' & R2' & R3'). fold b' in R1'.
  rewrite cos_0, sin_0 in R2, R3. rewrite cos_PI2, sin_PI2 in R2', R3'.
  split; [exact MR|]. split; [exact A1|]. split; [exact A2|]. split.
  { intros n. destruct n as [|n]; [intros s l0 []|]. cbn [firstn]. rewrite firstn_nil.
    intros s l0 I L. rewrite R1 in I. cbn in I. destruct I as [<-|[]]. cbn in L. injection L as <-.
    rewrite R2, R3. unfold clear; cbn [vx vy vz ball k_flat k_major]. split; (split; [lra|]); right;
      replace ((1 - (1 - 0) ^ 2) * 10) with 0 by ring; apply sqrt_pos. }
  split.
  - eexists. exists l. split; [rewrite R1; reflexivity|]. split; [reflexivity|]. rewrite R2. f_equal; ring.
  - eexists. exists l'. split; [rewrite R1'; reflexivity|]. split; [reflexivity|]. rewrite R2'. f_equal; ring.
Qed.
