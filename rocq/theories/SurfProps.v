(** Theorems about surface locations and focusing. *)
From Coq Require Import Reals List Bool Lra Lia Psatz ZArith Sorted.
From Verif Require Import Common GeoModel GeoSpec GeoProofs GeoProps SurfModel SurfSpec SurfProofs.
Import ListNotations.
Open Scope R_scope.

(** * C67: new surfaces lie between the bursts *)

(** If the earlier burst had not reached the resolution, all values of the new
    surface are means of those of the two bursts, with one weight in (0,1];
    each lies between them. *)
Theorem C67_weight : forall k s p c l,
  find_new_location k s p c = Some (Some l) -> within s p ->
  exists a, 0 < a <= 1 /\ weighted a p c l /\
    inside (b_time p) (b_time c) (l_time l) /\
    inside (vx (b_surf p)) (vx (b_surf c)) (vx (l_surf l)) /\
    inside (vy (b_surf p)) (vy (b_surf c)) (vy (l_surf l)) /\
    inside (vz (b_surf p)) (vz (b_surf c)) (vz (l_surf l)) /\
    inside (b_roll p) (b_roll c) (l_roll l) /\ inside (b_pitch p) (b_pitch c) (l_pitch l) /\
    inside (b_yaw p) (b_yaw c) (l_yaw l) /\
    (b_time p < b_time c -> b_time p < l_time l <= b_time c).
Proof.
  intros k s p c l H W. destruct (weight_range k s p c l H W) as [a [A ->]]. exists a. split; [exact A|].
  pose proof (between_weighted k a p c) as M. split; [exact M|].
  destruct M as [M1 [[M2 [M3 M4]] [_ [_ [_ [M5 [M6 M7]]]]]]].
  assert (A' : 0 <= a <= 1) by lra.
  repeat (split; [eapply mean_inside; eassumption|]).
  intro L. unfold mean in M1. rewrite M1. nra.
Qed.
Print Assumptions C67_weight.
(** The surface is placed where the angle reaches the resolution: the weight is
    the one for which linearly interpolated angles meet it. *)
Theorem C67_resolution : forall k s p c l,
  find_new_location k s p c = Some (Some l) ->
  exists a ap ac r, angle_to s p = Some ap /\ angle_to s c = Some ac /\ s_res s = Some r /\
    r <= ac /\ mean a ap ac r /\ weighted a p c l.
Proof.
  intros k s p c l H. destruct (find_spec k s p c _ H) as [_ [F _]].
  destruct (F l eq_refl) as [ap [ac [r [A1 [A2 [A3 [A4 [A5 ->]]]]]]]].
  exists ((r - ap) / (ac - ap)), ap, ac, r. repeat (split; [assumption|]).
  split; [|apply between_weighted]. unfold mean. field. exact A5.
Qed.
Print Assumptions C67_resolution.
(** No surface is created exactly if the burst is within the resolution; so
    after waiting the condition of C67_weight holds for the next burst. *)
Theorem C67_waiting : forall k s p c q,
  (find_new_location k s p c = None <-> within s c) /\
  (forall l, find_new_location k s q p = None -> find_new_location k s p c = Some (Some l) ->
     exists a, 0 < a <= 1 /\ weighted a p c l).
Proof.
  intros k s p c q. split; [apply (find_spec k s p c _ eq_refl)|]. intros l H1 H2.
  assert (W : within s p) by (apply (find_spec k s q p _ H1); reflexivity).
  destruct (weight_range k s p c l H2 W) as [a [A ->]]. exists a. split; [exact A|apply between_weighted].
Qed.
Print Assumptions C67_waiting.
(** It holds also for the surface placed beneath the first burst. *)
Theorem C67_after_first : forall g fuel old b l r u,
  oblate (g_k g) -> k_pi (g_k g) = PI -> b_wd b * k_c (g_k g) <> 0 ->
  first_location (g_k g) fuel old (locate_burst (g_k g) b) = Some l ->
  resolution g (b_vel b) = Some r -> 0 < r ->
  within (new_surface g u (Some l)) (locate_burst (g_k g) b).
Proof.
  intros g fuel old b l r u O P W H Hr Rp.
  destruct (first_spec _ _ _ _ _ O P H) as [S1 [S2 [_ [_ [S5 S6]]]]].
  exists 0, r. split; [|split; [cbn; rewrite S5; exact Hr|exact Rp]].
  unfold angle_to. cbn [s_loc s_dir new_surface]. rewrite S1, S2.
  set (d := vlist (vsub (b_surf (locate_burst (g_k g) b)) (b_sat (locate_burst (g_k g) b)))).
  assert (N : norm d <> 0).
  { intro Z. rewrite norm_0 in Z.
    destruct (C64_normal (g_k g) (vx (b_lla b)) (vy (b_lla b)) O) as [U _].
    assert (D : forall i, In i (vlist (vscale (b_wd b * k_c (g_k g) / 2) (zenith (vx (b_lla b)) (vy (b_lla b))))) -> i = 0).
    { intros i I. unfold d in Z. rewrite <- S1, <- S2, S6 in Z.
      destruct (l_surf l) as [x y z]. destruct (vscale _ _) as [a1 a2 a3]. unfold vlist, vsub, vadd in *. cbn [vx vy vz] in *.
      assert (Q1 := Z _ (or_introl eq_refl)). assert (Q2 := Z _ (or_intror (or_introl eq_refl))).
      assert (Q3 := Z _ (or_intror (or_intror (or_introl eq_refl)))).
      destruct I as [<-|[<-|[<-|[]]]]; lra. }
    assert (C0 : b_wd b * k_c (g_k g) / 2 <> 0) by lra.
    unfold sq in U. destruct (zenith _ _) as [nx ny nz]. unfold vlist, vscale in D. cbn [vx vy vz] in *.
    assert (Q1 := D _ (or_introl eq_refl)). assert (Q2 := D _ (or_intror (or_introl eq_refl))).
    assert (Q3 := D _ (or_intror (or_intror (or_introl eq_refl)))).
    apply Rmult_integral in Q1. apply Rmult_integral in Q2. apply Rmult_integral in Q3.
    assert (nx = 0) by (destruct Q1; [contradiction|assumption]).
    assert (ny = 0) by (destruct Q2; [contradiction|assumption]).
    assert (nz = 0) by (destruct Q3; [contradiction|assumption]). subst. lra. }
  replace d with (map (Rmult 1) d) at 2; [apply C66_special; [exact [] | exact N | lra]|].
  rewrite <- (map_id d) at 2. apply map_ext. intro x. ring.
Qed.
Print Assumptions C67_after_first.
(** In every history of bursts with increasing times that are not sparser than
    the surfaces, the times of the surfaces increase. *)
Theorem C67_times : forall g fuel os,
  StronglySorted Rlt (map b_time (bursts_of os)) -> dense g fuel os st0 ->
  StronglySorted Rlt (times g fuel os st0).
Proof.
  intros g fuel os S D. apply (times_increase g fuel os st0 None None).
  - split; [reflexivity|]. split; [intros s p l H; discriminate|reflexivity].
  - exact D.
  - intros x X. discriminate.
  - exact S.
Qed.
Print Assumptions C67_times.

Definition sample (t : R) (v : vec) : burst :=
  {| b_time := t; b_lla := V 0 0 0; b_wd := 0; b_sat := V 0 0 0; b_surf := v; b_vel := V 1 0 0;
     b_rate := 0; b_roll := 0; b_pitch := 0; b_yaw := 0; b_days := 0; b_secs := 0; b_leap := 0 |}.
Definition at_origin (res : R) : surface :=
  {| s_uid := 0; s_loc := Some loc0; s_dir := V 1 0 0; s_res := Some res; s_dist := None; s_focused := false |}.
Lemma right_angle : forall t res, angle_to (at_origin res) (sample t (V 0 1 0)) = Some (PI / 2).
Proof.
  intros. unfold angle_to. cbn [s_loc at_origin s_dir b_surf sample l_sat loc0].
  unfold vlist, vsub. cbn [vx vy vz].
  apply C66_special.
  - unfold norm. cbn. replace (1 * 1 + (0 * 0 + (0 * 0 + 0))) with 1 by ring. rewrite sqrt_1. lra.
  - reflexivity.
  - unfold norm. cbn. replace ((0 - 0) * (0 - 0) + ((1 - 0) * (1 - 0) + ((0 - 0) * (0 - 0) + 0))) with 1 by ring. rewrite sqrt_1. lra.
  - cbn. ring.
Qed.
Lemma straight_angle : forall t res, angle_to (at_origin res) (sample t (V (-1) 0 0)) = Some PI.
Proof.
  intros. unfold angle_to. cbn [s_loc at_origin s_dir b_surf sample l_sat loc0].
  unfold vlist, vsub. cbn [vx vy vz].
  replace [-1 - 0; 0 - 0; 0 - 0] with (map (Rmult (- (1))) [1; 0; 0]) by (cbn; f_equal; [ring|f_equal; [ring|f_equal; ring]]).
  refine (proj1 (proj2 (C66_special _ [] _)) 1 _); [|lra].
  unfold norm. cbn. replace (1 * 1 + (0 * 0 + (0 * 0 + 0))) with 1 by ring. rewrite sqrt_1. lra.
Qed.
Example C67_example : forall k, exists l,
  find_new_location k (at_origin (3 * PI / 4)) (sample 1 (V 0 1 0)) (sample 2 (V (-1) 0 0)) = Some (Some l) /\
  within (at_origin (3 * PI / 4)) (sample 1 (V 0 1 0)) /\ l_time l = 3 / 2.
Proof.
  intro k. unfold find_new_location. cbv zeta. rewrite right_angle, straight_angle. cbn [s_res at_origin flt weight].
  pose proof PI_RGT_0. destruct (Rlt_dec PI (3 * PI / 4)); [lra|]. destruct (Req_EM_T (PI - PI / 2) 0); [lra|].
  eexists. split; [reflexivity|]. split.
  - exists (PI / 2), (3 * PI / 4). rewrite right_angle. repeat split; try reflexivity; lra.
  - cbn [l_time between b_time sample]. unfold mix. field. lra.
Qed.
(** Without the condition, i.e. when bursts are sparser than surfaces, the new
    surface lies before both bursts. *)
Example C67_late : forall k, exists l,
  find_new_location k (at_origin (PI / 4)) (sample 1 (V 0 1 0)) (sample 2 (V (-1) 0 0)) = Some (Some l) /\
  l_time l = 1 / 2.
Proof.
  intro k. unfold find_new_location. cbv zeta. rewrite right_angle, straight_angle. cbn [s_res at_origin flt weight].
  pose proof PI_RGT_0. destruct (Rlt_dec PI (PI / 4)); [lra|]. destruct (Req_EM_T (PI - PI / 2) 0); [lra|].
  eexists. split; [reflexivity|]. cbn [l_time between b_time sample]. unfold mix. field. lra.
Qed.

(** A history with two surfaces to which C67_times applies: the first surface
    is beneath the first burst, the second beneath the second one. *)
Definition pass (t lon alt : R) : burst :=
  locate_burst unit_k
   {| b_time := t; b_lla := V 0 lon alt; b_wd := 2; b_sat := V 0 0 0; b_surf := V 0 0 0; b_vel := V 1 0 0;
      b_rate := 0; b_roll := 0; b_pitch := 0; b_yaw := 0; b_days := 0; b_secs := 0; b_leap := 0 |}.
Definition half_g : settings :=
  {| g_k := unit_k; g_focus := true; g_target := V 6 0 0; g_freq := 1 / 2; g_pulses := 1; g_pri := 1 |}.
Lemma half_res : resolution half_g (V 1 0 0) = Some (PI / 2).
Proof.
  unfold resolution. cbn [half_g g_freq g_pulses g_pri g_k k_c unit_k]. unfold norm, vlist. cbn [dot vx vy vz].
  replace (1 * 1 + (0 * 0 + (0 * 0 + 0))) with 1 by ring. rewrite sqrt_1.
  replace (2 * (1 / 2) * 1 * 1 * 1) with 1 by field. destruct (Req_EM_T 1 0); [lra|].
  unfold arcsin. replace (1 / 1) with 1 by field. destruct (Rlt_dec 1 (-1)); [lra|]. destruct (Rlt_dec 1 1); [lra|].
  rewrite asin_1. reflexivity.
Qed.
Lemma equator : forall lon alt, lla2ecef unit_k false (V 0 lon alt) = V ((2 + alt) * cos lon) ((2 + alt) * sin lon) 0.
Proof.
  intros. rewrite lla2ecef_eq by (unfold oblate; cbn; lra). cbv zeta. unfold N_of. cbn [k_major k_minor unit_k].
  rewrite sin_0, cos_0. replace (1 - (1 - (1 / 2) ^ 2) * 0 ^ 2) with 1 by field. rewrite sqrt_1. f_equal; field.
Qed.
Lemma first_pass : forall t alt old, exists l,
  first_location unit_k 1 old (pass t 0 alt) = Some l /\ l_time l = t /\ l_surf l = V (1 + alt) 0 0 /\
  l_sat l = V (2 + alt) 0 0 /\ l_vel l = V 1 0 0.
Proof.
  intros. unfold first_location, pass, locate_burst. cbn [b_lla b_wd b_sat vx vy vz k_pi k_c unit_k]. unfold normalize. cbn [turn_up turn_down].
  pose proof PI_RGT_0. destruct (Rlt_dec 0 (- PI)); [lra|]. destruct (Rlt_dec PI 0); [lra|].
  eexists. split; [reflexivity|]. cbn [l_surf l_sat l_time l_vel b_time b_vel]. rewrite !equator, sin_0, cos_0.
  split; [reflexivity|]. split; [f_equal; field|]. split; [f_equal; ring|reflexivity].
Qed.
Example C67_times_example :
  let os := [Burst false (pass 1 0 3); Burst false (pass 2 (PI / 3) 9)] in
  StronglySorted Rlt (map b_time (bursts_of os)) /\ dense half_g 1 os st0 /\ times half_g 1 os st0 = [1; 2].
Proof.
  cbv zeta. split; [cbn; repeat constructor; lra|].
  destruct (first_pass 1 3 loc0) as [l [F [T [S [A Ve]]]]].
  pose (t1 := {| t_found := false; t_last := l; t_surfs := [new_surface half_g 0 (Some l)];
                 t_bursts := [pass 1 0 3]; t_next := 1 |}).
  assert (R1 : run_op half_g 1 (Burst false (pass 1 0 3)) st0 = t1).
  { cbn [run_op]. unfold step_burst. cbn [st0 t_surfs last1 rev hd_error t_last g_k half_g]. rewrite F. reflexivity. }
  set (c := pass 2 (PI / 3) 9).
  assert (Cs : b_surf c = V 5 (10 * (sqrt 3 / 2)) 0).
  { unfold c, pass, locate_burst. cbn [b_surf b_lla b_wd vx vy vz k_c unit_k]. rewrite equator, cos_PI3, sin_PI3. f_equal; field. }
  assert (Ca : b_sat c = V (11 / 2) (11 * (sqrt 3 / 2)) 0).
  { unfold c, pass, locate_burst. cbn [b_sat b_lla]. rewrite equator, cos_PI3, sin_PI3. f_equal; field. }
  assert (Q3 : 0 < sqrt 3) by (apply sqrt_lt_R0; lra). assert (Q3' : sqrt 3 * sqrt 3 = 3) by (apply sqrt_sqrt; lra).
  set (s1 := new_surface half_g 0 (Some l)) in *.
  assert (D1 : s_dir s1 = V (-1) 0 0).
  { cbn. rewrite S, A. unfold vsub. cbn [vx vy vz]. f_equal; ring. }
  assert (N1 : norm (vlist (V (-1) 0 0)) = 1).
  { unfold norm, vlist. cbn [dot vx vy vz]. replace (-1 * -1 + (0 * 0 + (0 * 0 + 0))) with 1 by ring. apply sqrt_1. }
  assert (A1 : angle_to s1 (pass 1 0 3) = Some 0).
  { unfold angle_to. rewrite D1. cbn [s_loc s1 new_surface]. rewrite A.
    replace (vsub (b_surf (pass 1 0 3)) (V (2 + 3) 0 0)) with (V (-1) 0 0).
    - replace (vlist (V (-1) 0 0)) with (map (Rmult 1) (vlist (V (-1) 0 0))) at 2.
      + refine (proj1 (C66_special _ [] _) 1 _); [rewrite N1|]; lra.
      + unfold vlist. cbn [map vx vy vz]. f_equal; [ring|f_equal; [ring|f_equal; ring]].
    - unfold pass, locate_burst. cbn [b_surf b_lla b_wd vx vy vz k_c unit_k]. rewrite equator, sin_0, cos_0.
      unfold vsub. cbn [vx vy vz]. f_equal; field. }
  assert (A2 : angle_to s1 c = Some (PI / 2)).
  { unfold angle_to. rewrite D1. cbn [s_loc s1 new_surface]. rewrite A, Cs. apply C66_special.
    - rewrite N1. lra.
    - reflexivity.
    - intro Z. rewrite norm_0 in Z. unfold vsub, vlist in Z. cbn [vx vy vz] in Z.
      specialize (Z _ (or_intror (or_introl eq_refl))). lra.
    - unfold vsub, vlist. cbn [dot vx vy vz]. ring. }
  assert (E1 : s_res s1 = Some (PI / 2)) by (cbn; rewrite Ve; apply half_res).
  set (l2 := between unit_k 1 (pass 1 0 3) c).
  pose (t2 := {| t_found := false; t_last := l2; t_surfs := [s1; new_surface half_g 1 (Some l2)];
                 t_bursts := [pass 1 0 3; c]; t_next := 2 |}).
  pose proof PI_RGT_0 as Pp.
  assert (R2 : run_op half_g 1 (Burst false c) t1 = t2).
  { cbn [run_op]. unfold step_burst. cbn [t1 t_surfs last1 rev hd_error t_bursts last2 app t_last t_next t_found g_k half_g].
    unfold find_new_location. cbv zeta. rewrite A2, A1, E1. cbn [flt weight].
    destruct (Rlt_dec (PI / 2) (PI / 2)); [lra|]. destruct (Req_EM_T (PI / 2 - 0) 0); [lra|].
    replace ((PI / 2 - 0) / (PI / 2 - 0)) with 1 by (field; lra). reflexivity. }
  assert (L2 : l_surf l2 = b_surf c /\ l_sat l2 = b_sat c /\ l_vel l2 = V 1 0 0 /\ l_time l2 = 2).
  { assert (M : forall a b, mix 1 a b = b) by (intros; unfold mix; ring).
    unfold l2, between. cbn [l_surf l_sat l_vel l_time]. unfold vmix. rewrite !M.
    split; [rewrite Cs; reflexivity|]. split; [rewrite Ca; reflexivity|]. split; reflexivity. }
  destruct L2 as [L2a [L2b [L2c L2d]]].
  assert (W1 : ready t1).
  { intros s p l' H1 _ H2. cbn in H1, H2. injection H1 as <-. injection H2 as <-.
    exists 0, (PI / 2). split; [exact A1|]. split; [exact E1|lra]. }
  assert (W2 : ready t2).
  { intros s p l' H1 _ H2. injection H1 as <-. injection H2 as <-.
    exists 0, (PI / 2). split; [|split; [cbn [s_res new_surface]; rewrite L2c; apply half_res|lra]].
    unfold angle_to. cbn [s_loc s_dir new_surface]. rewrite L2a, L2b.
    replace (vlist (vsub (b_surf c) (b_sat c))) with (map (Rmult 1) (vlist (vsub (b_surf c) (b_sat c)))) at 2.
    - refine (proj1 (C66_special _ [] _) 1 _); [|lra]. intro Z. rewrite norm_0, Cs, Ca in Z.
      unfold vsub, vlist in Z. cbn [vx vy vz] in Z. specialize (Z _ (or_introl eq_refl)). lra.
    - rewrite <- (map_id (vlist (vsub (b_surf c) (b_sat c)))) at 2. apply map_ext. intro x. ring. }
  split.
  - cbn [dense]. fold c. rewrite R1, R2. repeat split; try (intro X; discriminate X); intros _; assumption.
  - cbn [times]. fold c. rewrite R1, R2. cbn [t1 t2 t_next st0 Nat.eqb t_surfs last1 rev hd_error app s_loc s1 new_surface].
    rewrite T, L2d. reflexivity.
Qed.

(** * C82: window delays of surfaces *)

(** The first surface is the burst's own ground point: straight below the
    satellite, along the normal of the ellipsoid, at the distance of the window
    delay. *)
Theorem C82_beneath : forall k fuel old b l, oblate k -> k_pi k = PI ->
  first_location k fuel old (locate_burst k b) = Some l ->
  l_surf l = b_surf (locate_burst k b) /\ l_time l = b_time b /\ l_wd l = b_wd b /\
  l_sat l = vadd (l_surf l) (vscale (b_wd b * k_c k / 2) (zenith (vx (b_lla b)) (vy (b_lla b)))) /\
  distance (l_surf l) (l_sat l) = Rabs (l_wd l * k_c k / 2).
Proof.
  intros k fuel old b l O P H. destruct (first_spec _ _ _ _ _ O P H) as [S1 [S2 [S3 [S4 [_ S6]]]]].
  repeat (split; [assumption|]). rewrite S6, S3.
  destruct (C64_normal k (vx (b_lla b)) (vy (b_lla b)) O) as [U _]. unfold sq in U.
  destruct (zenith _ _) as [nx ny nz]. destruct (l_surf l) as [x y z]. unfold distance, vadd, vscale. cbn [vx vy vz] in *.
  set (w := b_wd b * k_c k / 2).
  replace ((x - (x + w * nx)) ^ 2 + (y - (y + w * ny)) ^ 2 + (z - (z + w * nz)) ^ 2)
    with (w ^ 2 * (nx ^ 2 + ny ^ 2 + nz ^ 2)) by ring.
  rewrite U, Rmult_1_r. rewrite <- (sqrt_Rsqr_abs w). f_equal. unfold Rsqr. ring.
Qed.
Print Assumptions C82_beneath.
(** An interpolated or focused surface has the window delay of the difference
    of the two altitudes. *)
Theorem C82_window_delay : forall k, k_c k <> 0 ->
  (forall s p c l, find_new_location k s p c = Some (Some l) ->
     l_wd l * k_c k / 2 = vz (l_sat_lla l) - vz (l_surf_lla l) /\
     l_surf_lla l = ecef2lla k (l_surf l) /\ l_sat_lla l = ecef2lla k (l_sat l)) /\
  (forall target s prior l, s_loc (focus_surface k target s prior) = Some l ->
     l_wd l * k_c k / 2 = vz (l_sat_lla l) - vz (l_surf_lla l) /\ l_surf_lla l = ecef2lla k (l_surf l)).
Proof.
  intros k C. split.
  - intros s p c l H. destruct (find_spec k s p c _ H) as [_ [F _]].
    destruct (F l eq_refl) as [ap [ac [r [A1 [A2 [A3 [A4 [A5 ->]]]]]]]].
    cbn [between l_wd l_sat_lla l_surf_lla l_surf l_sat]. split; [field; exact C|]. split; reflexivity.
  - intros target s prior l H. unfold focus_surface in H. cbn [s_loc] in H.
    destruct (s_loc s) as [l0|]; [|discriminate]. destruct (s_loc prior) as [l1|]; [|discriminate].
    destruct (focus_point target (l_surf l0) (l_surf l1)) as [q|]; [|discriminate]. injection H as <-.
    cbn [l_wd l_sat_lla l_surf_lla l_surf]. split; [field; exact C|reflexivity].
Qed.
Print Assumptions C82_window_delay.
Example C82_example : exists l, first_location unit_k 1 loc0 (locate_burst unit_k
   {| b_time := 5; b_lla := V 0 0 3; b_wd := 2; b_sat := V 0 0 0; b_surf := V 0 0 0; b_vel := V 1 0 0;
      b_rate := 0; b_roll := 0; b_pitch := 0; b_yaw := 0; b_days := 0; b_secs := 0; b_leap := 0 |}) = Some l /\
  l_surf_lla l = V 0 0 2 /\ l_sat l = V 5 0 0.
Proof.
  unfold first_location, locate_burst. cbn [b_lla b_wd b_sat vx vy vz k_pi unit_k]. unfold normalize. cbn [turn_up turn_down].
  pose proof PI_RGT_0. destruct (Rlt_dec 0 (- PI)); [lra|]. destruct (Rlt_dec PI 0); [lra|].
  eexists. split; [reflexivity|]. cbn [l_surf_lla l_sat k_c unit_k]. split; [f_equal; field|]. apply C64_example.
Qed.

(** * C68: focusing *)

(** The surface is moved to the point of the line through its predecessor and
    itself that is closest to the target; this is possible unless the two
    coincide or the predecessor is exactly at the target. *)
Theorem C68_closest_partial : forall target focus prior,
  (forall q, focus_point target focus prior = Some q ->
     exists k, q = on_line prior focus k /\
       forall k', distance target q <= distance target (on_line prior focus k') /\
                  (distance target (on_line prior focus k') = distance target q -> on_line prior focus k' = q)) /\
  (focus_point target focus prior = None <-> focus = prior \/ target = prior).
Proof.
  intros target focus prior. split.
  - intros q H. destruct (focus_point_spec target focus prior q H) as [k0 [-> [E P]]]. exists k0. split; [reflexivity|].
    intro k'. destruct (closest target prior focus P k') as [A B]. rewrite <- E in *. split; [exact A|].
    intro X. rewrite (B X). reflexivity.
  - assert (Z : forall u v, norm (vlist (vsub u v)) = 0 <-> u = v).
    { intros [a b c] [d e f]. rewrite norm_0. unfold vlist, vsub. cbn [vx vy vz]. split.
      - intro H. f_equal.
        + specialize (H _ (or_introl eq_refl)). lra.
        + specialize (H _ (or_intror (or_introl eq_refl))). lra.
        + specialize (H _ (or_intror (or_intror (or_introl eq_refl)))). lra.
      - intros E x I. injection E as -> -> ->. destruct I as [<-|[<-|[<-|[]]]]; ring. }
    unfold focus_point. cbv zeta. destruct (Req_EM_T (norm (vlist (vsub focus prior))) 0) as [A|A].
    + apply Z in A. split; [left; exact A|reflexivity].
    + destruct (Req_EM_T (norm (vlist (vsub target prior))) 0) as [B|B].
      * apply Z in B. split; [right; exact B|reflexivity].
      * split; [discriminate|]. intros [E|E]; apply Z in E; contradiction.
Qed.
Print Assumptions C68_closest_partial.
(** A predecessor exactly at the target: the closest point exists, but the
    position computed is not a number. *)
Theorem C68_at_target_refuted : exists target focus prior, focus <> prior /\
  focus_point target focus prior = None /\
  forall k, distance target (on_line prior focus 0) <= distance target (on_line prior focus k).
Proof.
  exists (V 0 0 0), (V 1 0 0), (V 0 0 0). split; [intro E; injection E; lra|]. split.
  - apply C68_closest_partial. right. reflexivity.
  - intro k. replace (on_line (V 0 0 0) (V 1 0 0) 0) with (V 0 0 0).
    + unfold distance at 1. cbn [vx vy vz]. replace ((0 - 0) ^ 2 + (0 - 0) ^ 2 + (0 - 0) ^ 2) with 0 by ring.
      rewrite sqrt_0. apply sqrt_pos.
    + unfold on_line, vadd, vscale, vsub. cbn [vx vy vz]. f_equal; ring.
Qed.
Print Assumptions C68_at_target_refuted.
(** Over every history: a queued surface is only ever changed by focusing; then
    it is the last one of the queue, has a predecessor, and is closer to the
    target than the new surface; no other surface changes. *)
Theorem C68_only : forall g fuel os o u,
  let t := run_ops g fuel os st0 in let t' := run_op g fuel o t in
  changed t t' u ->
  g_focus g = true /\ u <> 0%nat /\
  (forall u', changed t t' u' -> u' = u) /\
  exists r prior s new, t_surfs t = r ++ [prior; s] /\ s_uid s = u /\ flt (s_dist s) (s_dist new) = true /\
    t_surfs t' = r ++ [prior; focus_surface (g_k g) (g_target g) s prior; new].
Proof.
  intros g fuel os o u t t' C. pose proof (ops_hinv g fuel os st0 hinv0) as I. fold t in I.
  destruct (changed_focus g fuel o t u I C) as [G [F [_ [r [prior [s [new [E1 [E2 [E3 E4]]]]]]]]]].
  split; [exact G|]. split; [|split].
  - destruct I as [_ [_ S]]. unfold uids in S. rewrite E1, map_app in S. cbn [map] in S. rewrite E2 in S.
    intros ->. clear - S. induction (map s_uid r) as [|x l IH]; cbn [app] in S; apply StronglySorted_inv in S; destruct S as [S Fa].
    + inversion Fa. lia.
    + apply IH. exact S.
  - intros u' C'. destruct (changed_focus g fuel o t u' I C') as [_ [_ [_ [r' [prior' [s' [new' [X1 [X2 _]]]]]]]]].
    rewrite X1 in E1. assert (L : last1 (r' ++ [prior'; s']) = last1 (r ++ [prior; s])) by (rewrite E1; reflexivity).
    change [prior'; s'] with ([prior'] ++ [s']) in L. change [prior; s] with ([prior] ++ [s]) in L.
    rewrite !app_assoc, !last1_app in L. injection L as ->. congruence.
  - exists r, prior, s, new. auto.
Qed.
Print Assumptions C68_only.
(** At most one surface is moved in the life of a processor. *)
Theorem C68_once : forall g fuel os1 o1 os2 o2 u1 u2,
  let t1 := run_ops g fuel os1 st0 in let t1' := run_op g fuel o1 t1 in
  let t2 := run_ops g fuel os2 t1' in let t2' := run_op g fuel o2 t2 in
  changed t1 t1' u1 -> ~ changed t2 t2' u2.
Proof.
  intros g fuel os1 o1 os2 o2 u1 u2 t1 t1' t2 t2' C1 C2.
  pose proof (ops_hinv g fuel os1 st0 hinv0) as I1. fold t1 in I1.
  assert (I2 : hinv t2) by (apply ops_hinv, op_hinv, I1).
  destruct (changed_focus g fuel o1 t1 u1 I1 C1) as [_ [_ [F1 _]]].
  destruct (changed_focus g fuel o2 t2 u2 I2 C2) as [_ [F2 _]].
  pose proof (found_stays g fuel os2 t1' F1) as F3. fold t2 in F3. congruence.
Qed.
Print Assumptions C68_once.
(** What is moved keeps time, satellite position, attitude and angles; it is
    marked as focused. *)
Theorem C68_kept : forall k target s prior l l',
  s_loc s = Some l -> s_loc (focus_surface k target s prior) = Some l' ->
  s_focused (focus_surface k target s prior) = true /\ s_uid (focus_surface k target s prior) = s_uid s /\
  l_time l' = l_time l /\ l_sat l' = l_sat l /\ l_sat_lla l' = l_sat_lla l /\ l_vel l' = l_vel l /\
  l_roll l' = l_roll l /\ l_pitch l' = l_pitch l /\ l_yaw l' = l_yaw l /\
  exists lp, s_loc prior = Some lp /\ focus_point target (l_surf l) (l_surf lp) = Some (l_surf l').
Proof.
  intros k target s prior l l' H H'. unfold focus_surface in *. cbn [s_loc s_focused s_uid] in *. rewrite H in H'.
  destruct (s_loc prior) as [lp|]; [|discriminate].
  destruct (focus_point target (l_surf l) (l_surf lp)) as [q|] eqn:E; [|discriminate]. injection H' as <-.
  repeat split; try reflexivity. exists lp. split; [reflexivity|exact E].
Qed.
Print Assumptions C68_kept.
Example C68_example : focus_point (V 3 4 0) (V 1 0 0) (V 0 0 0) = Some (V 3 0 0).
Proof.
  destruct (focus_point (V 3 4 0) (V 1 0 0) (V 0 0 0)) as [q|] eqn:E.
  - destruct (focus_point_spec _ _ _ _ E) as [k [-> [-> _]]]. f_equal.
    unfold on_line, sq, vsub, vadd, vscale, vlist. cbn [vx vy vz dot]. f_equal; field.
  - apply C68_closest_partial in E. destruct E as [E|E]; injection E; lra.
Qed.

(** A history in which a surface is moved. *)
Example C68_moved_example :
  let os := [Burst true (pass 1 0 0); Burst true (pass 2 0 4)] in
  let t := run_ops half_g 1 os st0 in let t' := run_op half_g 1 (Burst true (pass 3 0 9)) t in
  changed t t' 1 /\ map (fun s => option_map l_surf (s_loc s)) (t_surfs t) = [Some (V 1 0 0); Some (V 5 0 0)] /\
  map (fun s => option_map l_surf (s_loc s)) (t_surfs t') = [Some (V 1 0 0); Some (V 6 0 0); Some (V 10 0 0)].
Proof.
  cbv zeta. destruct (first_pass 1 0 loc0) as [l1 [F1 [_ [S1 [A1 V1]]]]].
  destruct (first_pass 2 4 l1) as [l2 [F2 [_ [S2 [A2 V2]]]]].
  destruct (first_pass 3 9 l2) as [l3 [F3 [_ [S3 [A3 V3]]]]].
  set (s1 := new_surface half_g 0 (Some l1)). set (s2 := new_surface half_g 1 (Some l2)). set (s3 := new_surface half_g 2 (Some l3)).
  set (t2 := {| t_found := false; t_last := l2; t_surfs := [s1; s2]; t_bursts := [pass 1 0 0; pass 2 0 4]; t_next := 2 |}).
  assert (R2 : run_ops half_g 1 [Burst true (pass 1 0 0); Burst true (pass 2 0 4)] st0 = t2).
  { set (t1 := {| t_found := false; t_last := l1; t_surfs := [s1]; t_bursts := [pass 1 0 0]; t_next := 1 |}).
    assert (R1 : run_op half_g 1 (Burst true (pass 1 0 0)) st0 = t1).
    { cbn [run_op]. unfold step_burst. cbn [st0 t_last g_k half_g]. rewrite F1. reflexivity. }
    unfold run_ops. cbn [fold_left]. rewrite R1. cbn [run_op]. unfold step_burst. cbn [t1 t_last g_k half_g]. rewrite F2.
    reflexivity. }
  assert (ND : forall x, norm (vlist (vsub (V 6 0 0) (V x 0 0))) = Rabs (6 - x)).
  { intro x. unfold norm, vlist, vsub. cbn [dot vx vy vz]. rewrite <- (sqrt_Rsqr_abs (6 - x)). f_equal. unfold Rsqr. ring. }
  assert (D2 : s_dist s2 = Some (Rabs (6 - (1 + 4)))) by (cbn; rewrite S2, <- ND; reflexivity).
  assert (D3 : s_dist s3 = Some (Rabs (6 - (1 + 9)))) by (cbn; rewrite S3, <- ND; reflexivity).
  rewrite R2. set (s2' := focus_surface unit_k (V 6 0 0) s2 s1).
  assert (R3 : t_surfs (run_op half_g 1 (Burst true (pass 3 0 9)) t2) = [s1; s2'; s3]).
  { cbn [run_op]. unfold step_burst. cbn [t2 t_last g_k half_g]. rewrite F3.
    change (t_found t2) with false. change (t_surfs t2) with [s1; s2]. change (t_next t2) with 2%nat. fold s3.
    unfold focus. cbn [g_focus half_g negb andb rev app]. rewrite D2, D3. cbn [flt].
    rewrite (Rabs_pos_eq (6 - (1 + 4))) by lra. rewrite (Rabs_left (6 - (1 + 9))) by lra.
    destruct (Rlt_dec (6 - (1 + 4)) (- (6 - (1 + 9)))); [|lra]. reflexivity. }
  split; [|rewrite R3; split].
  - exists s2, s2'. split; [cbn; auto|]. split; [rewrite R3; cbn; auto|]. split; [reflexivity|]. split; [reflexivity|].
    intro E. assert (X : s_focused s2 = s_focused s2') by (rewrite <- E; reflexivity). discriminate X.
  - cbn [t2 t_surfs map s1 s2 new_surface s_loc option_map]. rewrite S1, S2. repeat f_equal; ring.
  - assert (P : focus_point (V 6 0 0) (l_surf l2) (l_surf l1) = Some (V 6 0 0)).
    { rewrite S1, S2. destruct (focus_point (V 6 0 0) (V (1 + 4) 0 0) (V (1 + 0) 0 0)) as [q|] eqn:E.
      - destruct (focus_point_spec _ _ _ _ E) as [k [-> [-> _]]]. f_equal.
        unfold on_line, sq, vsub, vadd, vscale, vlist. cbn [vx vy vz dot]. f_equal; field.
      - apply C68_closest_partial in E. destruct E as [E|E]; injection E; lra. }
    cbn [map]. unfold s2', focus_surface. cbn [s1 s2 s3 s_loc new_surface]. rewrite P. cbn [option_map l_surf].
    rewrite S1, S3. repeat f_equal; ring.
Qed.
