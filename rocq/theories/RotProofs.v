From Coq Require Import Reals List Bool ZArith Lra Lia Psatz.
From Verif Require Import Common GeoModel GeoSpec GeoProofs SurfModel SurfProofs RotSpec.
Import ListNotations.
Open Scope R_scope.

Lemma sc1 : forall t, sin t * sin t + cos t * cos t = 1.
Proof. intros t. pose proof (sin2_cos2 t) as H. cbn in H. lra. Qed.
Lemma dot_move : forall phi flip u v, dot (vlist (move phi flip u)) (vlist (move phi flip v)) = dot (vlist u) (vlist v).
Proof.
  intros phi flip [a b c] [d e f]. unfold vlist, move; cbn [vx vy vz dot].
  pose proof (sc1 phi) as H. set (s := sin phi) in *. set (k := cos phi) in *.
  assert (F : flipped flip c * flipped flip f = c * f) by (destruct flip; cbn; ring).
  replace ((k * a - s * b) * (k * d - s * e) + ((s * a + k * b) * (s * d + k * e) + (flipped flip c * flipped flip f + 0)))
    with ((a * d + b * e) * (s * s + k * k) + flipped flip c * flipped flip f) by ring.
  rewrite H, F. ring.
Qed.
Lemma norm_move : forall phi flip u, norm (vlist (move phi flip u)) = norm (vlist u).
Proof. intros. unfold norm. rewrite dot_move. reflexivity. Qed.
Lemma move_sub : forall phi flip u v, vsub (move phi flip u) (move phi flip v) = move phi flip (vsub u v).
Proof. intros phi flip [a b c] [d e f]. unfold vsub, move; cbn. f_equal; try ring. destruct flip; cbn; ring. Qed.
Lemma move_add : forall phi flip u v, vadd (move phi flip u) (move phi flip v) = move phi flip (vadd u v).
Proof. intros phi flip [a b c] [d e f]. unfold vadd, move; cbn. f_equal; try ring. destruct flip; cbn; ring. Qed.
Lemma move_scale : forall phi flip q u, vscale q (move phi flip u) = move phi flip (vscale q u).
Proof. intros phi flip q [a b c]. unfold vscale, move; cbn. f_equal; try ring. destruct flip; cbn; ring. Qed.
Lemma move_mix : forall phi flip q u v, vmix q (move phi flip u) (move phi flip v) = move phi flip (vmix q u v).
Proof. intros phi flip q [a b c] [d e f]. unfold vmix, mix, move; cbn. f_equal; try ring. destruct flip; cbn; ring. Qed.
Lemma angle_move : forall phi flip u v,
  angle_between (vlist (move phi flip u)) (vlist (move phi flip v)) = angle_between (vlist u) (vlist v).
Proof. intros. unfold angle_between. rewrite !norm_move, dot_move. reflexivity. Qed.
Lemma move_0 : forall phi flip, move phi flip (V 0 0 0) = V 0 0 0.
Proof. intros. unfold move; cbn. f_equal; try ring. destruct flip; cbn; ring. Qed.

(** * Turns *)
Lemma turn_refl : forall x, same_turn x x.
Proof. intros x. exists 0%Z. rewrite Rmult_0_l. ring. Qed.
Lemma turn_sym : forall x y, same_turn x y -> same_turn y x.
Proof. intros x y (n & ->). exists (- n)%Z. rewrite opp_IZR. ring. Qed.
Lemma turn_trans : forall x y z, same_turn x y -> same_turn y z -> same_turn x z.
Proof. intros x y z (n & ->) (m & ->). exists (n + m)%Z. rewrite plus_IZR. ring. Qed.
Lemma turn_add : forall x y z, same_turn x y -> same_turn (x + z) (y + z).
Proof. intros x y z (n & ->). exists n. ring. Qed.
Lemma turn_cos_sin : forall x y, same_turn x y -> cos x = cos y /\ sin x = sin y.
Proof.
  intros x y (n & ->).
  assert (P : forall m t, cos (t + INR m * (2 * PI)) = cos t /\ sin (t + INR m * (2 * PI)) = sin t).
  { intros m t. pose proof (cos_period t m) as C. pose proof (sin_period t m) as S.
    replace (t + INR m * (2 * PI)) with (t + 2 * INR m * PI) by ring. auto. }
  destruct (Z_le_gt_dec 0 n) as [H|H].
  - replace (IZR n) with (INR (Z.to_nat n)) by (rewrite INR_IZR_INZ, Z2Nat.id by lia; reflexivity). apply P.
  - destruct (P (Z.to_nat (- n)) (y + IZR n * (2 * PI))) as (A & B).
    rewrite INR_IZR_INZ, Z2Nat.id in A, B by lia. rewrite opp_IZR in A, B.
    replace (y + IZR n * (2 * PI) + - IZR n * (2 * PI)) with y in * by ring. auto.
Qed.
Lemma cos_sin_turn : forall x y, cos x = cos y -> sin x = sin y -> same_turn x y.
Proof.
  intros x y C S.
  assert (H : cos (x - y) = 1). { rewrite cos_minus, C, S. pose proof (sc1 y). lra. }
  assert (D : sin ((x - y) / 2) = 0).
  { replace (x - y) with (2 * ((x - y) / 2)) in H by lra. rewrite cos_2a_sin in H.
    assert (sin ((x - y) / 2) * sin ((x - y) / 2) = 0) by lra. nra. }
  apply sin_eq_0_0 in D. destruct D as (n & D). exists n. lra.
Qed.
Lemma rmod_turn : forall x, same_turn (rmod x (2 * PI)) x.
Proof. intros x. unfold rmod. exists (- Int_part (x / (2 * PI)))%Z. rewrite opp_IZR. ring. Qed.

(** * Conversions *)
Lemma sin_flip : forall flip x, sin (flipped flip x) = flipped flip (sin x).
Proof. intros [|] x; cbn; [apply sin_neg|reflexivity]. Qed.
Lemma cos_flip : forall flip x, cos (flipped flip x) = cos x.
Proof. intros [|] x; cbn; [apply cos_neg|reflexivity]. Qed.
Lemma flip_sq : forall flip x, flipped flip x ^ 2 = x ^ 2.
Proof. intros [|] x; cbn; ring. Qed.
Lemma lla2ecef_move : forall phi flip k p q, moved_lla phi flip p q ->
  lla2ecef k false q = move phi flip (lla2ecef k false p).
Proof.
  intros phi flip k [lat lon alt] [lat' lon' alt'] (A & B & C). cbn [vx vy vz] in *. subst lat' alt'.
  destruct (turn_cos_sin _ _ B) as (C1 & S1). rewrite cos_plus in C1. rewrite sin_plus in S1.
  unfold lla2ecef, move. cbn [vx vy vz]. rewrite C1, S1, sin_flip, cos_flip.
  set (f := (k_major k - k_minor k) / k_major k). set (e := sqrt (f * (2 - f))).
  replace ((e * flipped flip (sin lat)) ^ 2) with ((e * sin lat) ^ 2)
    by (rewrite !Rpow_mult_distr, flip_sq; reflexivity).
  f_equal; try ring. destruct flip; cbn; ring.
Qed.
Lemma lla_up : forall phi flip p q h, moved_lla phi flip p q ->
  moved_lla phi flip (V (vx p) (vy p) (vz p - h)) (V (vx q) (vy q) (vz q - h)).
Proof. intros phi flip p q h (A & B & C). unfold moved_lla; cbn. rewrite C. auto. Qed.

Lemma circle_move : forall phi flip v, vx (move phi flip v) ^ 2 + vy (move phi flip v) ^ 2 = vx v ^ 2 + vy v ^ 2.
Proof.
  intros phi flip [a b c]. unfold move; cbn [vx vy vz]. pose proof (sc1 phi) as H.
  replace ((cos phi * a - sin phi * b) ^ 2 + (sin phi * a + cos phi * b) ^ 2)
    with ((a ^ 2 + b ^ 2) * (sin phi * sin phi + cos phi * cos phi)) by ring. rewrite H. ring.
Qed.
Lemma atan2_pos : forall flip y x, 0 < x -> atan2 (flipped flip y) x = flipped flip (atan2 y x).
Proof.
  intros [|] y x H; [|reflexivity]. unfold atan2. destruct (Rlt_dec 0 x); [|lra]. cbn.
  replace (- y / x) with (- (y / x)) by (field; lra). apply atan_opp.
Qed.
Lemma atan2_flip : forall flip y x, y <> 0 \/ 0 <= x -> atan2 (flipped flip y) x = flipped flip (atan2 y x).
Proof.
  intros flip y x H. destruct (Rlt_dec 0 x) as [X|X]; [apply atan2_pos; exact X|]. destruct flip; [|reflexivity].
  cbn [flipped]. unfold atan2. destruct (Rlt_dec 0 x); [lra|]. destruct (Rlt_dec x 0) as [X0|X0].
  - assert (Y : y <> 0) by (destruct H; [assumption|lra]).
    replace (- y / x) with (- (y / x)) by (field; lra). rewrite atan_opp.
    destruct (Rle_dec 0 y), (Rle_dec 0 (- y)); lra.
  - destruct (Rlt_dec 0 y), (Rlt_dec 0 (- y)), (Rlt_dec y 0), (Rlt_dec (- y) 0); lra.
Qed.
Lemma atan2_sign : forall y x, 0 < x -> (0 < y -> 0 < atan2 y x) /\ (y < 0 -> atan2 y x < 0) /\ (y = 0 -> atan2 y x = 0).
Proof.
  intros y x X. unfold atan2. destruct (Rlt_dec 0 x); [|lra]. pose proof (Rinv_0_lt_compat x X). split; [|split].
  - intros Y. rewrite <- atan_0. apply atan_increasing. unfold Rdiv. nra.
  - intros Y. rewrite <- atan_0. apply atan_increasing. unfold Rdiv. nra.
  - intros ->. unfold Rdiv. rewrite Rmult_0_l. apply atan_0.
Qed.
Lemma atan2_half : forall y x, 0 < x -> - (PI / 2) < atan2 y x < PI / 2.
Proof. intros y x X. unfold atan2. destruct (Rlt_dec 0 x); [|lra]. pose proof (atan_bound (y / x)). lra. Qed.

Lemma lat_move : forall phi flip k v, ellipsoid k -> clear k v ->
  lat_of (k_major k) (1 - k_flat k) (move phi flip v) = flipped flip (lat_of (k_major k) (1 - k_flat k) v).
Proof.
  intros phi flip k v (A & F) (N & D). unfold lat_of. rewrite circle_move. cbn [move vx vy vz].
  set (p := sqrt (vx v ^ 2 + vy v ^ 2)) in *. set (a := k_major k) in *. set (q := 1 - k_flat k) in *.
  assert (Q : 0 < q <= 1) by (unfold q; lra).
  assert (P : 0 < p) by (apply sqrt_lt_R0; lra).
  assert (X : 0 < q * a * p) by (repeat apply Rmult_lt_0_compat; lra).
  set (z := vz v) in *.
  assert (T : atan2 (a * flipped flip z) (q * a * p) = flipped flip (atan2 (a * z) (q * a * p))).
  { rewrite <- atan2_pos by exact X. f_equal. destruct flip; cbn; ring. }
  rewrite T, sin_flip, cos_flip. set (th := atan2 (a * z) (q * a * p)) in *.
  replace (flipped flip z + (1 - q ^ 2) / q * a * flipped flip (sin th) ^ 3)
    with (flipped flip (z + (1 - q ^ 2) / q * a * sin th ^ 3)) by (destruct flip; cbn; ring).
  apply atan2_flip.
  destruct (atan2_sign (a * z) (q * a * p) X) as (S1 & S2 & S3). fold th in S1, S2, S3.
  pose proof (atan2_half (a * z) (q * a * p) X) as HB. fold th in HB.
  assert (G : 0 <= (1 - q ^ 2) / q * a).
  { apply Rmult_le_pos; [|lra]. apply Rmult_le_pos; [nra|]. left. apply Rinv_0_lt_compat. lra. }
  destruct (Req_dec z 0) as [Z|Z].
  - right. rewrite S3 by (rewrite Z; ring). rewrite cos_0. destruct D as [D|D]; [exfalso; apply D; exact Z|]. lra.
  - left. destruct (Rlt_dec 0 z) as [Zp|Zp].
    + assert (0 < th) by (apply S1; nra). assert (0 < sin th) by (apply sin_gt_0; lra).
      assert (0 < sin th ^ 3) by (apply pow_lt; assumption). nra.
    + assert (Zn : z < 0) by lra. assert (th < 0) by (apply S2; nra).
      assert (sin th < 0) by (apply sin_lt_0_var; lra).
      assert (0 < (- sin th) ^ 3) by (apply pow_lt; lra). replace (sin th ^ 3) with (- (- sin th) ^ 3) by ring. nra.
Qed.
Lemma lon_move : forall phi flip v, 0 < vx v ^ 2 + vy v ^ 2 ->
  same_turn (atan2 (vy (move phi flip v)) (vx (move phi flip v))) (atan2 (vy v) (vx v) + phi).
Proof.
  intros phi flip v H.
  assert (NZ : forall u, 0 < vx u ^ 2 + vy u ^ 2 -> (vx u, vy u) <> (0, 0)) by (intros u U E; injection E as E1 E2; rewrite E1, E2 in U; lra).
  pose proof (circle_move phi flip v) as M.
  destruct (atan2_polar (vy v) (vx v) (NZ v H)) as (C & S & _).
  destruct (atan2_polar (vy (move phi flip v)) (vx (move phi flip v)) (NZ (move phi flip v) ltac:(lra))) as (C' & S' & _).
  rewrite M in C', S'. set (r := sqrt (vx v ^ 2 + vy v ^ 2)) in *.
  assert (R0 : 0 < r) by (apply sqrt_lt_R0; lra).
  set (t := atan2 (vy v) (vx v)) in *.
  apply cos_sin_turn; apply (Rmult_eq_reg_l r); try lra.
  - rewrite C'. cbn [move vx]. rewrite cos_plus, <- C, <- S. ring.
  - rewrite S'. cbn [move vy]. rewrite sin_plus, <- C, <- S. ring.
Qed.
Lemma not_near : forall v, 2 <= vx v ^ 2 + vy v ^ 2 -> near_axis v = false.
Proof.
  intros v H. destruct (near_axis v) eqn:E; [|reflexivity]. apply near_axis_spec in E. destruct E as (A & B).
  exfalso. rewrite <- (pow2_abs (vx v)), <- (pow2_abs (vy v)) in H.
  pose proof (Rabs_pos (vx v)). pose proof (Rabs_pos (vy v)). nra.
Qed.
Lemma ecef2lla_move : forall phi flip k v, ellipsoid k -> clear k v ->
  moved_lla phi flip (ecef2lla k v) (ecef2lla k (move phi flip v)).
Proof.
  intros phi flip k v E Cl. pose proof Cl as (N & D). pose proof E as (A & F).
  unfold ecef2lla. rewrite !raw_eq by assumption.
  rewrite !not_near by (rewrite ?circle_move; exact N). cbv zeta.
  rewrite lat_move by assumption. rewrite circle_move, cos_flip, sin_flip, flip_sq.
  unfold moved_lla. cbn [vx vy vz]. split; [reflexivity|]. split; [|reflexivity].
  eapply turn_trans; [apply rmod_turn|]. eapply turn_trans; [apply lon_move; lra|].
  apply turn_add, turn_sym, rmod_turn.
Qed.

(** * Surfaces *)
Lemma normalize_turn : forall fuel x y, normalize fuel PI x = Some y -> same_turn y x.
Proof.
  intros fuel x y H. destruct (normalize_ends PI x PI_RGT_0) as (r & (f & N) & _ & (n & R) & _).
  assert (y = r) by (apply (normalizes_unique PI x); [exists fuel; exact H|exists f; exact N]). subst y.
  exists n. exact R.
Qed.
Lemma normalize_id : forall n x, - PI <= x <= PI -> normalize (S n) PI x = Some x.
Proof.
  intros n x H. unfold normalize. cbn [turn_up]. destruct (Rlt_dec x (- PI)); [lra|].
  cbn [turn_down]. destruct (Rlt_dec PI x); [lra|]. reflexivity.
Qed.
Lemma flipped_range : forall flip x, - PI <= x <= PI -> - PI <= flipped flip x <= PI.
Proof. intros [|] x H; cbn; lra. Qed.

Section Moved.
Variables (phi : R) (flip : bool).
Notation mv := (move phi flip).

Lemma locate_moved : forall k b b', moved_record phi flip b b' ->
  moved_burst phi flip (locate_burst k b) (locate_burst k b').
Proof.
  intros k b b' (L & E1 & E2 & E3 & E4 & E5 & E6 & E7 & E8 & E9 & E10). unfold moved_burst, moved_record, locate_burst; cbn.
  split; [repeat (split; [assumption|]); assumption|]. split.
  - apply lla2ecef_move. exact L.
  - rewrite E3. apply lla2ecef_move. apply lla_up. exact L.
Qed.

Lemma first_moved : forall k fuel old old' b b', k_pi k = PI -> same_memory old old' ->
  moved_burst phi flip b b' -> plain_angles fuel b -> plain_angles fuel b' ->
  both (moved_loc phi flip) (first_location k fuel old b) (first_location k fuel old' b').
Proof.
  intros k fuel old old' b b' KP (M1 & M2 & M3 & M4) ((L & E1 & E2 & E3 & E4 & E5 & E6 & E7 & E8 & E9 & E10) & S1 & S2) (A & N) (A' & N').
  unfold first_location. rewrite KP. destruct fuel as [|n]; [exact I|].
  rewrite (normalize_id n _ A), (normalize_id n _ A').
  destruct (normalize (S n) PI (vy (b_lla b))) as [lon|] eqn:Q; [|contradiction].
  destruct (normalize (S n) PI (vy (b_lla b'))) as [lon'|] eqn:Q'; [|contradiction].
  apply normalize_turn in Q. apply normalize_turn in Q'.
  assert (ML : moved_lla phi flip (V (vx (b_lla b)) lon (vz (b_lla b) - b_wd b * k_c k / 2))
                 (V (vx (b_lla b')) lon' (vz (b_lla b') - b_wd b' * k_c k / 2))).
  { destruct L as (L1 & L2 & L3). unfold moved_lla; cbn. rewrite L3, E3. split; [exact L1|]. split; [|reflexivity].
    eapply turn_trans; [exact Q'|]. eapply turn_trans; [exact L2|]. apply turn_add, turn_sym, Q. }
  unfold both, moved_loc; cbn [l_time l_surf l_surf_lla l_sat l_sat_lla l_vel l_rate l_roll l_pitch l_yaw l_wd l_prev_tai l_prev_days l_prev_secs l_day]. rewrite (lla2ecef_move _ _ _ _ _ ML).
  repeat (split; [first [reflexivity|assumption]|]). assumption.
Qed.

Lemma mix_same : forall a p c p' c', p' = p -> c' = c -> mix a p' c' = mix a p c.
Proof. intros; subst; reflexivity. Qed.
Lemma between_moved : forall k a p c p' c', ellipsoid k -> moved_burst phi flip p p' -> moved_burst phi flip c c' ->
  clear k (l_surf (between k a p c)) -> clear k (l_sat (between k a p c)) ->
  moved_loc phi flip (between k a p c) (between k a p' c').
Proof.
  intros k a p c p' c' E ((Lp & P1 & P2 & P3 & P4 & P5 & P6 & P7 & P8 & P9 & P10) & SP & GP)
    ((Lc & C1 & C2 & C3 & C4 & C5 & C6 & C7 & C8 & C9 & C10) & SC & GC) K1 K2.
  unfold between in *. cbn [l_surf l_sat] in K1, K2. unfold moved_loc. cbn [l_time l_surf l_surf_lla l_sat l_sat_lla l_vel l_rate l_roll l_pitch l_yaw l_wd l_prev_tai l_prev_days l_prev_secs l_day].
  rewrite SP, GP, SC, GC, P1, C1, !move_mix, P2, C2, P4, C4, P5, C5, P6, C6, P7, C7, P8, P9, P10, C10.
  pose proof (ecef2lla_move phi flip k _ E K1) as M1. pose proof (ecef2lla_move phi flip k _ E K2) as M2.
  do 3 (split; [reflexivity|]). split; [exact M1|]. split; [exact M2|].
  destruct M1 as (_ & _ & H1). destruct M2 as (_ & _ & H2). rewrite H1, H2. repeat split; reflexivity.
Qed.

Lemma angle_to_moved : forall s s' b b', moved_surface phi flip s s' -> moved_burst phi flip b b' -> angle_to s' b' = angle_to s b.
Proof.
  intros s s' b b' (_ & L & D & _) (_ & _ & G). unfold angle_to. destruct (s_loc s) as [l|], (s_loc s') as [l'|]; try contradiction; [|reflexivity].
  destruct L as (_ & L2 & _). rewrite D, G, L2, move_sub. apply angle_move.
Qed.

Lemma find_moved : forall k s s' p p' c c', ellipsoid k -> moved_surface phi flip s s' ->
  moved_burst phi flip p p' -> moved_burst phi flip c c' ->
  (forall l, find_new_location k s p c = Some (Some l) -> clear k (l_surf l) /\ clear k (l_sat l)) ->
  both (both (moved_loc phi flip)) (find_new_location k s p c) (find_new_location k s' p' c').
Proof.
  intros k s s' p p' c c' E S P C K. unfold find_new_location in *.
  rewrite (angle_to_moved s s' p p' S P), (angle_to_moved s s' c c' S C).
  destruct S as (_ & _ & _ & SR & _). rewrite SR. destruct (flt (angle_to s c) (s_res s)); [exact I|].
  destruct (weight (s_res s) (angle_to s p) (angle_to s c)) as [a|]; [|exact I]. cbn.
  destruct (K _ eq_refl) as (K1 & K2). apply between_moved; assumption.
Qed.

Lemma focus_point_moved : forall t f p, focus_point (mv t) (mv f) (mv p) = option_map mv (focus_point t f p).
Proof.
  intros t f p. unfold focus_point. rewrite !move_sub, !norm_move.
  destruct (Req_EM_T (norm (vlist (vsub f p))) 0); [reflexivity|].
  destruct (Req_EM_T (norm (vlist (vsub t p))) 0); [reflexivity|].
  cbn [option_map]. rewrite !move_scale, dot_move, move_add. reflexivity.
Qed.

Lemma focus_surface_moved : forall k t s s' p p', ellipsoid k -> moved_surface phi flip s s' -> moved_surface phi flip p p' ->
  (forall l, s_loc (focus_surface k t s p) = Some l -> clear k (l_surf l)) ->
  moved_surface phi flip (focus_surface k t s p) (focus_surface k (mv t) s' p').
Proof.
  intros k t s s' p p' E (S1 & SL & S2 & S3 & S4 & S5) (P1 & PL & P2 & P3 & P4 & P5) K.
  unfold moved_surface, focus_surface in *; cbn [s_uid s_loc s_dir s_res s_dist s_focused] in *.
  split; [exact S1|]. split; [|repeat split; assumption].
  destruct (s_loc s) as [l|], (s_loc s') as [l'|]; try contradiction; [|exact I].
  destruct (s_loc p) as [lp|], (s_loc p') as [lp'|]; try contradiction; [|exact I].
  cbn [both] in SL, PL. destruct SL as (L1 & L2 & L3 & L4 & L5 & L6 & L7 & L8 & L9 & L10 & L11 & L12 & L13 & L14 & L15). destruct PL as (Q1 & _).
  rewrite L1, Q1, focus_point_moved. destruct (focus_point t (l_surf l) (l_surf lp)) as [q|]; [|exact I].
  cbn [option_map both]. specialize (K _ eq_refl). cbn [l_surf] in K.
  pose proof (ecef2lla_move phi flip k q E K) as M.
  unfold moved_loc; cbn [l_time l_surf l_surf_lla l_sat l_sat_lla l_vel l_rate l_roll l_pitch l_yaw l_wd l_prev_tai l_prev_days l_prev_secs l_day]. split; [reflexivity|]. do 2 (split; [assumption|]). split; [exact M|]. split; [assumption|].
  destruct M as (_ & _ & M3). destruct L5 as (_ & _ & L53). rewrite M3, L53.
  repeat (split; [first [assumption|reflexivity]|]). assumption.
Qed.

Lemma new_surface_moved : forall g uid l l', both (moved_loc phi flip) l l' ->
  moved_surface phi flip (new_surface g uid l) (new_surface (moved_settings phi flip g) uid l').
Proof.
  intros g uid l l' H. unfold moved_surface, new_surface; cbn. split; [reflexivity|]. split; [exact H|].
  destruct l as [l|], l' as [l'|]; try contradiction; cbn in H.
  - destruct H as (L1 & L2 & L3 & _). split; [rewrite L1, L2, move_sub; reflexivity|].
    split; [unfold resolution; cbn; rewrite L3, norm_move; reflexivity|].
    split; [|reflexivity]. cbn. rewrite L1, move_sub, norm_move. reflexivity.
  - split; [rewrite move_0; reflexivity|]. repeat split; reflexivity.
Qed.

Lemma focus_moved : forall g found ss ss' d, ellipsoid (g_k g) -> Forall2 (moved_surface phi flip) ss ss' ->
  (forall s l, In s (snd (focus g found ss d)) -> s_loc s = Some l -> clear (g_k g) (l_surf l)) ->
  fst (focus (moved_settings phi flip g) found ss' d) = fst (focus g found ss d) /\
  Forall2 (moved_surface phi flip) (snd (focus g found ss d)) (snd (focus (moved_settings phi flip g) found ss' d)).
Proof.
  intros g found ss ss' d E F K. unfold focus in *. cbn [g_focus g_k g_target moved_settings] in *.
  destruct (g_focus g && negb found); [|split; [reflexivity|exact F]].
  assert (FR : Forall2 (moved_surface phi flip) (rev ss) (rev ss')).
  { clear -F. induction F; cbn; [constructor|]. apply Forall2_app; [assumption|]. constructor; [assumption|constructor]. }
  destruct FR as [|s s' r r' H1 FR]; [split; [reflexivity|exact F]|].
  destruct FR as [|p p' r r' H2 FR]; [split; [reflexivity|exact F]|].
  pose proof H1 as (_ & _ & _ & _ & HD & _). rewrite HD. destruct (flt (s_dist s) d); [|split; [reflexivity|exact F]].
  split; [reflexivity|]. cbn [snd] in *.
  assert (RV : forall (A B : Type) (R : A -> B -> Prop) x y, Forall2 R x y -> Forall2 R (rev x) (rev y)).
  { clear. intros A B R x y F. induction F; cbn; [constructor|]. apply Forall2_app; [assumption|]. constructor; [assumption|constructor]. }
  apply RV. constructor; [|constructor; assumption].
  apply focus_surface_moved; try assumption. intros l Hl. apply (K (focus_surface (g_k g) (g_target g) s p) l); [|exact Hl].
  apply -> in_rev. left. reflexivity.
Qed.

Lemma last1_moved : forall A B (R : A -> B -> Prop) l l', Forall2 R l l' -> both R (last1 l) (last1 l').
Proof.
  intros A B R l l' F. unfold last1.
  assert (FR : Forall2 R (rev l) (rev l')).
  { induction F; cbn; [constructor|]. apply Forall2_app; [assumption|]. constructor; [assumption|constructor]. }
  destruct FR; cbn; [exact I|assumption].
Qed.

Lemma step_moved : forall g fuel force b b' t t', ellipsoid (g_k g) -> k_pi (g_k g) = PI ->
  moved_state phi flip t t' -> moved_burst phi flip b b' -> plain_angles fuel b -> plain_angles fuel b' ->
  clear_state (g_k g) (fst (step_burst g fuel force b t)) ->
  moved_state phi flip (fst (step_burst g fuel force b t)) (fst (step_burst (moved_settings phi flip g) fuel force b' t')) /\
  snd (step_burst (moved_settings phi flip g) fuel force b' t') = snd (step_burst g fuel force b t).
Proof.
  intros g fuel force b b' t t' E KP (T1 & T2 & T3 & T4 & T5) B A A' K.
  assert (BS : Forall2 (moved_burst phi flip) (t_bursts t ++ [b]) (t_bursts t' ++ [b']))
    by (apply Forall2_app; [assumption|constructor; [assumption|constructor]]).
  assert (LS : both (moved_surface phi flip) (if force then None else last1 (t_surfs t)) (if force then None else last1 (t_surfs t')))
    by (destruct force; [exact I|apply last1_moved; exact T3]).
  unfold step_burst in *. cbn [g_k moved_settings] in *.
  assert (CR : forall l l', both (moved_loc phi flip) l l' ->
    let c g t b l := let s := new_surface g (t_next t) l in
      let '(fo, ss) := focus g (t_found t) (t_surfs t) (s_dist s) in
      {| t_found := fo; t_last := match l with Some l => l | None => t_last t end;
         t_surfs := ss ++ [s]; t_bursts := t_bursts t ++ [b]; t_next := S (t_next t) |} in
    clear_state (g_k g) (c g t b l) -> moved_state phi flip (c g t b l) (c (moved_settings phi flip g) t' b' l')).
  { intros l l' H c KC. subst c. cbv beta in *.
    pose proof (new_surface_moved g (t_next t) l l' H) as NS. rewrite T1, T5.
    set (s := new_surface g (t_next t) l) in *. set (s' := new_surface (moved_settings phi flip g) (t_next t) l') in *.
    cbv zeta in *. pose proof NS as (_ & _ & _ & _ & SD & _). rewrite SD.
    assert (FM := focus_moved g (t_found t) (t_surfs t) (t_surfs t') (s_dist s) E T3).
    destruct (focus g (t_found t) (t_surfs t) (s_dist s)) as [fo ss].
    destruct (focus (moved_settings phi flip g) (t_found t) (t_surfs t') (s_dist s)) as [fo' ss'].
    cbn [fst snd] in FM. destruct FM as (F1 & F2).
    { intros x lx Ix Lx. apply (KC x lx); [cbn; apply in_or_app; left; exact Ix|exact Lx]. }
    unfold moved_state; cbn. split; [exact F1|]. split.
    { destruct l as [l|], l' as [l'|]; try contradiction; [|exact T2].
      destruct H as (_ & _ & _ & _ & _ & _ & _ & _ & _ & _ & _ & H1 & H2 & H3 & H4). repeat split; assumption. }
    split; [apply Forall2_app; [exact F2|constructor; [exact NS|constructor]]|]. split; [exact BS|reflexivity]. }
  assert (KE : moved_state phi flip
     {| t_found := t_found t; t_last := t_last t; t_surfs := t_surfs t; t_bursts := t_bursts t ++ [b]; t_next := t_next t |}
     {| t_found := t_found t'; t_last := t_last t'; t_surfs := t_surfs t'; t_bursts := t_bursts t' ++ [b']; t_next := t_next t' |})
    by (unfold moved_state; cbn; repeat (split; [assumption|]); assumption).
  destruct (if force then None else last1 (t_surfs t)) as [s|], (if force then None else last1 (t_surfs t')) as [s'|]; try contradiction.
  - rewrite !last2_app in *. pose proof (last1_moved _ _ _ _ _ T4) as LB.
    destruct (last1 (t_bursts t)) as [p|], (last1 (t_bursts t')) as [p'|]; try contradiction; cbn [option_map] in *;
      [|split; [exact KE|reflexivity]].
    cbn [both] in LB, LS.
    assert (FN := find_moved (g_k g) s s' p p' b b' E LS LB B).
    destruct (find_new_location (g_k g) s p b) as [l|] eqn:Q.
    + assert (FC : forall l0, Some l = Some (Some l0) -> clear (g_k g) (l_surf l0) /\ clear (g_k g) (l_sat l0)).
      { intros l0 X. injection X as ->. cbn [fst] in K. apply (K (new_surface g (t_next t) (Some l0)) l0); [|reflexivity].
        destruct (focus g (t_found t) (t_surfs t) _) as [fo ss]. cbn. apply in_or_app. right. left. reflexivity. }
      specialize (FN FC). destruct (find_new_location (g_k g) s' p' b') as [l'|]; [|contradiction]. cbn [both] in FN.
      split; [|reflexivity]. cbn [fst] in *. apply CR; assumption.
    + specialize (FN ltac:(discriminate)). destruct (find_new_location (g_k g) s' p' b'); [contradiction|].
      split; [exact KE|reflexivity].
  - assert (FL := first_moved (g_k g) fuel (t_last t) (t_last t') b b' KP T2 B A A').
    destruct (first_location (g_k g) fuel (t_last t) b) as [l|], (first_location (g_k g) fuel (t_last t') b') as [l'|]; try contradiction.
    + split; [|reflexivity]. cbn [fst] in *. apply (CR (Some l) (Some l')); assumption.
    + split; [exact KE|reflexivity].
Qed.
Lemma skipn_moved : forall A B (R : A -> B -> Prop) n l l', Forall2 R l l' -> Forall2 R (skipn n l) (skipn n l').
Proof. induction n; intros l l' F; [exact F|]. destruct F; cbn; [constructor|auto]. Qed.
Lemma op_moved : forall g fuel o o' t t', ellipsoid (g_k g) -> k_pi (g_k g) = PI ->
  moved_state phi flip t t' -> moved_op phi flip o o' -> plain_op fuel o -> plain_op fuel o' ->
  clear_state (g_k g) (run_op g fuel o t) ->
  moved_state phi flip (run_op g fuel o t) (run_op (moved_settings phi flip g) fuel o' t').
Proof.
  intros g fuel o o' t t' E KP T O P P' K. destruct o as [f b| |n], o' as [f' b'| |n']; try contradiction; cbn in *.
  - destruct O as (<- & B). apply step_moved; assumption.
  - destruct T as (T1 & T2 & T3 & T4 & T5). unfold moved_state; cbn. repeat (split; [first [assumption|destruct T3; [constructor|assumption]]|]). assumption.
  - subst n'. destruct T as (T1 & T2 & T3 & T4 & T5). unfold moved_state; cbn.
    repeat (split; [first [assumption|apply skipn_moved; assumption]|]). assumption.
Qed.
End Moved.
