(** The same scene elsewhere: turned about the polar axis by [phi] and, with
    [flip], mirrored at the equator. *)
From Coq Require Import Reals List Bool ZArith.
From Verif Require Import Common GeoModel SurfModel.
From Verif Require GcorrModel PointModel.
Import ListNotations.
Open Scope R_scope.

Definition flipped (flip : bool) (x : R) : R := if flip then - x else x.
Definition move (phi : R) (flip : bool) (v : vec) : vec :=
  V (cos phi * vx v - sin phi * vy v) (sin phi * vx v + cos phi * vy v) (flipped flip (vz v)).
(** Angles that differ by full turns. *)
Definition same_turn (x y : R) : Prop := exists n : Z, x = y + IZR n * (2 * PI).
(** (latitude, longitude, altitude) *)
Definition moved_lla (phi : R) (flip : bool) (p q : vec) : Prop :=
  vx q = flipped flip (vx p) /\ same_turn (vy q) (vy p + phi) /\ vz q = vz p.
(** Clear of the axis, where the code changes to another formula, and of the
    centre of the Earth (equatorial points deeper than the evolute). *)
Definition clear (k : consts) (v : vec) : Prop :=
  2 <= vx v ^ 2 + vy v ^ 2 /\
  (vz v <> 0 \/ (1 - (1 - k_flat k) ^ 2) * k_major k <= sqrt (vx v ^ 2 + vy v ^ 2)).
Definition ellipsoid (k : consts) : Prop := 0 < k_major k /\ 0 <= k_flat k < 1.

(** Bursts as recorded (position in latitude, longitude, altitude and the
    velocity; Cartesian positions are computed from them), and bursts with
    their Cartesian positions. *)
Definition moved_record (phi : R) (flip : bool) (b b' : burst) : Prop :=
  moved_lla phi flip (b_lla b) (b_lla b') /\ b_vel b' = move phi flip (b_vel b) /\
  b_time b' = b_time b /\ b_wd b' = b_wd b /\ b_rate b' = b_rate b /\
  b_roll b' = b_roll b /\ b_pitch b' = b_pitch b /\ b_yaw b' = b_yaw b /\
  b_days b' = b_days b /\ b_secs b' = b_secs b /\ b_leap b' = b_leap b.
Definition moved_burst (phi : R) (flip : bool) (b b' : burst) : Prop :=
  moved_record phi flip b b' /\
  b_sat b' = move phi flip (b_sat b) /\ b_surf b' = move phi flip (b_surf b).
Definition moved_op (phi : R) (flip : bool) (o o' : op) : Prop :=
  match o, o' with
  | Burst f b, Burst f' b' => f = f' /\ moved_burst phi flip b b'
  | DropSurface, DropSurface => True
  | DropBursts n, DropBursts n' => n = n'
  | _, _ => False
  end.
Definition moved_settings (phi : R) (flip : bool) (g : settings) : settings :=
  {| g_k := g_k g; g_focus := g_focus g; g_target := move phi flip (g_target g);
     g_freq := g_freq g; g_pulses := g_pulses g; g_pri := g_pri g |}.

(** Surfaces: positions and velocities moved; times, attitude, altitudes,
    window delays, resolutions and distances the same. *)
Definition moved_loc (phi : R) (flip : bool) (l l' : loc) : Prop :=
  l_surf l' = move phi flip (l_surf l) /\ l_sat l' = move phi flip (l_sat l) /\ l_vel l' = move phi flip (l_vel l) /\
  moved_lla phi flip (l_surf_lla l) (l_surf_lla l') /\ moved_lla phi flip (l_sat_lla l) (l_sat_lla l') /\
  l_time l' = l_time l /\ l_rate l' = l_rate l /\ l_roll l' = l_roll l /\ l_pitch l' = l_pitch l /\ l_yaw l' = l_yaw l /\
  l_wd l' = l_wd l /\ l_prev_tai l' = l_prev_tai l /\ l_prev_days l' = l_prev_days l /\
  l_prev_secs l' = l_prev_secs l /\ l_day l' = l_day l.
Definition both {A B} (r : A -> B -> Prop) (x : option A) (y : option B) : Prop :=
  match x, y with Some a, Some b => r a b | None, None => True | _, _ => False end.
Definition moved_surface (phi : R) (flip : bool) (s s' : surface) : Prop :=
  s_uid s' = s_uid s /\ both (moved_loc phi flip) (s_loc s) (s_loc s') /\ s_dir s' = move phi flip (s_dir s) /\
  s_res s' = s_res s /\ s_dist s' = s_dist s /\ s_focused s' = s_focused s.
(** The values of the surface before of which the next one makes use. *)
Definition same_memory (l l' : loc) : Prop :=
  l_prev_tai l' = l_prev_tai l /\ l_prev_days l' = l_prev_days l /\ l_prev_secs l' = l_prev_secs l /\ l_day l' = l_day l.
Definition moved_state (phi : R) (flip : bool) (t t' : st) : Prop :=
  t_found t' = t_found t /\ same_memory (t_last t) (t_last t') /\
  Forall2 (moved_surface phi flip) (t_surfs t) (t_surfs t') /\
  Forall2 (moved_burst phi flip) (t_bursts t) (t_bursts t') /\ t_next t' = t_next t.

(** All surfaces clear of the axis, as far as they are numbers. *)
Definition clear_state (k : consts) (t : st) : Prop :=
  forall s l, In s (t_surfs t) -> s_loc s = Some l -> clear k (l_surf l) /\ clear k (l_sat l).
(** The fuel suffices for the longitude, and the latitude is one. *)
Definition plain_angles (fuel : nat) (b : burst) : Prop :=
  - PI <= vx (b_lla b) <= PI /\ normalize fuel PI (vy (b_lla b)) <> None.
Definition plain_op (fuel : nat) (o : op) : Prop :=
  match o with Burst _ b => plain_angles fuel b | _ => True end.

(** The bursts of a stack and the surface, as geometry corrections see them. *)
Definition moved_obs (phi : R) (flip : bool) (o : PointModel.obs) : PointModel.obs :=
  let p := move phi flip (V (PointModel.b_x o) (PointModel.b_y o) (PointModel.b_z o)) in
  {| PointModel.b_x := vx p; PointModel.b_y := vy p; PointModel.b_z := vz p;
     PointModel.b_speed := PointModel.b_speed o; PointModel.b_pri := PointModel.b_pri o; PointModel.b_wd := PointModel.b_wd o;
     PointModel.b_t0 := PointModel.b_t0 o; PointModel.b_angles := PointModel.b_angles o; PointModel.b_pos := PointModel.b_pos o;
     PointModel.b_wfm := PointModel.b_wfm o |}.
Definition moved_gsurf (phi : R) (flip : bool) (s : GcorrModel.gsurf) : GcorrModel.gsurf :=
  let p := move phi flip (V (GcorrModel.sx s) (GcorrModel.sy s) (GcorrModel.sz s)) in
  {| GcorrModel.sx := vx p; GcorrModel.sy := vy p; GcorrModel.sz := vz p; GcorrModel.s_wd := GcorrModel.s_wd s |}.
