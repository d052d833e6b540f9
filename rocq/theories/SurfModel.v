(** Surface locations and focusing.  Definitions only. *)
From Coq Require Import Reals List Bool.
From Verif Require Import Common GeoModel.
Import ListNotations.
Open Scope R_scope.

(** The part of a burst used to locate surfaces
    (dedop/model/l1a_processing_data.py). *)
Record burst := {
  b_time : R;
  b_lla : vec;      (* lat_sar_sat, lon_sar_sat, alt_sar_sat *)
  b_wd : R;         (* win_delay_sar_ku *)
  b_sat : vec;      (* x/y/z_sar_sat *)
  b_surf : vec;     (* x/y/z_sar_surf *)
  b_vel : vec;
  b_rate : R; b_roll : R; b_pitch : R; b_yaw : R;
  b_days : R; b_secs : R; b_leap : R }.

(** dedop/model/l1a_processing_data.py:856-877, compute_location_sar_surf *)
Definition locate_burst (k : consts) (b : burst) : burst :=
  let l := b_lla b in
  {| b_time := b_time b; b_lla := l; b_wd := b_wd b;
     b_sat := lla2ecef k false l;
     b_surf := lla2ecef k false (V (vx l) (vy l) (vz l - b_wd b * k_c k / 2));
     b_vel := b_vel b; b_rate := b_rate b; b_roll := b_roll b; b_pitch := b_pitch b; b_yaw := b_yaw b;
     b_days := b_days b; b_secs := b_secs b; b_leap := b_leap b |}.

(** dedop/proc/sar/algorithms/surface_locations.py:17-41: the values found for
    a new surface *)
Record loc := {
  l_time : R;
  l_surf : vec; l_surf_lla : vec;
  l_sat : vec; l_sat_lla : vec;
  l_vel : vec;
  l_rate : R; l_roll : R; l_pitch : R; l_yaw : R;
  l_wd : R;
  l_prev_tai : R; l_prev_days : R; l_prev_secs : R; l_day : R }.

(** dedop/proc/sar/algorithms/surface_locations.py:84-124.  [old] are the
    values of the previous surface: those of lines 323-326 are kept.  [fuel]
    bounds the loops of normalize. *)
Definition first_location (k : consts) (fuel : nat) (old : loc) (b : burst) : option loc :=
  match normalize fuel (k_pi k) (vx (b_lla b)), normalize fuel (k_pi k) (vy (b_lla b)) with
  | Some lat, Some lon =>
      let lla := V lat lon (vz (b_lla b) - b_wd b * k_c k / 2) in
      Some {| l_time := b_time b;
              l_surf := lla2ecef k false lla; l_surf_lla := lla;
              l_sat := b_sat b; l_sat_lla := b_lla b;
              l_vel := b_vel b; l_rate := b_rate b;
              l_roll := b_roll b; l_pitch := b_pitch b; l_yaw := b_yaw b;
              l_wd := b_wd b;
              l_prev_tai := l_prev_tai old; l_prev_days := l_prev_days old;
              l_prev_secs := l_prev_secs old; l_day := l_day old |}
  | _, _ => None
  end.

(** prev + alpha * (curr - prev) *)
Definition mix (alpha p c : R) : R := p + alpha * (c - p).
Definition vmix (alpha : R) (p c : vec) : vec :=
  V (mix alpha (vx p) (vx c)) (mix alpha (vy p) (vy c)) (mix alpha (vz p) (vz c)).
(** dedop/proc/sar/algorithms/surface_locations.py:273-326 *)
Definition between (k : consts) (alpha : R) (p c : burst) : loc :=
  let surf := vmix alpha (b_surf p) (b_surf c) in
  let sat := vmix alpha (b_sat p) (b_sat c) in
  let surf_lla := ecef2lla k surf in
  let sat_lla := ecef2lla k sat in
  {| l_time := mix alpha (b_time p) (b_time c);
     l_surf := surf; l_surf_lla := surf_lla;
     l_sat := sat; l_sat_lla := sat_lla;
     l_vel := vmix alpha (b_vel p) (b_vel c);
     l_rate := mix alpha (b_rate p) (b_rate c);
     l_roll := mix alpha (b_roll p) (b_roll c);
     l_pitch := mix alpha (b_pitch p) (b_pitch c);
     l_yaw := mix alpha (b_yaw p) (b_yaw c);
     l_wd := (vz sat_lla - vz surf_lla) * 2 / k_c k;
     l_prev_tai := b_time p; l_prev_days := b_days p; l_prev_secs := b_secs p;
     l_day := k_day k + (b_leap c - b_leap p) |}.

(** A surface in the queue.  [s_loc = None]: its interpolated values are not
    numbers.  [s_dir] is surf_sat_vector, [s_res] the angular resolution,
    [s_dist] the distance to the focusing target, all computed when the surface
    is created.  [s_uid] identifies the surface object. *)
Record surface := {
  s_uid : nat; s_loc : option loc; s_dir : vec; s_res : option R;
  s_dist : option R; s_focused : bool }.

(** dedop/proc/sar/algorithms/surface_locations.py:244-252 and 256-264: the
    angle under which the ground point of a burst is seen from the surface's
    satellite position, measured from the surface *)
Definition angle_to (s : surface) (b : burst) : option R :=
  match s_loc s with
  | None => None
  | Some l => angle_between (vlist (s_dir s)) (vlist (vsub (b_surf b) (l_sat l)))
  end.
(** "<" on floating point numbers: false if one is not a number *)
Definition flt (x y : option R) : bool :=
  match x, y with
  | Some a, Some b => if Rlt_dec a b then true else false
  | _, _ => false
  end.
(** dedop/proc/sar/algorithms/surface_locations.py:268-270 *)
Definition weight (res ap ac : option R) : option R :=
  match res, ap, ac with
  | Some r, Some p, Some c => if Req_EM_T (c - p) 0 then None else Some ((r - p) / (c - p))
  | _, _, _ => None
  end.
(** dedop/proc/sar/algorithms/surface_locations.py:232-328.  [None]: no new
    surface; [Some None]: a new surface whose values are not numbers *)
Definition find_new_location (k : consts) (s : surface) (p c : burst) : option (option loc) :=
  let ac := angle_to s c in
  if flt ac (s_res s) then None
  else Some (match weight (s_res s) (angle_to s p) ac with
             | Some alpha => Some (between k alpha p c)
             | None => None
             end).

(** * Focusing *)

(** dedop/proc/sar/algorithms/surface_locations.py:150-166: the point the
    surface is moved to; [None]: not a number *)
Definition focus_point (target focus prior : vec) : option vec :=
  let along := vsub focus prior in
  let na := norm (vlist along) in
  let rel := vsub target prior in
  let nr := norm (vlist rel) in
  if Req_EM_T na 0 then None
  else if Req_EM_T nr 0 then None
  else let u := vscale (/ na) along in
       let cos_a := dot (vlist u) (vlist rel) / nr in
       Some (vadd prior (vscale (nr * cos_a) u)).
(** dedop/proc/sar/algorithms/surface_locations.py:126-182 *)
Definition focus_surface (k : consts) (target : vec) (s prior : surface) : surface :=
  {| s_uid := s_uid s;
     s_loc := match s_loc s, s_loc prior with
              | Some l, Some lp =>
                  match focus_point target (l_surf l) (l_surf lp) with
                  | Some q =>
                      let lla := ecef2lla k q in
                      Some {| l_time := l_time l; l_surf := q; l_surf_lla := lla;
                              l_sat := l_sat l; l_sat_lla := l_sat_lla l;
                              l_vel := l_vel l; l_rate := l_rate l;
                              l_roll := l_roll l; l_pitch := l_pitch l; l_yaw := l_yaw l;
                              l_wd := (vz (l_sat_lla l) - vz lla) * 2 / k_c k;
                              l_prev_tai := l_prev_tai l; l_prev_days := l_prev_days l;
                              l_prev_secs := l_prev_secs l; l_day := l_day l |}
                  | None => None
                  end
              | _, _ => None
              end;
     s_dir := s_dir s; s_res := s_res s; s_dist := s_dist s; s_focused := true |}.

(** dedop/proc/sar/algorithms/surface_locations.py:184-196 *)
Definition target_distance (target : vec) (l : option loc) : option R :=
  option_map (fun l => norm (vlist (vsub target (l_surf l)))) l.

(** Settings: the constants, flag_surface_focusing, the target
    (surface_focusing_lat/lon/alt, in radians, as a Cartesian point), and the
    angular resolution computed from the velocity. *)
Record settings := {
  g_k : consts; g_focus : bool; g_target : vec;
  g_freq : R; g_pulses : R; g_pri : R }.
Definition target_of (k : consts) (lla : vec) : vec := lla2ecef k false lla.

(** dedop/model/surface_data.py:1112-1118 *)
Definition resolution (g : settings) (vel : vec) : option R :=
  let d := 2 * g_freq g * norm (vlist vel) * g_pulses g * g_pri g in
  if Req_EM_T d 0 then None else arcsin (k_c (g_k g) / d).

(** dedop/proc/sar/processor.py:551-565 and
    dedop/proc/sar/algorithms/surface_locations.py:44-82,
    dedop/model/surface_data.py:1112-1123.  A direction that is not a number is
    kept as zero; it is only used if [s_loc] is a number. *)
Definition new_surface (g : settings) (uid : nat) (l : option loc) : surface :=
  {| s_uid := uid; s_loc := l;
     s_dir := match l with Some l => vsub (l_surf l) (l_sat l) | None => V 0 0 0 end;
     s_res := match l with Some l => resolution g (l_vel l) | None => None end;
     s_dist := target_distance (g_target g) l;
     s_focused := false |}.

(** State: the algorithm (focus_found, the values of the last surface found),
    the queues and the number of surfaces created.  The processor keeps the
    algorithm object over several inputs. *)
Record st := {
  t_found : bool; t_last : loc;
  t_surfs : list surface; t_bursts : list burst; t_next : nat }.

Definition last2 {A} (l : list A) : option (A * A) :=
  match rev l with
  | y :: x :: _ => Some (x, y)
  | _ => None
  end.
Definition last1 {A} (l : list A) : option A := hd_error (rev l).

(** dedop/proc/sar/algorithms/surface_locations.py:218-228.  Every surface of
    the queue has its distance since it was created (lines 77-81); [d] is the
    distance of the new one. *)
Definition focus (g : settings) (found : bool) (ss : list surface) (d : option R)
  : bool * list surface :=
  if g_focus g && negb found then
    match rev ss with
    | s :: prior :: r =>
        if flt (s_dist s) d
        then (true, rev (focus_surface (g_k g) (g_target g) s prior :: prior :: r))
        else (found, ss)
    | _ => (found, ss)
    end
  else (found, ss).

Inductive serr := EPrev | ELoop.
(** dedop/proc/sar/processor.py:363-373 with
    dedop/proc/sar/algorithms/surface_locations.py:198-230: one burst; result:
    the state and whether a surface was created.  [EPrev]: IndexError of
    bursts[-2]; [ELoop]: the bound on normalize was too small. *)
Definition step_burst (g : settings) (fuel : nat) (force : bool) (b : burst) (t : st)
  : st * res serr bool :=
  let bs := t_bursts t ++ [b] in
  let keep := {| t_found := t_found t; t_last := t_last t; t_surfs := t_surfs t;
                 t_bursts := bs; t_next := t_next t |} in
  let create (l : option loc) :=
    let s := new_surface g (t_next t) l in
    let '(fo, ss) := focus g (t_found t) (t_surfs t) (s_dist s) in
    {| t_found := fo;
       t_last := match l with Some l => l | None => t_last t end;
       t_surfs := ss ++ [s]; t_bursts := bs; t_next := S (t_next t) |} in
  match (if force then None else last1 (t_surfs t)) with
  | None =>
      match first_location (g_k g) fuel (t_last t) b with
      | Some l => (create (Some l), Ok true)
      | None => (keep, Err ELoop)
      end
  | Some s =>
      match last2 bs with
      | None => (keep, Err EPrev)
      | Some (p, c) =>
          match find_new_location (g_k g) s p c with
          | None => (keep, Ok false)
          | Some l => (create l, Ok true)
          end
      end
  end.

(** What can happen to the queues: a burst arrives; the first surface is
    removed; the first [n] bursts are removed (processor.py:351-361, 249). *)
Inductive op := Burst (force : bool) (b : burst) | DropSurface | DropBursts (n : nat).
Definition run_op (g : settings) (fuel : nat) (o : op) (t : st) : st :=
  match o with
  | Burst force b => fst (step_burst g fuel force b t)
  | DropSurface => {| t_found := t_found t; t_last := t_last t; t_surfs := tl (t_surfs t);
                      t_bursts := t_bursts t; t_next := t_next t |}
  | DropBursts n => {| t_found := t_found t; t_last := t_last t; t_surfs := t_surfs t;
                       t_bursts := skipn n (t_bursts t); t_next := t_next t |}
  end.
Definition run_ops (g : settings) (fuel : nat) (os : list op) (t : st) : st :=
  fold_left (fun t o => run_op g fuel o t) os t.
(** dedop/proc/sar/algorithms/surface_locations.py:12-42 *)
Definition loc0 : loc :=
  {| l_time := 0; l_surf := V 0 0 0; l_surf_lla := V 0 0 0; l_sat := V 0 0 0; l_sat_lla := V 0 0 0;
     l_vel := V 0 0 0; l_rate := 0; l_roll := 0; l_pitch := 0; l_yaw := 0; l_wd := 0;
     l_prev_tai := 0; l_prev_days := 0; l_prev_secs := 0; l_day := 0 |}.
Definition st0 : st := {| t_found := false; t_last := loc0; t_surfs := []; t_bursts := []; t_next := 0 |}.
