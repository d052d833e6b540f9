(** From the L1A file to the L1B file: the records of the file (FileModel), the run
    with its geometry (WholeModel), the waveforms (WaveModel) and the variables of
    the L1B file (SchModel, WriterModel), put together as
    dedop/proc/sar/processor.py 130-347 does.  Definitions only. *)
From Coq Require Import String List ZArith Reals Bool.
From Verif Require Import Common GeoModel ReaderModel ChainModel WholeModel FileModel WriterModel.
From Verif Require SurfModel GcorrModel SchModel WaveModel.
Import ListNotations.
Local Open Scope string_scope.
Local Open Scope R_scope.

(** What a run is made with: how the file is read, the region, the configuration,
    the settings of multilooking, the output format (processor.py 159:
    [true] is the extended one).  [j_rest] are the attributes of a surface that are
    not modelled here (statistics of the stack, C93-C96; sigma-zero, C74; start and
    stop angles, C23; mask vectors, C26): any values.  [j_nan] stands for a value
    that is not a number: any real, about which nothing is known. *)
Record job := mk_job {
  j_o : opener; j_g : region; j_u : setup; j_v : WaveModel.settings; j_ext : bool;
  j_rest : product -> string -> value R; j_nan : R }.
Definition number (j : job) (x : option R) : R := match x with Some x => x | None => j_nan j end.

(** dedop/proc/sar/algorithms/stack_gathering.py 104, 137-141 with
    dedop/model/surface_data.py 848-851: the record of the closest burst, among
    the looks kept.  (The angles are numbers, C122_seen; one that is not is passed
    over here.)  [None]: an empty stack. *)
Fixpoint closest (pi : R) (es : list (nat * nat * option R)) (best : option R) (who : option nat) : option nat :=
  match es with
  | [] => who
  | (i, _, Some a) :: r =>
      let d := Rabs (a - pi / 2) in
      if match best with None => true | Some b => if Rlt_dec d b then true else false end
      then closest pi r (Some d) (Some i) else closest pi r best who
  | (_, _, None) :: r => closest pi r best who
  end.

(** The record of the file that is item [i] of the run
    (dedop/data/input/l1a/l1a_dataset.py 103-125, 248-263). *)
Definition first_record (g : region) (fi : file) : nat :=
  match open_dataset g (positions fi) with Ok d => d_start d | Err _ => O end.
(** The attributes of the burst made of record [i] (l1a_dataset.py 162-239), read
    with an empty cache (C31, C139_chunk: the cache does not show). *)
Definition burst_field (j : job) (fi : file) (i : nat) (f : string) : R :=
  match fst (get_item (j_o j) fi i fresh) with Ok c => arg (j_o j) c f | Err _ => j_nan j end.

(** l1b_writer.py 847-854, 1569-1576: UTC day and second. *)
Definition utc (l : SurfModel.loc) : R * R :=
  let secs := SurfModel.l_prev_secs l + (SurfModel.l_time l - SurfModel.l_prev_tai l) in
  if Rlt_dec (SurfModel.l_day l) secs then (SurfModel.l_prev_days l + 1, secs - SurfModel.l_day l)
  else (SurfModel.l_prev_days l, secs).
(** The attributes of a surface the writers ask for (surface_data.py; set in
    surface_locations.py 84-124, 273-326, processor.py 446-476 and multilooking):
    [l] its location, [angles] and [looks] the beam and look angles of its looks,
    [w] its waveform; arrays of [n] looks, zero where there are fewer
    (stack_gathering.py 75-100). *)
Definition padded (j : job) (n : nat) (l : list (option R)) : value R :=
  VVec n (fun i => match nth_error l i with Some x => number j x | None => 0 end).
Definition surf_field (j : job) (p : product) (l : option SurfModel.loc) (angles looks w : list (option R)) (f : string) : value R :=
  let n := c_looks (u_cf (j_u j)) in
  let ns := (GcorrModel.k_n (u_k (j_u j)) * u_zp (j_u j))%nat in
  let v (get : SurfModel.loc -> R) := VNum (number j (option_map get l)) in
  match find (fun e => fst e =? f)
    [("time_surf", v SurfModel.l_time); ("gps_time_surf", v (fun l => SchModel.gps_time_surf (SurfModel.l_time l)));
     ("lat_surf", v (fun l => vx (SurfModel.l_surf_lla l))); ("lon_surf", v (fun l => vy (SurfModel.l_surf_lla l)));
     ("alt_surf", v (fun l => vz (SurfModel.l_surf_lla l))); ("alt_sat", v (fun l => vz (SurfModel.l_sat_lla l)));
     ("x_surf", v (fun l => vx (SurfModel.l_surf l))); ("y_surf", v (fun l => vy (SurfModel.l_surf l))); ("z_surf", v (fun l => vz (SurfModel.l_surf l)));
     ("x_sat", v (fun l => vx (SurfModel.l_sat l))); ("y_sat", v (fun l => vy (SurfModel.l_sat l))); ("z_sat", v (fun l => vz (SurfModel.l_sat l)));
     ("x_vel_sat", v (fun l => vx (SurfModel.l_vel l))); ("y_vel_sat", v (fun l => vy (SurfModel.l_vel l))); ("z_vel_sat", v (fun l => vz (SurfModel.l_vel l)));
     ("alt_rate_sat", v SurfModel.l_rate); ("roll_sat", v SurfModel.l_roll);
     ("pitch_sat", v SurfModel.l_pitch); ("yaw_sat", v SurfModel.l_yaw);
     ("win_delay_surf", v SurfModel.l_wd); ("data_stack_size", VNum (INR (length angles)));
     ("beam_angles_surf", padded j n angles); ("look_angles_surf", padded j n looks);
     ("waveform_multilooked", VVec ns (fun i => number j (nth i w None)))] with
  | Some e => snd e
  | None => j_rest j p f
  end.
(** l1b_writer.py 845-857 and 1567-1578: the local variables; [agc]: agc_ku of
    the closest burst.  (Other names, the complex stack among them, are local
    variables of the L1BS writer.) *)
Definition local_field (j : job) (l : option SurfModel.loc) (agc : R) (w : list (option R)) (x : string) : value R :=
  if x =? "utc_days" then VNum (number j (option_map (fun l => fst (utc l)) l))
  else if x =? "utc_secs" then VNum (number j (option_map (fun l => snd (utc l)) l))
  else if x =? "scale_factor" then VNum (if j_ext j then number j (WaveModel.scale_factor w) else Rpower 10 (- agc / 10))
  else if (x =? "stack_i") || (x =? "stack_q")
       then VMat (c_looks (u_cf (j_u j))) (GcorrModel.k_n (u_k (j_u j)) * u_zp (j_u j)) (fun _ _ => j_nan j)
  else VNum (j_nan j).
(** The surface written as [p] (processor.py 253-262), as write_record sees it.
    (Exceptions are those of WholeModel, [u_w1_fail]; what an exception would leave
    undefined is [j_nan].) *)
Definition env_of (j : job) (fi : file) (input : list witem) (p : product) : SchModel.env :=
  let u := j_u j in
  let es := WaveModel.chosen u input p in
  let l := match pr_surf p with Some x => SurfModel.s_loc x | None => None end in
  let w := match WaveModel.wave_of u (j_v j) input p with Some w => w | None => repeat None (GcorrModel.k_n (u_k u) * u_zp u) end in
  let burst f := match closest (k_pi (SurfModel.g_k (u_g u))) es None None with
                 | Some i => burst_field j fi (first_record (j_g j) fi + i) f
                 | None => j_nan j
                 end in
  {| SchModel.e_surf := surf_field j p l (map snd es) (map (WaveModel.look_at u input) es) w;
     SchModel.e_burst := fun f => VNum (burst f);
     SchModel.e_local := local_field j l (burst "agc_ku") w;
     SchModel.e_light := k_c (SurfModel.g_k (u_g u)) |}.

(** processor.py 159: the format of the file. *)
Definition format (j : job) : SchModel.product := if j_ext j then SchModel.ext_product else SchModel.std_product.
(** The L1B file of a run: the answers to the calls of write_record and the file.
    [None]: the input or the output cannot be opened. *)
Definition l1b (j : job) (cancel : nat -> bool) (fi : file) : option (list (option werr) * wstate R) :=
  match delivered (j_o j) (j_g j) fi,
        SchModel.open_product (fun _ => true) (format j) (GcorrModel.k_n (u_k (j_u j)) * u_zp (j_u j)) (c_looks (u_cf (j_u j))) with
  | Ok input, inr tbl =>
      Some (write_all R (fun x => SchModel.find_assoc x tbl) (fun _ _ => true) (w_init R)
              (map (fun p => SchModel.record_of (format j) (env_of j fi input p)) (x_out (wfinal (whole (j_u j) cancel input)))))
  | _, _ => None
  end.
(** The number stored for sample [a] of variable [x] of record [n]: packed
    (SchModel) if the variable is of an integer type. *)
Definition stored (j : job) (rnd : R -> Z) (wrap : SchModel.ntype -> Z -> Z) (out : wstate R) (x : string) (n a : nat) : option Z :=
  match find (fun v => SchModel.v_name v =? x) (SchModel.p_vars (format j)), w_tbl out x n a O with
  | Some v, Some y => if SchModel.is_int (SchModel.v_type v) then Some (SchModel.pack rnd wrap v y) else None
  | _, _ => None
  end.
