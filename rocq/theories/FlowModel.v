(** The attributes of surfaces and bursts: which step of the chain sets and
    which reads them (model/surface_data.py, model/l1a_processing_data.py, the
    algorithm classes and the methods of proc/sar/processor.py that call them).
    Definitions only.

    Values are left abstract: an algorithm is a function of the values it
    reads.  An algorithm that reads an attribute only under some flag or for a
    nonempty stack is taken to read it always. *)
From Coq Require Import List String Bool.
From Verif Require Import SchModel PktModel.
Import ListNotations.
Local Open Scope string_scope.

Inductive err :=
| ENoKey (k : string)        (* KeyError: reading an attribute that was not set *)
| EUndeclared (k : string)   (* KeyError of [__setitem__] *)
| EReadonly (k : string)     (* AttributeError: property without setter *)
| ENoAttr (k : string).      (* AttributeError: result not on the algorithm *)
Inductive res (A : Type) := Ok (a : A) | Err (e : err).
Arguments Ok {A}. Arguments Err {A}.
Definition bind {A B} (r : res A) (f : A -> res B) : res B :=
  match r with Ok a => f a | Err e => Err e end.

Definition mem (k : string) (l : list string) : bool := existsb (String.eqb k) l.

(** surface_data.py 66-1061: the properties of the class *)
Definition surface_attributes : list string :=
  ["sigma0_scaling_factor_beam"; "focus_target_distance"; "target_focused"; "surface_counter";
   "time_surf"; "win_delay_surf"; "x_surf"; "y_surf"; "z_surf"; "ecef_surf"; "lat_surf";
   "lon_surf"; "alt_surf"; "lla_surf"; "x_sat"; "y_sat"; "z_sat"; "ecef_sat"; "lat_sat";
   "lon_sat"; "alt_sat"; "lla_sat"; "x_vel_sat"; "y_vel_sat"; "z_vel_sat"; "vel_sat";
   "alt_rate_sat"; "roll_sat"; "pitch_sat"; "yaw_sat"; "orientation_sat";
   "angular_azimuth_beam_resolution"; "surface_type"; "stack_all_beams_indices";
   "stack_all_beams_indices_abs"; "stack_all_bursts"; "data_stack_size"; "stack_bursts";
   "beam_angles_surf"; "surf_sat_vector"; "t0_surf"; "beams_surf"; "beams_geo_corr";
   "doppler_corrections"; "slant_range_corrections"; "win_delay_corrections";
   "beams_range_compr"; "beams_range_compr_iq"; "beams_masked"; "look_angles_surf";
   "pointing_angles_surf"; "stack_mask_vector"; "stack_mask"; "doppler_angles_surf";
   "stack_mask"; "range_sat_surf"; "closest_burst_index"; "closest_burst";
   "sigma0_scaling_factor"; "stack_std"; "stack_max"; "stack_skewness"; "stack_kurtosis";
   "waveform_multilooked"; "gps_time_surf"; "prev_tai"; "prev_utc_days"; "prev_utc_secs";
   "curr_day_length"; "n_beams_start_stop"; "start_look_angle"; "stop_look_angle";
   "start_doppler_angle"; "stop_doppler_angle"; "start_pointing_angle"; "stop_pointing_angle";
   "stack_mask_vector_start_stop"; "start_beam_angle"; "stop_beam_angle"; "start_burst_index";
   "stop_burst_index"; "beam_angles_start_stop"; "look_angles_start_stop"].

(** those without a setter (surface_data.py 68-73, 848-851, 931-949) *)
Definition surface_readonly : list string :=
  ["surface_counter"; "closest_burst"; "gps_time_surf"; "prev_tai"; "prev_utc_days"; "prev_utc_secs";
   "curr_day_length"].

(** l1a_processing_data.py 30-820 *)
Definition burst_attributes : list string :=
  ["isp_pid"; "time_sar_ku"; "days"; "seconds"; "seq_count_sar_ku_fbr"; "inst_id_sar_isp";
   "pri_sar_pre_dat"; "ambiguity_order_sar"; "burst_sar_ku"; "lat_sar_sat"; "lon_sar_sat";
   "alt_sar_sat"; "geodetic_sat"; "alt_rate_sat_sar"; "x_vel_sat_sar"; "y_vel_sat_sar";
   "z_vel_sat_sar"; "vel_sat_sar"; "roll_sar"; "pitch_sar"; "yaw_sar"; "orientation_sar";
   "h0_sar"; "t0_sar"; "cor2_sar"; "win_delay_sar_ku"; "x_sar_surf"; "y_sar_surf"; "z_sar_surf";
   "sar_surf"; "x_sar_sat"; "y_sar_sat"; "z_sar_sat"; "pos_sar_sat"; "seq_count_sar";
   "beam_angles_list"; "beam_angles_trend"; "waveform_cor_sar"; "doppler_angle_sar_sat";
   "beams_focused"; "burst_processed"; "counter"; "isp_coarse_time"; "isp_fine_time";
   "sral_fine_time"; "flag_time_status"; "nav_bul_status"; "nav_bul_source"; "source_seq_count";
   "oper_instr"; "SAR_mode"; "cl_gain"; "acq_stat"; "dem_eeprom"; "loss_track"; "h0_nav_dem";
   "h0_applied"; "cor2_nav_dem"; "cor2_applied"; "dh0"; "agccode_ku"; "range_ku";
   "int_path_cor_ku"; "agc_ku"; "sig0_cal_ku"; "uso_cor"; "surf_type"; "roll_sral_mispointing";
   "pitch_sral_mispointing"; "yaw_sral_mispointing"; "cog_cor"; "cal1_power"; "cal1_phase";
   "cal2_array"; "leap_secs_since_2000"; "h"; "cai"; "fai"; "vel_sat_sar_norm"].

(** l1a_processing_data.py 534-539, 625-629, 791-820 *)
Definition burst_readonly : list string :=
  ["seq_count_sar"; "counter"; "leap_secs_since_2000"; "h"; "cai"; "fai"; "vel_sat_sar_norm"].

(** Properties computed from others: reading one reads these
    (surface_data.py 150-156, 263-269, 848-851, 931-933). *)
Definition surface_derived (k : string) : list string :=
  if String.eqb k "ecef_surf" then ["x_surf"; "y_surf"; "z_surf"]
  else if String.eqb k "ecef_sat" then ["x_sat"; "y_sat"; "z_sat"]
  else if String.eqb k "closest_burst" then ["stack_bursts"; "closest_burst_index"]
  else if String.eqb k "gps_time_surf" then ["time_surf"]
  else if String.eqb k "surface_type.value" then ["surface_type"]
  else if String.eqb k "surface_counter" then []
  else [k].
(** l1a_processing_data.py 241-286, 519-526, 534-539, 625-629, 791-793, 814-820: the
    velocity, the counters and the norm are plain fields of the object, set by
    the constructor (822-836). *)
Definition burst_derived (k : string) : list string :=
  if String.eqb k "pos_sar_sat" then ["x_sar_sat"; "y_sar_sat"; "z_sar_sat"]
  else if String.eqb k "leap_secs_since_2000" then ["time_sar_ku"; "days"; "seconds"]
  else if mem k ["vel_sat_sar"; "x_vel_sat_sar"; "y_vel_sat_sar"; "z_vel_sat_sar"; "vel_sat_sar_norm";
                 "counter"; "seq_count_sar"] then []
  else [k].

Section Values.
Variable V : Type.

Definition store := string -> option V.
Definition empty : store := fun _ => None.
Definition put (k : string) (v : V) (s : store) : store :=
  fun x => if String.eqb x k then Some v else s x.

Fixpoint read_all (s : store) (ks : list string) : res (list V) :=
  match ks with
  | [] => Ok []
  | k :: r => match s k with
              | None => Err (ENoKey k)
              | Some v => bind (read_all s r) (fun l => Ok (v :: l))
              end
  end.
Fixpoint read_each (bs : list store) (ks : list string) : res (list (list V)) :=
  match bs with
  | [] => Ok []
  | b :: r => bind (read_all b ks) (fun v => bind (read_each r ks) (fun l => Ok (v :: l)))
  end.

(** [set_values] (surface_data.py 1094-1104): [__setitem__] of every value *)
Fixpoint set_values (declared : list string) (l : list (string * V)) (s : store) : res store :=
  match l with
  | [] => Ok s
  | (k, v) :: r => if mem k declared then set_values declared r (put k v s) else Err (EUndeclared k)
  end.
(** [obj.k = v]: a setter of the class, or an attribute of the object *)
Definition assign (readonly : list string) (k : string) (v : V) (s : store) : res store :=
  if mem k readonly then Err (EReadonly k) else Ok (put k v s).

(** A step of the chain.  [t_own]: attributes read from the object worked on;
    [t_stack]: attributes read from each burst of its stack; [t_always]: the
    results the algorithm object holds after every call; [t_stacked]: results
    set only when the stack has a burst; [t_copy]: the results the processor
    copies to the object, (attribute, result). *)
Record step := mk_step {
  t_alg : string;
  t_own : list string;
  t_stack : list string;
  t_always : list string;
  t_stacked : list string;
  t_copy : list (string * string) }.

(** What an algorithm computes: a result from the values read. *)
Definition calc := string -> list V -> list (list V) -> string -> V.
(** The attributes of the algorithm objects of a processor. *)
Definition objects := string -> store.

Fixpoint put_all (f : string -> V) (ks : list string) (s : store) : store :=
  match ks with [] => s | k :: r => put_all f r (put k (f k) s) end.
Fixpoint copy_all (readonly : list string) (a : store) (l : list (string * string)) (s : store) : res store :=
  match l with
  | [] => Ok s
  | (k, x) :: r => match a x with
                   | None => Err (ENoAttr x)
                   | Some v => bind (assign readonly k v s) (copy_all readonly a r)
                   end
  end.

Definition derived_all (d : string -> list string) (ks : list string) : list string := flat_map d ks.

(** One call of a step on an object with the bursts [bs] in its stack. *)
Definition exec (d : string -> list string) (readonly : list string) (f : calc) (bs : list store)
    (t : step) (x : objects * store) : res (objects * store) :=
  let (o, s) := x in
  bind (read_all s (derived_all d (t_own t))) (fun own =>
  bind (read_each bs (derived_all burst_derived (t_stack t))) (fun stack =>
  let g := f (t_alg t) own stack in
  let a := put_all g (t_always t) (o (t_alg t)) in
  let a := match bs with [] => a | _ => put_all g (t_stacked t) a end in
  bind (copy_all readonly a (t_copy t) s) (fun s' =>
  Ok ((fun n => if String.eqb n (t_alg t) then a else o n), s')))).
Fixpoint execs (d : string -> list string) (readonly : list string) (f : calc) (bs : list store)
    (ts : list step) (x : objects * store) : res (objects * store) :=
  match ts with
  | [] => Ok x
  | t :: r => bind (exec d readonly f bs t x) (execs d readonly f bs r)
  end.

End Values.
Arguments store V : clear implicits.
Arguments objects V : clear implicits.
Arguments calc V : clear implicits.
Arguments empty {V}. Arguments put {V}. Arguments read_all {V}. Arguments read_each {V}.
Arguments set_values {V}. Arguments assign {V}. Arguments put_all {V}. Arguments copy_all {V}.
Arguments exec {V}. Arguments execs {V}.

(** * Bursts *)

(** l1a_dataset.py 173-235: the values given to the constructor (the scalars of
    PktModel, the packet type, the waveform and the calibration arrays);
    l1a_processing_data.py 836: [isp_pid] has a default. *)
Definition burst_values : list string :=
  map fst attributes ++ ["isp_pid"; "waveform_cor_sar"; "cal1_power"; "cal1_phase"; "cal2_array"].

Definition same (l : list string) : list (string * string) := map (fun k => (k, k)) l.

(** l1a_processing_data.py 855-876: [compute_location_sar_surf] *)
Definition s_position : step := mk_step "compute_location_sar_surf"
  ["lat_sar_sat"; "lon_sar_sat"; "alt_sar_sat"; "win_delay_sar_ku"] []
  ["x_sar_sat"; "y_sar_sat"; "z_sar_sat"; "x_sar_surf"; "y_sar_surf"; "z_sar_surf"] []
  (same ["x_sar_sat"; "y_sar_sat"; "z_sar_sat"; "x_sar_surf"; "y_sar_surf"; "z_sar_surf"]).
(** l1a_processing_data.py 899-926: [compute_doppler_angle] *)
Definition s_doppler : step := mk_step "compute_doppler_angle"
  ["alt_sar_sat"; "lat_sar_sat"; "lon_sar_sat"; "pos_sar_sat"; "vel_sat_sar"] []
  ["doppler_angle_sar_sat"] [] (same ["doppler_angle_sar_sat"]).
(** cal1_algorithm.py 8-18, cal2_algorithm.py 8-15 *)
Definition s_cal1 : step := mk_step "cal1"
  ["agc_ku"; "sig0_cal_ku"; "cal1_power"; "cal1_phase"; "waveform_cor_sar"] []
  ["waveform_cor_sar"] [] (same ["waveform_cor_sar"]).
Definition s_cal2 : step := mk_step "cal2"
  ["cal2_array"; "waveform_cor_sar"] [] ["waveform_cor_sar"] [] (same ["waveform_cor_sar"]).
(** processor.py 375-392 with beam_angles.py 16-82: the attributes of the burst;
    those of the surfaces are [surface_beams] *)
Definition s_beams : step := mk_step "beam_angles"
  ["vel_sat_sar_norm"; "x_sar_sat"; "y_sar_sat"; "z_sar_sat"; "vel_sat_sar"; "doppler_angle_sar_sat"] []
  ["beam_angles"; "surfaces_seen"; "trend"] []
  [("beam_angles_list", "beam_angles"); ("surfaces_seen_list", "surfaces_seen"); ("beam_angles_trend", "trend")].
(** processor.py 411-416 with azimuth_processing.py 22-230 *)
Definition s_azimuth : step := mk_step "azimuth_processing"
  ["waveform_cor_sar"; "beam_angles_list"; "beam_angles_trend"; "pri_sar_pre_dat"; "vel_sat_sar"] []
  ["beams_focused"] [] (same ["beams_focused"]).

(** Attributes of bursts read outside of these steps: processor.py 209-211,
    356, 234, surface_locations.py 84-124 and 218-328. *)
Definition burst_locating : list string :=
  ["time_sar_ku"; "lat_sar_sat"; "lon_sar_sat"; "alt_sar_sat"; "win_delay_sar_ku"; "x_sar_sat"; "y_sar_sat";
   "z_sar_sat"; "x_vel_sat_sar"; "y_vel_sat_sar"; "z_vel_sat_sar"; "alt_rate_sat_sar"; "roll_sar"; "pitch_sar";
   "yaw_sar"; "x_sar_surf"; "y_sar_surf"; "z_sar_surf"; "days"; "seconds"; "leap_secs_since_2000"; "counter"].

(** * Surfaces *)

(** surface_locations.py 50-76: the entries of [get_surface] *)
Definition location_keys : list string :=
  ["time_surf"; "x_surf"; "y_surf"; "z_surf"; "lat_surf"; "lon_surf"; "alt_surf"; "x_sat";
   "y_sat"; "z_sat"; "lat_sat"; "lon_sat"; "alt_sat"; "x_vel_sat"; "y_vel_sat"; "z_vel_sat";
   "alt_rate_sat"; "roll_sat"; "pitch_sat"; "yaw_sat"; "win_delay_surf"; "prev_tai";
   "prev_utc_days"; "prev_utc_secs"; "curr_day_length"].
(** with the focusing flag (77-80) *)
Definition location_entries (focus : bool) : list string :=
  location_keys ++ (if focus then ["focus_target_distance"] else []).

(** surface_data.py 1063-1092: the constructor *)
Definition new_surface_data {V} (null nil : V) (values : list (string * V)) : res (store V) :=
  set_values surface_attributes values
    (put "stack_all_bursts" nil (put "stack_all_beams_indices_abs" nil (put "stack_all_beams_indices" nil
      (put "surface_type" null empty)))).
(** processor.py 551-565; surface_data.py 1112-1123 *)
Definition s_sat_vector : step := mk_step "compute_surf_sat_vector"
  ["ecef_surf"; "ecef_sat"] [] ["surf_sat_vector"] [] (same ["surf_sat_vector"]).
Definition s_resolution : step := mk_step "compute_angular_azimuth_beam_resolution"
  ["x_vel_sat"; "y_vel_sat"; "z_vel_sat"] [] ["angular_azimuth_beam_resolution"] []
  (same ["angular_azimuth_beam_resolution"]).
Definition creation_steps : list step := [s_sat_vector; s_resolution].

(** surface_locations.py 130-183, 198-265: attributes of the queued surfaces read
    when the next one is located, with focusing *)
Definition surface_locating (focus : bool) : list string :=
  ["x_sat"; "y_sat"; "z_sat"; "surf_sat_vector"; "angular_azimuth_beam_resolution"] ++
  (if focus then ["focus_target_distance"; "ecef_surf"; "alt_sat"] else []).
(** beam_angles.py 37-82, surface_data.py 1125-1139: read when a burst is
    beam-formed *)
Definition surface_beams : list string :=
  ["x_surf"; "y_surf"; "z_surf"; "surface_counter"; "stack_all_beams_indices"; "stack_all_beams_indices_abs";
   "stack_all_bursts"].

(** processor.py 446-476 with stack_gathering.py 28-146 (the type computed there
    is not copied) *)
Definition s_gather : step := mk_step "stack_gathering"
  ["stack_all_bursts"; "stack_all_beams_indices"; "stack_all_beams_indices_abs"]
  ["beam_angles_list"; "doppler_angle_sar_sat"; "beams_focused"; "t0_sar"; "pitch_sar"; "seq_count_sar"; "isp_pid"]
  ["data_stack_size"; "stack_bursts"; "beams_surf"; "beam_angles_surf"; "t0_surf"; "doppler_angles_surf";
   "look_angles_surf"; "pointing_angles_surf"; "look_index_surf"; "look_counter_surf"; "surface_type"]
  ["closest_burst_index"]
  (same ["data_stack_size"; "stack_bursts"; "beams_surf"; "beam_angles_surf"; "t0_surf"; "doppler_angles_surf";
   "look_angles_surf"; "pointing_angles_surf"; "look_index_surf"; "look_counter_surf"; "closest_burst_index"]).
(** processor.py 418-433 with geometry_corrections.py 20-144 *)
Definition s_geometry : step := mk_step "geometry_corrections"
  ["win_delay_surf"; "data_stack_size"; "stack_bursts"; "beam_angles_surf"; "t0_surf"; "x_surf"; "y_surf"; "z_surf";
   "beams_surf"]
  ["vel_sat_sar"; "x_sar_sat"; "y_sar_sat"; "z_sar_sat"; "win_delay_sar_ku"]
  ["beams_geo_corr"; "slant_range_corrections"; "range_sat_surf"; "doppler_corrections"; "win_delay_corrections"] []
  (same ["slant_range_corrections"; "range_sat_surf"; "doppler_corrections"; "win_delay_corrections"; "beams_geo_corr"]).
(** processor.py 435-444 with range_compression.py 8-47 *)
Definition s_compress : step := mk_step "range_compression"
  ["data_stack_size"; "beams_geo_corr"] [] ["beam_range_compr"; "beam_range_compr_iq"] []
  [("beams_range_compr", "beam_range_compr"); ("beams_range_compr_iq", "beam_range_compr_iq")].
(** processor.py 478-490 with stack_masking.py 12-162 *)
Definition s_mask : step := mk_step "stack_masking"
  ["beams_range_compr"; "data_stack_size"; "doppler_corrections"; "slant_range_corrections"; "win_delay_corrections";
   "look_angles_surf"] []
  ["beams_masked"; "stack_mask_vector"; "stack_mask"] [] (same ["beams_masked"; "stack_mask_vector"; "stack_mask"]).
(** processor.py 492-539 with multilooking.py 69-323 *)
Definition multilook_results : list string :=
  ["stack_max"; "stack_std"; "stack_skewness"; "stack_kurtosis"; "n_beams_start_stop"; "start_look_angle";
   "stop_look_angle"; "start_doppler_angle"; "stop_doppler_angle"; "start_pointing_angle"; "stop_pointing_angle";
   "start_beam_angle"; "stop_beam_angle"; "start_burst_index"; "stop_burst_index"; "stack_mask_vector_start_stop";
   "beam_angles_start_stop"; "look_angles_start_stop"; "waveform_multilooked"].
Definition s_multilook : step := mk_step "multilooking"
  ["data_stack_size"; "beam_angles_surf"; "beams_masked"; "look_angles_surf"; "pointing_angles_surf";
   "stack_mask_vector"; "stack_mask"; "doppler_angles_surf"; "stack_bursts"]
  ["source_seq_count"] multilook_results [] (same multilook_results).
(** processor.py 541-549 with sigma_zero_scaling.py 9-60 *)
Definition s_sigma : step := mk_step "sigma_zero_scaling"
  ["data_stack_size"; "range_sat_surf"; "stack_bursts"; "closest_burst"]
  ["vel_sat_sar_norm"; "pri_sar_pre_dat"; "agc_ku"]
  ["sigma0_scaling_factor_beam"; "sigma0_scaling_factor"] []
  (same ["sigma0_scaling_factor"; "sigma0_scaling_factor_beam"]).

(** processor.py 245-256: the order in which the surface is processed *)
Definition surface_steps : list step := [s_gather; s_geometry; s_compress; s_mask; s_multilook; s_sigma].

(** * Writing *)

(** Attributes an expression of [write_record] reads. *)
Fixpoint src_surface (s : src) : list string :=
  match s with
  | SSurf k => [k]
  | SDeg a | SNeg a => src_surface a
  | SSub a b | SMul a b | SDiv a b => src_surface a ++ src_surface b
  | _ => []
  end.
Fixpoint src_burst (s : src) : list string :=
  match s with
  | SBurst k => [k]
  | SDeg a | SNeg a => src_burst a
  | SSub a b | SMul a b | SDiv a b => src_burst a ++ src_burst b
  | _ => []
  end.
(** l1b_writer.py 845-857, 1567-1578; l1bs_writer.py 600-640: the attributes read
    for the local variables of [write_record] *)
Definition local_reads : list string :=
  ["closest_burst"; "time_surf"; "prev_tai"; "prev_utc_secs"; "curr_day_length"; "prev_utc_days";
   "waveform_multilooked"; "beams_range_compr_iq"; "look_angles_surf"].
Definition written_surface (p : product) : list string :=
  local_reads ++ flat_map (fun kv => src_surface (snd kv)) (p_writes p).
Definition written_burst (p : product) : list string :=
  "agc_ku" :: flat_map (fun kv => src_burst (snd kv)) (p_writes p).

(** * Locating *)

(** surface_locations.py 84-124 and 218-328 as steps on the located surface: the
    results kept by the algorithm object and copied by [get_surface] (44-81). *)
Definition first_results : list string :=
  ["time_surf"; "lat_surf"; "lon_surf"; "alt_surf"; "x_surf"; "y_surf"; "z_surf"; "x_sat"; "y_sat"; "z_sat";
   "lat_sat"; "lon_sat"; "alt_sat"; "x_vel_sat"; "y_vel_sat"; "z_vel_sat"; "alt_rate_sat"; "roll_sat"; "pitch_sat";
   "yaw_sat"; "win_delay_surf"].
Definition next_results : list string :=
  first_results ++ ["prev_tai"; "prev_utc_days"; "prev_utc_secs"; "curr_day_length"].
(** The entries handed to the constructor, after the algorithm has been applied
    ([first]: a first surface) on an object with attributes [a]. *)
Definition located {V} (first : bool) (g : string -> V) (a : store V) : store V :=
  put_all g (if first then first_results else next_results) a.
Fixpoint pick {V} (a : store V) (ks : list string) : res (list (string * V)) :=
  match ks with
  | [] => Ok []
  | k :: r => match a k with
              | None => Err (ENoAttr k)
              | Some v => bind (pick a r) (fun l => Ok ((k, v) :: l))
              end
  end.
(** processor.py 551-559: the new surface; [dist]: the distance to the target *)
Definition create {V} (null nil dist : V) (focus first : bool) (g : string -> V) (a : store V) : res (store V) :=
  bind (pick (located first g a) location_keys) (fun l =>
  new_surface_data null nil (app l (if focus then [("focus_target_distance", dist)] else []))).

(** A surface from its creation to its record (processor.py 209-260): created,
    used to locate later ones and to form beams, processed with the bursts [bs]
    of its stack, written to the product [p].  The appends to its stack lists
    change values only. *)
Definition life {V} (f : calc V) (p : product) (null nil dist : V) (focus first : bool) (g : string -> V)
    (a : store V) (o : objects V) (bs : list (store V)) : res (objects V * store V) :=
  bind (create null nil dist focus first g a) (fun s0 =>
  bind (execs surface_derived surface_readonly f [] creation_steps (o, s0)) (fun x =>
  bind (read_all (snd x) (derived_all surface_derived (app (surface_locating focus) surface_beams))) (fun _ =>
  bind (execs surface_derived surface_readonly f bs surface_steps x) (fun y =>
  bind (read_all (snd y) (derived_all surface_derived (written_surface p))) (fun _ =>
  bind (read_each bs (derived_all burst_derived (written_burst p))) (fun _ =>
  Ok y)))))).

(** A burst from its construction to its beams (l1a_dataset.py 237-238;
    processor.py 205-206; 209-211; 236-238). *)
Definition burst_life {V} (f : calc V) (o : objects V) (b : store V) : res (objects V * store V) :=
  bind (execs burst_derived burst_readonly f [] [s_position; s_doppler] (o, b)) (fun x =>
  bind (execs burst_derived burst_readonly f [] [s_cal1; s_cal2] x) (fun x =>
  bind (read_all (snd x) (derived_all burst_derived burst_locating)) (fun _ =>
  execs burst_derived burst_readonly f [] [s_beams; s_azimuth] x))).

(** Surfaces processed one after the other by the same algorithm objects. *)
Fixpoint process {V} (f : calc V) (o : objects V) (l : list (list (store V) * store V)) : res (list (store V)) :=
  match l with
  | [] => Ok []
  | (bs, s) :: r =>
      bind (execs surface_derived surface_readonly f bs surface_steps (o, s)) (fun x =>
      bind (process f (fst x) r) (fun l => Ok (snd x :: l)))
  end.
