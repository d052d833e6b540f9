(** The three output products: declared dimensions, variables and the value
    given to every variable (data/output/netcdf_writer.py, l1b_writer.py,
    l1bs_writer.py), and the packing of a value into an integer variable.
    Definitions only. *)
From Coq Require Import String List ZArith QArith Reals Bool Arith.
From Verif Require Import Common WriterModel.
Import ListNotations.
Open Scope string_scope.

(** * Declarations (netcdf_writer.py 22-80, 130-176) *)

(** Data types used by the [define_variable] calls. *)
Inductive ntype := I8 | I16 | I32 | U8 | U16 | U32 | F64.

(** Smallest and largest value of an integer type; [F64] is not an integer
    type and is not packed. *)
Definition tmin (t : ntype) : Z :=
  match t with I8 => -128 | I16 => -32768 | I32 => -2147483648 | _ => 0 end.
Definition tmax (t : ntype) : Z :=
  match t with
  | I8 => 127 | I16 => 32767 | I32 => 2147483647
  | U8 => 255 | U16 => 65535 | U32 => 4294967295 | F64 => 0
  end.
Definition is_int (t : ntype) : bool := match t with F64 => false | _ => true end.

(** One [define_variable] call (netcdf_writer.py 142-164): name, data type,
    dimension names, and the attributes [units], [scale_factor],
    [add_offset] and [fill_value].  Simplifications: floating literals are
    read as exact decimals; descriptive attributes (long names, comments,
    flag meanings) are left out. *)
Record vdecl := mkv {
  v_name : string; v_type : ntype; v_dims : list string;
  v_units : option string;
  v_scale : option Q; v_offset : option Q; v_fill : option Q
}.

(** The expressions given as keyword arguments of [write_record].
    [SSurf f] is [surface_location_data.f], [SBurst f] is [closest_burst.f],
    [SLight] is [self.cst.c], [SLocal x] a local variable of [write_record]:
    [utc_days], [utc_secs] (see [utc_of]), [scale_factor], [stack_i],
    [stack_q] and [dynamic_scale] (see [dynamic_scale]). *)
Inductive src :=
| SNone
| SSurf (f : string)
| SBurst (f : string)
| SLocal (x : string)
| SLight
| SConst (z : Z)
| SDeg (s : src)
| SNeg (s : src)
| SSub (a b : src)
| SMul (a b : src)
| SDiv (a b : src).

Record product := {
  p_dims : nat -> nat -> list (string * option nat);
  p_vars : list vdecl;
  p_writes : list (string * src)
}.

(** * Opening a product (netcdf_writer.py 178-333) *)

Inductive oerr := EKey | ELibrary.

Definition find_assoc {B} (x : string) (l : list (string * B)) : option B :=
  match List.find (fun p => (fst p =? x)%string) l with
  | Some p => Some (snd p)
  | None => None
  end.

(** [create_all_dimensions] (netcdf_writer.py 227-249, 275-291): the library
    refuses a name that exists already. *)
Fixpoint create_dims (made : list (string * option nat)) (l : list (string * option nat))
  : oerr + list (string * option nat) :=
  match l with
  | [] => inr made
  | (d, n) :: rest =>
      match find_assoc d made with
      | Some _ => inl ELibrary
      | None => create_dims (made ++ [(d, n)]) rest
      end
  end.

(** Sizes of the dimensions of a variable
    ([self.dimensions[dim_name].name], netcdf_writer.py 308-311): an unknown
    dimension raises [KeyError]. *)
Fixpoint dim_sizes (made : list (string * option nat)) (l : list string) : option (list nat) :=
  match l with
  | [] => Some []
  | d :: rest =>
      match find_assoc d made, dim_sizes made rest with
      | Some n, Some r => Some (match n with Some k => k | None => 0%nat end :: r)
      | _, _ => None
      end
  end.

Definition desc_of (sizes : list nat) : vdesc :=
  {| vd_ndims := List.length sizes;
     vd_d1 := nth 1 sizes 0%nat; vd_d2 := nth 2 sizes 0%nat |}.

(** The entries of [self._variables]: [get_variable_descriptor] (178-206)
    removes [data_type] and [dimensions] from the entry, so that an entry can
    be used once; [false] marks a used entry. *)
Definition entries := list (vdecl * bool).

(** [create_all_variables] (netcdf_writer.py 251-273).  [fill_ok] is the
    library's verdict on the fill value of a variable.  Returns the entries
    left behind as well. *)
Fixpoint create_vars (fill_ok : vdecl -> bool) (made : list (string * option nat))
    (done : list (string * vdesc)) (l : entries)
  : (oerr + list (string * vdesc)) * entries :=
  match l with
  | [] => (inr done, [])
  | (v, fresh) :: rest =>
      if fresh then
        match dim_sizes made (v_dims v) with
        | None => (inl EKey, (v, false) :: rest)
        | Some sizes =>
            match find_assoc (v_name v) done with
            | Some _ => (inl ELibrary, (v, false) :: rest)
            | None =>
                if fill_ok v then
                  let '(r, rest') :=
                    create_vars fill_ok made (done ++ [(v_name v, desc_of sizes)]) rest in
                  (r, (v, false) :: rest')
                else (inl ELibrary, (v, false) :: rest)
            end
        end
      else (inl EKey, (v, false) :: rest)
  end.

(** [open] (netcdf_writer.py 215-223) on a writer just constructed. *)
Definition open_product (fill_ok : vdecl -> bool) (p : product) (ns nl : nat)
  : oerr + list (string * vdesc) :=
  match create_dims [] (p_dims p ns nl) with
  | inl e => inl e
  | inr made => fst (create_vars fill_ok made [] (map (fun v => (v, true)) (p_vars p)))
  end.

(** The variable creation of a second [open]: the entries are those left by
    the first.  (The library would already refuse the dimensions.) *)
Definition reopen_vars (fill_ok : vdecl -> bool) (p : product) (ns nl : nat)
  : oerr + list (string * vdesc) :=
  match create_dims [] (p_dims p ns nl) with
  | inl e => inl e
  | inr made =>
      let used := snd (create_vars fill_ok made [] (map (fun v => (v, true)) (p_vars p))) in
      fst (create_vars fill_ok made [] used)
  end.

(** * Values of a record *)
Open Scope R_scope.

(** The surface, its closest burst, the locals of [write_record] and
    [cst.c]. *)
Record env := {
  e_surf : string -> value R;
  e_burst : string -> value R;
  e_local : string -> value R;
  e_light : R
}.

Definition vmap (f : R -> R) (v : value R) : value R :=
  match v with
  | VNum x => VNum (f x)
  | VVec n g => VVec n (fun i => f (g i))
  | VMat r c g => VMat r c (fun i j => f (g i j))
  end.

(** Arithmetic with a number on the right, the only form the writers use
    (numpy applies it to every element). *)
Definition vop (f : R -> R -> R) (v w : value R) : value R :=
  match w with VNum b => vmap (fun a => f a b) v | _ => v end.

(** [math.degrees] *)
Definition to_degrees (x : R) : R := x * 180 / PI.

(** Evaluation of a keyword argument; [None] is Python's [None]. *)
Fixpoint eval (e : env) (s : src) : option (value R) :=
  match s with
  | SNone => None
  | SSurf f => Some (e_surf e f)
  | SBurst f => Some (e_burst e f)
  | SLocal x => Some (e_local e x)
  | SLight => Some (VNum (e_light e))
  | SConst z => Some (VNum (IZR z))
  | SDeg a => option_map (vmap to_degrees) (eval e a)
  | SNeg a => option_map (vmap Ropp) (eval e a)
  | SSub a b =>
      match eval e a, eval e b with Some x, Some y => Some (vop Rminus x y) | _, _ => None end
  | SMul a b =>
      match eval e a, eval e b with Some x, Some y => Some (vop Rmult x y) | _, _ => None end
  | SDiv a b =>
      match eval e a, eval e b with Some x, Some y => Some (vop Rdiv x y) | _, _ => None end
  end.

(** The record handed to [NetCDFWriter.write_record]. *)
Definition record_of (p : product) (e : env) : wrecord R :=
  map (fun kv => (fst kv, eval e (snd kv))) (p_writes p).

(** * Packing (assignment to a netCDF4 variable with [scale_factor] and
      [add_offset], netcdf_writer.py 356-364)

    The library stores [round((x - add_offset) / scale_factor)] converted to
    the type of the variable, and reads back [n * scale_factor + add_offset]
    unless [n] is the fill value.  [rnd] is the rounding; [wrap] is the
    conversion of a number outside the range of the type, whose result is
    some number of the type. *)
Definition qor (o : option Q) (d : Q) : Q := match o with Some q => q | None => d end.

Section Pack.
Variable rnd : R -> Z.
Variable wrap : ntype -> Z -> Z.

Definition cast (t : ntype) (n : Z) : Z :=
  if (tmin t <=? n)%Z && (n <=? tmax t)%Z then n else wrap t n.

Definition pack (v : vdecl) (x : R) : Z :=
  cast (v_type v) (rnd ((x - Q2R (qor (v_offset v) 0)) / Q2R (qor (v_scale v) 1))).

Definition unpack (v : vdecl) (n : Z) : option R :=
  if match v_fill v with Some q => Qeq_bool (inject_Z n) q | None => false end then None
  else Some (IZR n * Q2R (qor (v_scale v) 1) + Q2R (qor (v_offset v) 0)).
End Pack.

(** * GPS time (model/surface_data.py 930-933) *)
Definition gps_time_surf (time_surf : R) : R := time_surf + 20 * 365 * 86400 - 19.

(** [surface_type.value] of a surface: the constructor stores
    [SurfaceType.surface_null] (model/surface_data.py 12-15, 1079) and no code
    assigns the attribute afterwards (stack_gathering.py 143-146 computes a
    type that processor.py 446-476 does not copy). *)
Definition surface_type_value : R := 0.

Close Scope R_scope.
Open Scope Q_scope.

(** * The products *)

(** Dimensions of [L1BWriterExtended] (l1b_writer.py 106-114).  [ns] is
    [chd.n_samples_sar * cnf.zp_fact_range], [nl] is [cnf.n_looks_stack];
    [None] is the unlimited record dimension. *)
Definition ext_dims (ns nl : nat) : list (string * option nat) :=
  [("time_l1b_echo_sar_ku", None);
   ("echo_sample_ind", Some ns);
   ("max_multi_stack_ind", Some nl)].

(** Variables of [L1BWriterExtended] (l1b_writer.py 105-838). *)
Definition ext_vars : list vdecl := [
  (* 116 *) mkv "time_l1b_echo_sar_ku" F64 ["time_l1b_echo_sar_ku"]
      (Some "seconds since 2000-01-01 00:00:00.0") (None) (None) (None);
  (* 124 *) mkv "UTC_day_l1b_echo_sar_ku" I16 ["time_l1b_echo_sar_ku"]
      (Some "days since 2000-01-01 00:00:00.0") (None) (None) (Some (32767 # 1));
  (* 132 *) mkv "UTC_sec_l1b_echo_sar_ku" F64 ["time_l1b_echo_sar_ku"]
      (Some "seconds in the day") (None) (None) (Some (18446744073709551616 # 1));
  (* 140 *) mkv "GPS_time_l1b_echo_sar_ku" F64 ["time_l1b_echo_sar_ku"]
      (Some "seconds since 1980-01-06 00:00:00.0") (None) (None) (Some (18446744073709551616 # 1));
  (* 149 *) mkv "isp_coarse_time_l1b_echo_sar_ku" U32 ["time_l1b_echo_sar_ku"]
      (Some "second") (None) (None) (Some (4294967295 # 1));
  (* 157 *) mkv "isp_fine_time_l1b_echo_sar_ku" I32 ["time_l1b_echo_sar_ku"]
      (Some "2^-24 second") (None) (None) (Some (2147483647 # 1));
  (* 165 *) mkv "sral_fine_time_l1b_echo_sar_ku" U32 ["time_l1b_echo_sar_ku"]
      (Some "137.5*10^-9 second") (None) (None) (Some (4294967295 # 1));
  (* 173 *) mkv "lat_l1b_echo_sar_ku" I32 ["time_l1b_echo_sar_ku"]
      (Some "degrees_north") (Some (1 # 1000000)) (Some (0 # 1)) (Some (2147483647 # 1));
  (* 184 *) mkv "lon_l1b_echo_sar_ku" I32 ["time_l1b_echo_sar_ku"]
      (Some "degrees_east") (Some (1 # 1000000)) (Some (0 # 1)) (Some (2147483647 # 1));
  (* 195 *) mkv "alt_l1b_echo_sar_ku" I32 ["time_l1b_echo_sar_ku"]
      (Some "m") (Some (1 # 10000)) (Some (700000 # 1)) (Some (2147483647 # 1));
  (* 205 *) mkv "orb_alt_rate_l1b_echo_sar_ku" I16 ["time_l1b_echo_sar_ku"]
      (Some "m/s") (Some (1 # 100)) (Some (0 # 1)) (Some (32767 # 1));
  (* 215 *) mkv "flag_time_status_l1b_echo_sar_ku" I8 ["time_l1b_echo_sar_ku"]
      None (None) (None) (None);
  (* 228 *) mkv "time_time_corr_val_l1b_echo_sar_ku" I8 ["time_l1b_echo_sar_ku"]
      None (None) (None) (None);
  (* 243 *) mkv "flag_man_pres_l1b_echo_sar_ku" I8 ["time_l1b_echo_sar_ku"]
      None (None) (None) (None);
  (* 254 *) mkv "flag_man_thrust_l1b_echo_sar_ku" I8 ["time_l1b_echo_sar_ku"]
      None (None) (None) (None);
  (* 265 *) mkv "flag_man_plane_l1b_echo_sar_ku" I8 ["time_l1b_echo_sar_ku"]
      None (None) (None) (None);
  (* 276 *) mkv "flag_gnss_status_l1b_echo_sar_ku" I8 ["time_l1b_echo_sar_ku"]
      None (None) (None) (None);
  (* 289 *) mkv "x_pos_l1b_echo_sar_ku" F64 ["time_l1b_echo_sar_ku"]
      (Some "m") (None) (None) (Some (18446744073709551616 # 1));
  (* 297 *) mkv "y_pos_l1b_echo_sar_ku" F64 ["time_l1b_echo_sar_ku"]
      (Some "m") (None) (None) (Some (18446744073709551616 # 1));
  (* 305 *) mkv "z_pos_l1b_echo_sar_ku" F64 ["time_l1b_echo_sar_ku"]
      (Some "m") (None) (None) (Some (18446744073709551616 # 1));
  (* 313 *) mkv "x_vel_l1b_echo_sar_ku" F64 ["time_l1b_echo_sar_ku"]
      (Some "m/s") (None) (None) (Some (18446744073709551616 # 1));
  (* 321 *) mkv "y_vel_l1b_echo_sar_ku" F64 ["time_l1b_echo_sar_ku"]
      (Some "m/s") (None) (None) (Some (18446744073709551616 # 1));
  (* 329 *) mkv "z_vel_l1b_echo_sar_ku" F64 ["time_l1b_echo_sar_ku"]
      (Some "m/s") (None) (None) (Some (18446744073709551616 # 1));
  (* 337 *) mkv "nav_bul_status_l1b_echo_sar_ku" I8 ["time_l1b_echo_sar_ku"]
      None (None) (None) (Some (127 # 1));
  (* 347 *) mkv "nav_bul_source_l1b_echo_sar_ku" I8 ["time_l1b_echo_sar_ku"]
      None (None) (None) (Some (127 # 1));
  (* 357 *) mkv "nav_bul_coarse_time_l1b_echo_sar_ku" U32 ["time_l1b_echo_sar_ku"]
      (Some "second") (None) (None) (Some (4294967295 # 1));
  (* 366 *) mkv "nav_bul_fine_time_l1b_echo_sar_ku" U32 ["time_l1b_echo_sar_ku"]
      (Some "2^-24 second") (None) (None) (Some (4294967295 # 1));
  (* 375 *) mkv "seq_count_l1b_echo_sar_ku" U16 ["time_l1b_echo_sar_ku"]
      None (None) (None) (Some (65535 # 1));
  (* 383 *) mkv "isp_time_status_echo_sar_ku" I8 ["time_l1b_echo_sar_ku"]
      None (None) (None) (Some (127 # 1));
  (* 394 *) mkv "oper_instr_l1b_echo_sar_ku" I8 ["time_l1b_echo_sar_ku"]
      None (None) (None) (Some (127 # 1));
  (* 404 *) mkv "SAR_mode_l1b_echo_sar_ku" I8 ["time_l1b_echo_sar_ku"]
      None (None) (None) (Some (127 # 1));
  (* 418 *) mkv "cl_gain_l1b_echo_sar_ku" I8 ["time_l1b_echo_sar_ku"]
      None (None) (None) (Some (127 # 1));
  (* 431 *) mkv "acq_stat_l1b_echo_sar_ku" I8 ["time_l1b_echo_sar_ku"]
      None (None) (None) (Some (127 # 1));
  (* 444 *) mkv "dem_eeprom_l1b_echo_sar_ku" I8 ["time_l1b_echo_sar_ku"]
      None (None) (None) (Some (127 # 1));
  (* 454 *) mkv "weighting_l1b_echo_sar_ku" I8 ["time_l1b_echo_sar_ku"]
      None (None) (None) (Some (127 # 1));
  (* 464 *) mkv "loss_track_l1b_echo_sar_ku" I8 ["time_l1b_echo_sar_ku"]
      None (None) (None) (Some (127 # 1));
  (* 474 *) mkv "h0_nav_dem_l1b_echo_sar_ku" U32 ["time_l1b_echo_sar_ku"]
      (Some "3.125/64*10^-9 s") (None) (None) (Some (4294967295 # 1));
  (* 483 *) mkv "h0_applied_l1b_echo_sar_ku" U32 ["time_l1b_echo_sar_ku"]
      (Some "3.125/64*10^-9 s") (None) (None) (Some (4294967295 # 1));
  (* 492 *) mkv "cor2_nav_dem_l1b_echo_sar_ku" I16 ["time_l1b_echo_sar_ku"]
      (Some "3.125/1024*10^-9 s") (None) (None) (Some (32767 # 1));
  (* 501 *) mkv "cor2_applied_l1b_echo_sar_ku" I16 ["time_l1b_echo_sar_ku"]
      (Some "3.125/1024*10^-9 s") (None) (None) (Some (32767 # 1));
  (* 510 *) mkv "dh0_l1b_echo_sar_ku" I32 ["time_l1b_echo_sar_ku"]
      (Some "3.125/64*10^-9 s") (None) (None) (Some (2147483647 # 1));
  (* 521 *) mkv "agccode_ku_l1b_echo_sar_ku" I16 ["time_l1b_echo_sar_ku"]
      (Some "dB") (None) (None) (Some (127 # 1));
  (* 530 *) mkv "surf_type_l1b_echo_sar_ku" I8 ["time_l1b_echo_sar_ku"]
      None (None) (None) (None);
  (* 544 *) mkv "range_ku_l1b_echo_sar_ku" I32 ["time_l1b_echo_sar_ku"]
      (Some "m") (Some (1 # 10000)) (Some (700000 # 1)) (Some (2147483647 # 1));
  (* 555 *) mkv "uso_cor_l1b_echo_sar_ku" I32 ["time_l1b_echo_sar_ku"]
      (Some "m") (Some (1 # 10000)) (Some (0 # 1)) (Some (2147483647 # 1));
  (* 566 *) mkv "int_path_cor_ku_l1b_echo_sar_ku" I32 ["time_l1b_echo_sar_ku"]
      (Some "m") (Some (1 # 10000)) (Some (0 # 1)) (Some (2147483647 # 1));
  (* 577 *) mkv "range_rate_l1b_echo_sar_ku" I32 ["time_l1b_echo_sar_ku"]
      (Some "m/s") (Some (1 # 1000)) (Some (0 # 1)) (Some (2147483647 # 1));
  (* 588 *) mkv "agc_ku_l1b_echo_sar_ku" I32 ["time_l1b_echo_sar_ku"]
      (Some "dB") (Some (1 # 100)) (Some (0 # 1)) (Some (2147483647 # 1));
  (* 600 *) mkv "scale_factor_ku_l1b_echo_sar_ku" I32 ["time_l1b_echo_sar_ku"]
      (Some "dB") (Some (1 # 100)) (Some (0 # 1)) (Some (2147483647 # 1));
  (* 611 *) mkv "agc_cor_ku_l1b_echo_sar_ku" I32 ["time_l1b_echo_sar_ku"]
      (Some "dB") (Some (1 # 100)) (Some (0 # 1)) (Some (2147483647 # 1));
  (* 622 *) mkv "sig0_cal_ku_l1b_echo_sar_ku" I32 ["time_l1b_echo_sar_ku"]
      (Some "dB") (Some (1 # 100)) (Some (0 # 1)) (Some (2147483647 # 1));
  (* 632 *) mkv "nb_stack_l1b_echo_sar_ku" U16 ["time_l1b_echo_sar_ku"]
      (Some "count") (None) (None) (Some (65535 # 1));
  (* 640 *) mkv "max_stack_l1b_echo_sar_ku" U32 ["time_l1b_echo_sar_ku"]
      (Some "FFT power unit") (Some (1 # 100)) (Some (0 # 1)) (Some (4294967295 # 1));
  (* 650 *) mkv "stdev_stack_l1b_echo_sar_ku" U32 ["time_l1b_echo_sar_ku"]
      (Some "rad") (Some (1 # 1000000)) (Some (0 # 1)) (Some (4294967295 # 1));
  (* 660 *) mkv "skew_stack_l1b_echo_sar_ku" I32 ["time_l1b_echo_sar_ku"]
      (Some "count") (Some (1 # 1000000)) (Some (0 # 1)) (Some (2147483647 # 1));
  (* 670 *) mkv "kurt_stack_l1b_echo_sar_ku" I32 ["time_l1b_echo_sar_ku"]
      (Some "count") (Some (1 # 1000000)) (Some (0 # 1)) (Some (2147483647 # 1));
  (* 680 *) mkv "beam_ang_l1b_echo_sar_ku" I16 ["time_l1b_echo_sar_ku"; "max_multi_stack_ind"]
      (Some "rad") (Some (1 # 1000000)) (Some (157 # 100)) (Some (32767 # 1));
  (* 693 *) mkv "look_ang_l1b_echo_sar_ku" I16 ["time_l1b_echo_sar_ku"; "max_multi_stack_ind"]
      (Some "rad") (Some (1 # 1000000)) (Some (157 # 100)) (Some (32767 # 1));
  (* 706 *) mkv "beam_form_l1b_echo_sar_ku" U16 ["time_l1b_echo_sar_ku"]
      (Some "percent") (Some (1 # 100)) (Some (0 # 1)) (Some (65535 # 1));
  (* 716 *) mkv "i2q2_meas_ku_l1b_echo_sar_ku" U32 ["time_l1b_echo_sar_ku"; "echo_sample_ind"]
      (Some "count") (Some (1 # 4294967294)) (Some (0 # 1)) (Some (4294967295 # 1));
  (* 729 *) mkv "i2q2_scale_factor_l1b_echo_sar_ku" F64 ["time_l1b_echo_sar_ku"]
      (Some "count") (None) (None) (None);
  (* 739 *) mkv "roll_sat_pointing_l1b_echo_sar_ku" I16 ["time_l1b_echo_sar_ku"]
      (Some "degrees") (Some (1 # 10000)) (Some (0 # 1)) (Some (32767 # 1));
  (* 751 *) mkv "pitch_sat_pointing_l1b_echo_sar_ku" I16 ["time_l1b_echo_sar_ku"]
      (Some "degrees") (Some (1 # 10000)) (Some (0 # 1)) (Some (32767 # 1));
  (* 763 *) mkv "yaw_sat_pointing_l1b_echo_sar_ku" I16 ["time_l1b_echo_sar_ku"]
      (Some "degrees") (Some (1 # 10000)) (Some (0 # 1)) (Some (32767 # 1));
  (* 777 *) mkv "start_look_angle_stack_l1b_echo_sar_ku" I16 ["time_l1b_echo_sar_ku"]
      (Some "rad") (Some (1 # 1000000)) (Some (0 # 1)) (Some (32767 # 1));
  (* 787 *) mkv "stop_look_angle_stack_l1b_echo_sar_ku" I16 ["time_l1b_echo_sar_ku"]
      (Some "rad") (Some (1 # 1000000)) (Some (0 # 1)) (Some (32767 # 1));
  (* 797 *) mkv "start_beam_ang_stack_l1b_echo_sar_ku" I16 ["time_l1b_echo_sar_ku"]
      (Some "rad") (Some (1 # 1000000)) (Some (157 # 100)) (Some (32767 # 1));
  (* 807 *) mkv "stop_beam_ang_stack_l1b_echo_sar_ku" I16 ["time_l1b_echo_sar_ku"]
      (Some "rad") (Some (1 # 1000000)) (Some (157 # 100)) (Some (32767 # 1));
  (* 818 *) mkv "stack_mask_vector_l1b_echo_sar_ku" I16 ["time_l1b_echo_sar_ku"; "max_multi_stack_ind"]
      (Some "count") (None) (None) (Some (32767 # 1));
  (* 827 *) mkv "stack_scale_factor_ku_l1b_echo_sar_ku" I32 ["time_l1b_echo_sar_ku"; "max_multi_stack_ind"]
      (Some "dB") (Some (1 # 100)) (Some (0 # 1)) (Some (2147483647 # 1)) ].

(** The keyword arguments of [L1BWriterExtended.write_record] (l1b_writer.py 840-934). *)
Definition ext_writes : list (string * src) := [
  ("time_l1b_echo_sar_ku", (SSurf "time_surf"));
  ("UTC_day_l1b_echo_sar_ku", (SLocal "utc_days"));
  ("UTC_sec_l1b_echo_sar_ku", (SLocal "utc_secs"));
  ("GPS_time_l1b_echo_sar_ku", (SSurf "gps_time_surf"));
  ("isp_coarse_time_l1b_echo_sar_ku", (SBurst "isp_coarse_time"));
  ("isp_fine_time_l1b_echo_sar_ku", (SBurst "isp_fine_time"));
  ("sral_fine_time_l1b_echo_sar_ku", (SBurst "sral_fine_time"));
  ("lat_l1b_echo_sar_ku", (SDeg (SSurf "lat_surf")));
  ("lon_l1b_echo_sar_ku", (SDeg (SSurf "lon_surf")));
  ("alt_l1b_echo_sar_ku", (SSurf "alt_sat"));
  ("orb_alt_rate_l1b_echo_sar_ku", (SSurf "alt_rate_sat"));
  ("flag_time_status_l1b_echo_sar_ku", (SBurst "flag_time_status"));
  ("flag_man_pres_l1b_echo_sar_ku", SNone);
  ("flag_man_thrust_l1b_echo_sar_ku", SNone);
  ("flag_man_plane_l1b_echo_sar_ku", SNone);
  ("flag_gnss_status_l1b_echo_sar_ku", SNone);
  ("x_pos_l1b_echo_sar_ku", (SSurf "x_sat"));
  ("y_pos_l1b_echo_sar_ku", (SSurf "y_sat"));
  ("z_pos_l1b_echo_sar_ku", (SSurf "z_sat"));
  ("x_vel_l1b_echo_sar_ku", (SSurf "x_vel_sat"));
  ("y_vel_l1b_echo_sar_ku", (SSurf "y_vel_sat"));
  ("z_vel_l1b_echo_sar_ku", (SSurf "z_vel_sat"));
  ("roll_sat_pointing_l1b_echo_sar_ku", (SDeg (SSurf "roll_sat")));
  ("pitch_sat_pointing_l1b_echo_sar_ku", (SDeg (SSurf "pitch_sat")));
  ("yaw_sat_pointing_l1b_echo_sar_ku", (SDeg (SSurf "yaw_sat")));
  ("nav_bul_status_l1b_echo_sar_ku", (SBurst "nav_bul_status"));
  ("nav_bul_source_l1b_echo_sar_ku", (SBurst "nav_bul_source"));
  ("nav_bul_coarse_time_l1b_echo_sar_ku", SNone);
  ("nav_bul_fine_time_l1b_echo_sar_ku", SNone);
  ("seq_count_l1b_echo_sar_ku", (SBurst "source_seq_count"));
  ("oper_instr_l1b_echo_sar_ku", (SBurst "oper_instr"));
  ("SAR_mode_l1b_echo_sar_ku", (SBurst "SAR_mode"));
  ("cl_gain_l1b_echo_sar_ku", (SBurst "cl_gain"));
  ("acq_stat_l1b_echo_sar_ku", (SBurst "acq_stat"));
  ("dem_eeprom_l1b_echo_sar_ku", (SBurst "dem_eeprom"));
  ("weighting_l1b_echo_sar_ku", SNone);
  ("loss_track_l1b_echo_sar_ku", (SBurst "loss_track"));
  ("h0_nav_dem_l1b_echo_sar_ku", (SBurst "h0_nav_dem"));
  ("h0_applied_l1b_echo_sar_ku", (SBurst "h0_applied"));
  ("cor2_nav_dem_l1b_echo_sar_ku", (SBurst "cor2_nav_dem"));
  ("cor2_applied_l1b_echo_sar_ku", (SBurst "cor2_applied"));
  ("dh0_l1b_echo_sar_ku", (SBurst "dh0"));
  ("agccode_ku_l1b_echo_sar_ku", (SBurst "agccode_ku"));
  ("surf_type_l1b_echo_sar_ku", (SBurst "surf_type"));
  ("range_ku_l1b_echo_sar_ku", (SDiv (SMul (SSurf "win_delay_surf") SLight) (SConst 2)));
  ("uso_cor_l1b_echo_sar_ku", (SBurst "uso_cor"));
  ("int_path_cor_ku_l1b_echo_sar_ku", (SBurst "int_path_cor_ku"));
  ("range_rate_l1b_echo_sar_ku", SNone);
  ("agc_ku_l1b_echo_sar_ku", (SBurst "agc_ku"));
  ("scale_factor_ku_l1b_echo_sar_ku", (SSurf "sigma0_scaling_factor"));
  ("agc_cor_ku_l1b_echo_sar_ku", (SSub (SBurst "agc_ku") (SBurst "agccode_ku")));
  ("sig0_cal_ku_l1b_echo_sar_ku", (SBurst "sig0_cal_ku"));
  ("nb_stack_l1b_echo_sar_ku", (SSurf "n_beams_start_stop"));
  ("max_stack_l1b_echo_sar_ku", (SSurf "stack_max"));
  ("stdev_stack_l1b_echo_sar_ku", (SSurf "stack_std"));
  ("skew_stack_l1b_echo_sar_ku", (SSurf "stack_skewness"));
  ("kurt_stack_l1b_echo_sar_ku", (SSurf "stack_kurtosis"));
  ("beam_ang_l1b_echo_sar_ku", (SSurf "beam_angles_surf"));
  ("look_ang_l1b_echo_sar_ku", (SSurf "look_angles_surf"));
  ("beam_form_l1b_echo_sar_ku", SNone);
  ("i2q2_meas_ku_l1b_echo_sar_ku", (SDiv (SSurf "waveform_multilooked") (SLocal "scale_factor")));
  ("i2q2_scale_factor_l1b_echo_sar_ku", (SLocal "scale_factor"));
  ("start_look_angle_stack_l1b_echo_sar_ku", (SSurf "start_look_angle"));
  ("stop_look_angle_stack_l1b_echo_sar_ku", (SSurf "stop_look_angle"));
  ("start_beam_ang_stack_l1b_echo_sar_ku", (SSurf "start_beam_angle"));
  ("stop_beam_ang_stack_l1b_echo_sar_ku", (SSurf "stop_beam_angle"));
  ("stack_mask_vector_l1b_echo_sar_ku", (SSurf "stack_mask_vector_start_stop"));
  ("stack_scale_factor_ku_l1b_echo_sar_ku", (SSurf "sigma0_scaling_factor_beam")) ].

Definition ext_product : product :=
  {| p_dims := ext_dims; p_vars := ext_vars; p_writes := ext_writes |}.

(** Dimensions of [L1BWriter] (l1b_writer.py 951-959).  [ns] is
    [chd.n_samples_sar * cnf.zp_fact_range], [nl] is [cnf.n_looks_stack];
    [None] is the unlimited record dimension. *)
Definition std_dims (ns nl : nat) : list (string * option nat) :=
  [("time_l1b_echo_sar_ku", None);
   ("echo_sample_ind", Some ns);
   ("max_multi_stack_ind", Some nl)].

(** Variables of [L1BWriter] (l1b_writer.py 950-1560). *)
Definition std_vars : list vdecl := [
  (* 961 *) mkv "time_l1b_echo_sar_ku" F64 ["time_l1b_echo_sar_ku"]
      (Some "seconds since 2000-01-01 00:00:00.0") (None) (None) (None);
  (* 969 *) mkv "UTC_day_l1b_echo_sar_ku" I16 ["time_l1b_echo_sar_ku"]
      (Some "days since 2000-01-01 00:00:00.0") (None) (None) (Some (32767 # 1));
  (* 977 *) mkv "UTC_sec_l1b_echo_sar_ku" F64 ["time_l1b_echo_sar_ku"]
      (Some "seconds in the day") (None) (None) (Some (18446744073709551616 # 1));
  (* 985 *) mkv "GPS_time_l1b_echo_sar_ku" F64 ["time_l1b_echo_sar_ku"]
      (Some "seconds since 1980-01-06 00:00:00.0") (None) (None) (Some (18446744073709551616 # 1));
  (* 994 *) mkv "isp_coarse_time_l1b_echo_sar_ku" U32 ["time_l1b_echo_sar_ku"]
      (Some "second") (None) (None) (Some (4294967295 # 1));
  (* 1002 *) mkv "isp_fine_time_l1b_echo_sar_ku" I32 ["time_l1b_echo_sar_ku"]
      (Some "2^-24 second") (None) (None) (Some (2147483647 # 1));
  (* 1010 *) mkv "sral_fine_time_l1b_echo_sar_ku" U32 ["time_l1b_echo_sar_ku"]
      (Some "137.5*10^-9 second") (None) (None) (Some (4294967295 # 1));
  (* 1018 *) mkv "lat_l1b_echo_sar_ku" I32 ["time_l1b_echo_sar_ku"]
      (Some "degrees_north") (Some (1 # 1000000)) (Some (0 # 1)) (Some (2147483647 # 1));
  (* 1029 *) mkv "lon_l1b_echo_sar_ku" I32 ["time_l1b_echo_sar_ku"]
      (Some "degrees_east") (Some (1 # 1000000)) (Some (0 # 1)) (Some (2147483647 # 1));
  (* 1040 *) mkv "alt_l1b_echo_sar_ku" I32 ["time_l1b_echo_sar_ku"]
      (Some "m") (Some (1 # 10000)) (Some (700000 # 1)) (Some (2147483647 # 1));
  (* 1050 *) mkv "orb_alt_rate_l1b_echo_sar_ku" I16 ["time_l1b_echo_sar_ku"]
      (Some "m/s") (Some (1 # 100)) (Some (0 # 1)) (Some (32767 # 1));
  (* 1060 *) mkv "flag_time_status_l1b_echo_sar_ku" I8 ["time_l1b_echo_sar_ku"]
      None (None) (None) (None);
  (* 1073 *) mkv "time_time_corr_val_l1b_echo_sar_ku" I8 ["time_l1b_echo_sar_ku"]
      None (None) (None) (None);
  (* 1088 *) mkv "flag_man_pres_l1b_echo_sar_ku" I8 ["time_l1b_echo_sar_ku"]
      None (None) (None) (None);
  (* 1099 *) mkv "flag_man_thrust_l1b_echo_sar_ku" I8 ["time_l1b_echo_sar_ku"]
      None (None) (None) (None);
  (* 1110 *) mkv "flag_man_plane_l1b_echo_sar_ku" I8 ["time_l1b_echo_sar_ku"]
      None (None) (None) (None);
  (* 1121 *) mkv "flag_gnss_status_l1b_echo_sar_ku" I8 ["time_l1b_echo_sar_ku"]
      None (None) (None) (None);
  (* 1134 *) mkv "x_pos_l1b_echo_sar_ku" F64 ["time_l1b_echo_sar_ku"]
      (Some "m") (None) (None) (Some (18446744073709551616 # 1));
  (* 1142 *) mkv "y_pos_l1b_echo_sar_ku" F64 ["time_l1b_echo_sar_ku"]
      (Some "m") (None) (None) (Some (18446744073709551616 # 1));
  (* 1150 *) mkv "z_pos_l1b_echo_sar_ku" F64 ["time_l1b_echo_sar_ku"]
      (Some "m") (None) (None) (Some (18446744073709551616 # 1));
  (* 1158 *) mkv "x_vel_l1b_echo_sar_ku" F64 ["time_l1b_echo_sar_ku"]
      (Some "m/s") (None) (None) (Some (18446744073709551616 # 1));
  (* 1166 *) mkv "y_vel_l1b_echo_sar_ku" F64 ["time_l1b_echo_sar_ku"]
      (Some "m/s") (None) (None) (Some (18446744073709551616 # 1));
  (* 1174 *) mkv "z_vel_l1b_echo_sar_ku" F64 ["time_l1b_echo_sar_ku"]
      (Some "m/s") (None) (None) (Some (18446744073709551616 # 1));
  (* 1182 *) mkv "nav_bul_status_l1b_echo_sar_ku" I8 ["time_l1b_echo_sar_ku"]
      None (None) (None) (Some (127 # 1));
  (* 1192 *) mkv "nav_bul_source_l1b_echo_sar_ku" I8 ["time_l1b_echo_sar_ku"]
      None (None) (None) (Some (127 # 1));
  (* 1202 *) mkv "nav_bul_coarse_time_l1b_echo_sar_ku" U32 ["time_l1b_echo_sar_ku"]
      (Some "second") (None) (None) (Some (4294967295 # 1));
  (* 1211 *) mkv "nav_bul_fine_time_l1b_echo_sar_ku" U32 ["time_l1b_echo_sar_ku"]
      (Some "2^-24 second") (None) (None) (Some (4294967295 # 1));
  (* 1220 *) mkv "seq_count_l1b_echo_sar_ku" U16 ["time_l1b_echo_sar_ku"]
      None (None) (None) (Some (65535 # 1));
  (* 1228 *) mkv "isp_time_status_echo_sar_ku" I8 ["time_l1b_echo_sar_ku"]
      None (None) (None) (Some (127 # 1));
  (* 1239 *) mkv "oper_instr_l1b_echo_sar_ku" I8 ["time_l1b_echo_sar_ku"]
      None (None) (None) (Some (127 # 1));
  (* 1249 *) mkv "SAR_mode_l1b_echo_sar_ku" I8 ["time_l1b_echo_sar_ku"]
      None (None) (None) (Some (127 # 1));
  (* 1263 *) mkv "cl_gain_l1b_echo_sar_ku" I8 ["time_l1b_echo_sar_ku"]
      None (None) (None) (Some (127 # 1));
  (* 1276 *) mkv "acq_stat_l1b_echo_sar_ku" I8 ["time_l1b_echo_sar_ku"]
      None (None) (None) (Some (127 # 1));
  (* 1289 *) mkv "dem_eeprom_l1b_echo_sar_ku" I8 ["time_l1b_echo_sar_ku"]
      None (None) (None) (Some (127 # 1));
  (* 1299 *) mkv "weighting_l1b_echo_sar_ku" I8 ["time_l1b_echo_sar_ku"]
      None (None) (None) (Some (127 # 1));
  (* 1309 *) mkv "loss_track_l1b_echo_sar_ku" I8 ["time_l1b_echo_sar_ku"]
      None (None) (None) (Some (127 # 1));
  (* 1319 *) mkv "h0_nav_dem_l1b_echo_sar_ku" U32 ["time_l1b_echo_sar_ku"]
      (Some "3.125/64*10^-9 s") (None) (None) (Some (4294967295 # 1));
  (* 1328 *) mkv "h0_applied_l1b_echo_sar_ku" U32 ["time_l1b_echo_sar_ku"]
      (Some "3.125/64*10^-9 s") (None) (None) (Some (4294967295 # 1));
  (* 1337 *) mkv "cor2_nav_dem_l1b_echo_sar_ku" I16 ["time_l1b_echo_sar_ku"]
      (Some "3.125/1024*10^-9 s") (None) (None) (Some (32767 # 1));
  (* 1346 *) mkv "cor2_applied_l1b_echo_sar_ku" I16 ["time_l1b_echo_sar_ku"]
      (Some "3.125/1024*10^-9 s") (None) (None) (Some (32767 # 1));
  (* 1355 *) mkv "dh0_l1b_echo_sar_ku" I32 ["time_l1b_echo_sar_ku"]
      (Some "3.125/64*10^-9 s") (None) (None) (Some (2147483647 # 1));
  (* 1366 *) mkv "agccode_ku_l1b_echo_sar_ku" I16 ["time_l1b_echo_sar_ku"]
      (Some "dB") (None) (None) (Some (127 # 1));
  (* 1375 *) mkv "surf_type_l1b_echo_sar_ku" I8 ["time_l1b_echo_sar_ku"]
      None (None) (None) (None);
  (* 1389 *) mkv "range_ku_l1b_echo_sar_ku" I32 ["time_l1b_echo_sar_ku"]
      (Some "m") (Some (1 # 10000)) (Some (700000 # 1)) (Some (2147483647 # 1));
  (* 1400 *) mkv "uso_cor_l1b_echo_sar_ku" I32 ["time_l1b_echo_sar_ku"]
      (Some "m") (Some (1 # 10000)) (Some (0 # 1)) (Some (2147483647 # 1));
  (* 1411 *) mkv "int_path_cor_ku_l1b_echo_sar_ku" I32 ["time_l1b_echo_sar_ku"]
      (Some "m") (Some (1 # 10000)) (Some (0 # 1)) (Some (2147483647 # 1));
  (* 1422 *) mkv "range_rate_l1b_echo_sar_ku" I32 ["time_l1b_echo_sar_ku"]
      (Some "m/s") (Some (1 # 1000)) (Some (0 # 1)) (Some (2147483647 # 1));
  (* 1433 *) mkv "agc_ku_l1b_echo_sar_ku" I32 ["time_l1b_echo_sar_ku"]
      (Some "dB") (Some (1 # 100)) (Some (0 # 1)) (Some (2147483647 # 1));
  (* 1445 *) mkv "scale_factor_ku_l1b_echo_sar_ku" I32 ["time_l1b_echo_sar_ku"]
      (Some "dB") (Some (1 # 100)) (Some (0 # 1)) (Some (2147483647 # 1));
  (* 1456 *) mkv "agc_cor_ku_l1b_echo_sar_ku" I32 ["time_l1b_echo_sar_ku"]
      (Some "dB") (Some (1 # 100)) (Some (0 # 1)) (Some (2147483647 # 1));
  (* 1467 *) mkv "sig0_cal_ku_l1b_echo_sar_ku" I32 ["time_l1b_echo_sar_ku"]
      (Some "dB") (Some (1 # 100)) (Some (0 # 1)) (Some (2147483647 # 1));
  (* 1477 *) mkv "nb_stack_l1b_echo_sar_ku" U16 ["time_l1b_echo_sar_ku"]
      (Some "count") (None) (None) (Some (65535 # 1));
  (* 1485 *) mkv "max_stack_l1b_echo_sar_ku" U32 ["time_l1b_echo_sar_ku"]
      (Some "FFT power unit") (Some (1 # 100)) (Some (0 # 1)) (Some (4294967295 # 1));
  (* 1495 *) mkv "stdev_stack_l1b_echo_sar_ku" U32 ["time_l1b_echo_sar_ku"]
      (Some "rad") (Some (1 # 1000000)) (Some (0 # 1)) (Some (4294967295 # 1));
  (* 1505 *) mkv "skew_stack_l1b_echo_sar_ku" I32 ["time_l1b_echo_sar_ku"]
      (Some "count") (Some (1 # 1000000)) (Some (0 # 1)) (Some (2147483647 # 1));
  (* 1515 *) mkv "kurt_stack_l1b_echo_sar_ku" I32 ["time_l1b_echo_sar_ku"]
      (Some "count") (Some (1 # 1000000)) (Some (0 # 1)) (Some (2147483647 # 1));
  (* 1525 *) mkv "beam_ang_l1b_echo_sar_ku" I16 ["time_l1b_echo_sar_ku"; "max_multi_stack_ind"]
      (Some "rad") (Some (1 # 1000000)) (Some (0 # 1)) (Some (32767 # 1));
  (* 1538 *) mkv "beam_form_l1b_echo_sar_ku" U16 ["time_l1b_echo_sar_ku"]
      (Some "percent") (Some (1 # 100)) (Some (0 # 1)) (Some (65535 # 1));
  (* 1548 *) mkv "i2q2_meas_ku_l1b_echo_sar_ku" U32 ["time_l1b_echo_sar_ku"; "echo_sample_ind"]
      (Some "count") (Some (1 # 1000)) (Some (0 # 1)) (Some (4294967295 # 1)) ].

(** The keyword arguments of [L1BWriter.write_record] (l1b_writer.py 1562-1639). *)
Definition std_writes : list (string * src) := [
  ("time_l1b_echo_sar_ku", (SSurf "time_surf"));
  ("UTC_day_l1b_echo_sar_ku", (SLocal "utc_days"));
  ("UTC_sec_l1b_echo_sar_ku", (SLocal "utc_secs"));
  ("GPS_time_l1b_echo_sar_ku", (SSurf "gps_time_surf"));
  ("isp_coarse_time_l1b_echo_sar_ku", (SBurst "isp_coarse_time"));
  ("isp_fine_time_l1b_echo_sar_ku", (SBurst "isp_fine_time"));
  ("sral_fine_time_l1b_echo_sar_ku", (SBurst "sral_fine_time"));
  ("lat_l1b_echo_sar_ku", (SDeg (SSurf "lat_surf")));
  ("lon_l1b_echo_sar_ku", (SDeg (SSurf "lon_surf")));
  ("alt_l1b_echo_sar_ku", (SSurf "alt_sat"));
  ("orb_alt_rate_l1b_echo_sar_ku", (SSurf "alt_rate_sat"));
  ("flag_time_status_l1b_echo_sar_ku", (SBurst "flag_time_status"));
  ("flag_man_pres_l1b_echo_sar_ku", SNone);
  ("flag_man_thrust_l1b_echo_sar_ku", SNone);
  ("flag_man_plane_l1b_echo_sar_ku", SNone);
  ("flag_gnss_status_l1b_echo_sar_ku", SNone);
  ("x_pos_l1b_echo_sar_ku", (SSurf "x_sat"));
  ("y_pos_l1b_echo_sar_ku", (SSurf "y_sat"));
  ("z_pos_l1b_echo_sar_ku", (SSurf "z_sat"));
  ("x_vel_l1b_echo_sar_ku", (SSurf "x_vel_sat"));
  ("y_vel_l1b_echo_sar_ku", (SSurf "y_vel_sat"));
  ("z_vel_l1b_echo_sar_ku", (SSurf "z_vel_sat"));
  ("nav_bul_status_l1b_echo_sar_ku", (SBurst "nav_bul_status"));
  ("nav_bul_source_l1b_echo_sar_ku", (SBurst "nav_bul_source"));
  ("nav_bul_coarse_time_l1b_echo_sar_ku", SNone);
  ("nav_bul_fine_time_l1b_echo_sar_ku", SNone);
  ("seq_count_l1b_echo_sar_ku", (SBurst "source_seq_count"));
  ("oper_instr_l1b_echo_sar_ku", (SBurst "oper_instr"));
  ("SAR_mode_l1b_echo_sar_ku", (SBurst "SAR_mode"));
  ("cl_gain_l1b_echo_sar_ku", (SBurst "cl_gain"));
  ("acq_stat_l1b_echo_sar_ku", (SBurst "acq_stat"));
  ("dem_eeprom_l1b_echo_sar_ku", (SBurst "dem_eeprom"));
  ("weighting_l1b_echo_sar_ku", SNone);
  ("loss_track_l1b_echo_sar_ku", (SBurst "loss_track"));
  ("h0_nav_dem_l1b_echo_sar_ku", (SBurst "h0_nav_dem"));
  ("h0_applied_l1b_echo_sar_ku", (SBurst "h0_applied"));
  ("cor2_nav_dem_l1b_echo_sar_ku", (SBurst "cor2_nav_dem"));
  ("cor2_applied_l1b_echo_sar_ku", (SBurst "cor2_applied"));
  ("dh0_l1b_echo_sar_ku", (SBurst "dh0"));
  ("agccode_ku_l1b_echo_sar_ku", (SBurst "agccode_ku"));
  ("surf_type_l1b_echo_sar_ku", (SBurst "surf_type"));
  ("range_ku_l1b_echo_sar_ku", (SDiv (SMul (SSurf "win_delay_surf") SLight) (SConst 2)));
  ("uso_cor_l1b_echo_sar_ku", (SBurst "uso_cor"));
  ("int_path_cor_ku_l1b_echo_sar_ku", (SBurst "int_path_cor_ku"));
  ("range_rate_l1b_echo_sar_ku", SNone);
  ("agc_ku_l1b_echo_sar_ku", (SBurst "agc_ku"));
  ("scale_factor_ku_l1b_echo_sar_ku", (SSurf "sigma0_scaling_factor"));
  ("agc_cor_ku_l1b_echo_sar_ku", (SSub (SBurst "agc_ku") (SBurst "agccode_ku")));
  ("sig0_cal_ku_l1b_echo_sar_ku", (SBurst "sig0_cal_ku"));
  ("nb_stack_l1b_echo_sar_ku", (SSurf "data_stack_size"));
  ("max_stack_l1b_echo_sar_ku", (SSurf "stack_max"));
  ("stdev_stack_l1b_echo_sar_ku", (SSurf "stack_std"));
  ("skew_stack_l1b_echo_sar_ku", (SSurf "stack_skewness"));
  ("kurt_stack_l1b_echo_sar_ku", (SSurf "stack_kurtosis"));
  ("beam_ang_l1b_echo_sar_ku", (SNeg (SSurf "look_angles_surf")));
  ("beam_form_l1b_echo_sar_ku", SNone);
  ("i2q2_meas_ku_l1b_echo_sar_ku", (SSurf "waveform_multilooked")) ].

Definition std_product : product :=
  {| p_dims := std_dims; p_vars := std_vars; p_writes := std_writes |}.

(** Dimensions of [L1BSWriter] (l1bs_writer.py 88-96).  [ns] is
    [chd.n_samples_sar * cnf.zp_fact_range], [nl] is [cnf.n_looks_stack];
    [None] is the unlimited record dimension. *)
Definition l1bs_dims (ns nl : nat) : list (string * option nat) :=
  [("time_l1bs_echo_sar_ku", None);
   ("echo_sample_ind", Some ns);
   ("max_multi_stack_ind", Some nl)].

(** Variables of [L1BSWriter] (l1bs_writer.py 87-625). *)
Definition l1bs_vars : list vdecl := [
  (* 98 *) mkv "time_l1bs_echo_sar_ku" F64 ["time_l1bs_echo_sar_ku"]
      (Some "seconds since 2000-01-01 00:00:00.0") (None) (None) (None);
  (* 106 *) mkv "UTC_day_l1bs_echo_sar_ku" I16 ["time_l1bs_echo_sar_ku"]
      (Some "days since 2000-01-01 00:00:00.0") (None) (None) (Some (32767 # 1));
  (* 114 *) mkv "UTC_sec_l1bs_echo_sar_ku" F64 ["time_l1bs_echo_sar_ku"]
      (Some "seconds in the day") (None) (None) (Some (18446744073709600000 # 1));
  (* 123 *) mkv "lat_l1bs_echo_sar_ku" I32 ["time_l1bs_echo_sar_ku"]
      (Some "degrees_north") (Some (1 # 1000000)) (Some (0 # 1)) (Some (2147483647 # 1));
  (* 133 *) mkv "lon_l1bs_echo_sar_ku" I32 ["time_l1bs_echo_sar_ku"]
      (Some "degrees_east") (Some (1 # 1000000)) (Some (0 # 1)) (Some (2147483647 # 1));
  (* 144 *) mkv "surf_type_l1bs_echo_sar_ku" I8 ["time_l1bs_echo_sar_ku"]
      None (None) (None) (Some (127 # 1));
  (* 160 *) mkv "records_count_l1bs_echo_sar_ku" I32 ["time_l1bs_echo_sar_ku"]
      (Some "count") (None) (None) (Some (2147483647 # 1));
  (* 168 *) mkv "alt_l1bs_echo_sar_ku" I32 ["time_l1bs_echo_sar_ku"]
      (Some "m") (Some (1 # 10000)) (Some (700000 # 1)) (Some (2147483647 # 1));
  (* 178 *) mkv "orb_alt_rate_l1bs_echo_sar_ku" I16 ["time_l1bs_echo_sar_ku"]
      (Some "m/s") (Some (1 # 100)) (Some (0 # 1)) (Some (32767 # 1));
  (* 188 *) mkv "x_pos_l1bs_echo_sar_ku" F64 ["time_l1bs_echo_sar_ku"]
      (Some "m") (None) (None) (Some (18446744073709551616 # 1));
  (* 196 *) mkv "y_pos_l1bs_echo_sar_ku" F64 ["time_l1bs_echo_sar_ku"]
      (Some "m") (None) (None) (Some (18446744073709551616 # 1));
  (* 204 *) mkv "z_pos_l1bs_echo_sar_ku" F64 ["time_l1bs_echo_sar_ku"]
      (Some "m") (None) (None) (Some (18446744073709551616 # 1));
  (* 212 *) mkv "x_vel_l1bs_echo_sar_ku" F64 ["time_l1bs_echo_sar_ku"]
      (Some "m/s") (None) (None) (Some (18446744073709551616 # 1));
  (* 220 *) mkv "y_vel_l1bs_echo_sar_ku" F64 ["time_l1bs_echo_sar_ku"]
      (Some "m/s") (None) (None) (Some (18446744073709551616 # 1));
  (* 228 *) mkv "z_vel_l1bs_echo_sar_ku" F64 ["time_l1bs_echo_sar_ku"]
      (Some "m/s") (None) (None) (Some (18446744073709551616 # 1));
  (* 236 *) mkv "meas_x_pos_l1bs_echo_sar_ku" F64 ["time_l1bs_echo_sar_ku"]
      (Some "m") (None) (None) (Some (18446744073709551616 # 1));
  (* 244 *) mkv "meas_y_pos_l1bs_echo_sar_ku" F64 ["time_l1bs_echo_sar_ku"]
      (Some "m") (None) (None) (Some (18446744073709551616 # 1));
  (* 252 *) mkv "meas_z_pos_l1bs_echo_sar_ku" F64 ["time_l1bs_echo_sar_ku"]
      (Some "m") (None) (None) (Some (18446744073709551616 # 1));
  (* 260 *) mkv "roll_sat_pointing_l1bs_echo_sar_ku" I16 ["time_l1bs_echo_sar_ku"]
      (Some "degrees") (Some (1 # 10000)) (Some (0 # 1)) (Some (32767 # 1));
  (* 272 *) mkv "pitch_sat_pointing_l1bs_echo_sar_ku" I16 ["time_l1bs_echo_sar_ku"]
      (Some "degrees") (Some (1 # 10000)) (Some (0 # 1)) (Some (32767 # 1));
  (* 284 *) mkv "yaw_sat_pointing_l1bs_echo_sar_ku" I16 ["time_l1bs_echo_sar_ku"]
      (Some "degrees") (Some (1 # 10000)) (Some (0 # 1)) (Some (32767 # 1));
  (* 296 *) mkv "roll_sral_mispointing_l1bs_echo_sar_ku" I16 ["time_l1bs_echo_sar_ku"]
      (Some "degrees") (Some (1 # 10000)) (Some (0 # 1)) (Some (32767 # 1));
  (* 308 *) mkv "pitch_sral_mispointing_l1bs_echo_sar_ku" I16 ["time_l1bs_echo_sar_ku"]
      (Some "degrees") (Some (1 # 10000)) (Some (0 # 1)) (Some (32767 # 1));
  (* 320 *) mkv "yaw_sral_mispointing_l1bs_echo_sar_ku" I16 ["time_l1bs_echo_sar_ku"]
      (Some "degrees") (Some (1 # 10000)) (Some (0 # 1)) (Some (32767 # 1));
  (* 332 *) mkv "range_ku_l1bs_echo_sar_ku" I32 ["time_l1bs_echo_sar_ku"]
      (Some "m") (Some (1 # 10000)) (Some (700000 # 1)) (Some (2147483647 # 1));
  (* 346 *) mkv "int_path_cor_ku_l1bs_echo_sar_ku" I32 ["time_l1bs_echo_sar_ku"]
      (Some "m") (Some (1 # 10000)) (Some (0 # 1)) (Some (2147483647 # 1));
  (* 357 *) mkv "uso_cor_l1bs_echo_sar_ku" I32 ["time_l1bs_echo_sar_ku"]
      (Some "m") (Some (1 # 10000)) (Some (0 # 1)) (Some (2147483647 # 1));
  (* 368 *) mkv "cog_cor_l1bs_echo_sar_ku" I16 ["time_l1bs_echo_sar_ku"]
      (Some "m") (Some (1 # 10000)) (Some (0 # 1)) (Some (32767 # 1));
  (* 380 *) mkv "agccode_ku_l1bs_echo_sar_ku" I8 ["time_l1bs_echo_sar_ku"]
      (Some "dB") (None) (None) (Some (127 # 1));
  (* 388 *) mkv "agc_ku_l1bs_echo_sar_ku" I32 ["time_l1bs_echo_sar_ku"]
      (Some "dB") (Some (1 # 100)) (Some (0 # 1)) (Some (2147483647 # 1));
  (* 399 *) mkv "scale_factor_ku_l1bs_echo_sar_ku" I32 ["time_l1bs_echo_sar_ku"]
      (Some "dB") (Some (1 # 100)) (Some (0 # 1)) (Some (2147483647 # 1));
  (* 410 *) mkv "sig0_cal_ku_l1bs_echo_sar_ku" I32 ["time_l1bs_echo_sar_ku"]
      (Some "dB") (Some (1 # 100)) (Some (0 # 1)) (Some (2147483647 # 1));
  (* 420 *) mkv "snr_ku_l1bs_echo_sar_ku" I32 ["time_l1bs_echo_sar_ku"]
      (Some "dB") (Some (1 # 100)) (Some (0 # 1)) (Some (2147483647 # 1));
  (* 430 *) mkv "i2q2_meas_ku_l1bs_echo_sar_ku" U32 ["time_l1bs_echo_sar_ku"; "echo_sample_ind"]
      (Some "count") (Some (1 # 1000)) (Some (0 # 1)) (Some (4294967295 # 1));
  (* 443 *) mkv "nb_stack_l1bs_echo_sar_ku" U16 ["time_l1bs_echo_sar_ku"]
      (Some "count") (None) (None) (Some (65535 # 1));
  (* 451 *) mkv "max_stack_l1bs_echo_sar_ku" U32 ["time_l1bs_echo_sar_ku"]
      (Some "FFT power unit") (Some (1 # 10000)) (Some (0 # 1)) (Some (4294967295 # 1));
  (* 461 *) mkv "max_loc_stack_l1bs_echo_sar_ku" U16 ["time_l1bs_echo_sar_ku"]
      (Some "count") (None) (None) (Some (65535 # 1));
  (* 469 *) mkv "stdev_stack_l1bs_echo_sar_ku" U32 ["time_l1bs_echo_sar_ku"]
      (Some "rad") (Some (1 # 1000000)) (Some (0 # 1)) (Some (4294967295 # 1));
  (* 479 *) mkv "skew_stack_l1bs_echo_sar_ku" I32 ["time_l1bs_echo_sar_ku"]
      (Some "count") (Some (1 # 1000000)) (Some (0 # 1)) (Some (2147483647 # 1));
  (* 489 *) mkv "kurt_stack_l1bs_echo_sar_ku" I32 ["time_l1bs_echo_sar_ku"]
      (Some "count") (Some (1 # 1000000)) (Some (0 # 1)) (Some (2147483647 # 1));
  (* 499 *) mkv "beam_ang_l1bs_echo_sar_ku" I16 ["time_l1bs_echo_sar_ku"; "max_multi_stack_ind"]
      (Some "rad") (Some (1 # 1000000)) (Some (157 # 100)) (Some (32767 # 1));
  (* 511 *) mkv "beam_form_l1bs_echo_sar_ku" U8 ["time_l1bs_echo_sar_ku"]
      (Some "percent") (Some (1 # 100)) (Some (0 # 1)) (Some (65535 # 1));
  (* 521 *) mkv "burst_start_ind_l1bs_echo_sar_ku" I32 ["time_l1bs_echo_sar_ku"]
      (Some "count") (None) (None) (Some (2147483647 # 1));
  (* 529 *) mkv "burst_stop_ind_l1bs_echo_sar_ku" I32 ["time_l1bs_echo_sar_ku"]
      (Some "count") (None) (None) (Some (2147483647 # 1));
  (* 537 *) mkv "iq_scale_factor_l1bs_echo_sar_ku" F64 ["time_l1bs_echo_sar_ku"]
      None (None) (None) (Some (18446744073709551616 # 1));
  (* 547 *) mkv "i_echoes_ku_l1bs_echo_sar_ku" I8 ["time_l1bs_echo_sar_ku"; "max_multi_stack_ind"; "echo_sample_ind"]
      (Some "count") (None) (None) (Some ((-128) # 1));
  (* 561 *) mkv "q_echoes_ku_l1bs_echo_sar_ku" I8 ["time_l1bs_echo_sar_ku"; "max_multi_stack_ind"; "echo_sample_ind"]
      (Some "count") (None) (None) (Some ((-128) # 1));
  (* 575 *) mkv "start_look_angle_stack_l1bs_echo_sar_ku" I16 ["time_l1bs_echo_sar_ku"]
      (Some "rad") (Some (1 # 1000000)) (Some (0 # 1)) (Some (32767 # 1));
  (* 585 *) mkv "stop_look_angle_stack_l1bs_echo_sar_ku" I16 ["time_l1bs_echo_sar_ku"]
      (Some "rad") (Some (1 # 1000000)) (Some (0 # 1)) (Some (32767 # 1));
  (* 595 *) mkv "power_var_stack_l1bs_echo_sar_ku" I16 ["time_l1bs_echo_sar_ku"; "max_multi_stack_ind"]
      (Some "FFT power unit") (None) (None) (Some (32767 # 1));
  (* 606 *) mkv "start_beam_ang_stack_l1bs_echo_sar_ku" I16 ["time_l1bs_echo_sar_ku"]
      (Some "rad") (Some (1 # 1000000)) (Some (157 # 100)) (Some (32767 # 1));
  (* 616 *) mkv "stop_beam_ang_stack_l1bs_echo_sar_ku" I16 ["time_l1bs_echo_sar_ku"]
      (Some "rad") (Some (1 # 1000000)) (Some (157 # 100)) (Some (32767 # 1)) ].

(** The keyword arguments of [L1BSWriter.write_record] (l1bs_writer.py 627-703). *)
Definition l1bs_writes : list (string * src) := [
  ("time_l1bs_echo_sar_ku", (SSurf "time_surf"));
  ("UTC_day_l1bs_echo_sar_ku", (SLocal "utc_days"));
  ("UTC_sec_l1bs_echo_sar_ku", (SLocal "utc_secs"));
  ("lat_l1bs_echo_sar_ku", (SDeg (SSurf "lat_surf")));
  ("lon_l1bs_echo_sar_ku", (SDeg (SSurf "lon_surf")));
  ("surf_type_l1bs_echo_sar_ku", (SSurf "surface_type.value"));
  ("records_count_l1bs_echo_sar_ku", (SSurf "surface_counter"));
  ("alt_l1bs_echo_sar_ku", (SSurf "alt_sat"));
  ("orb_alt_rate_l1bs_echo_sar_ku", (SSurf "alt_rate_sat"));
  ("x_pos_l1bs_echo_sar_ku", (SSurf "x_sat"));
  ("y_pos_l1bs_echo_sar_ku", (SSurf "y_sat"));
  ("z_pos_l1bs_echo_sar_ku", (SSurf "z_sat"));
  ("x_vel_l1bs_echo_sar_ku", (SSurf "x_vel_sat"));
  ("y_vel_l1bs_echo_sar_ku", (SSurf "y_vel_sat"));
  ("z_vel_l1bs_echo_sar_ku", (SSurf "z_vel_sat"));
  ("meas_x_pos_l1bs_echo_sar_ku", (SSurf "x_surf"));
  ("meas_y_pos_l1bs_echo_sar_ku", (SSurf "y_surf"));
  ("meas_z_pos_l1bs_echo_sar_ku", (SSurf "z_surf"));
  ("roll_sat_pointing_l1bs_echo_sar_ku", (SSurf "roll_sat"));
  ("pitch_sat_pointing_l1bs_echo_sar_ku", (SSurf "pitch_sat"));
  ("yaw_sat_pointing_l1bs_echo_sar_ku", (SSurf "yaw_sat"));
  ("roll_sral_mispointing_l1bs_echo_sar_ku", (SBurst "roll_sral_mispointing"));
  ("pitch_sral_mispointing_l1bs_echo_sar_ku", (SBurst "pitch_sral_mispointing"));
  ("yaw_sral_mispointing_l1bs_echo_sar_ku", (SBurst "yaw_sral_mispointing"));
  ("range_ku_l1bs_echo_sar_ku", (SDiv (SMul (SSurf "win_delay_surf") SLight) (SConst 2)));
  ("int_path_cor_ku_l1bs_echo_sar_ku", (SBurst "int_path_cor_ku"));
  ("uso_cor_l1bs_echo_sar_ku", (SBurst "uso_cor"));
  ("cog_cor_l1bs_echo_sar_ku", (SBurst "cog_cor"));
  ("agccode_ku_l1bs_echo_sar_ku", (SBurst "agccode_ku"));
  ("agc_ku_l1bs_echo_sar_ku", (SBurst "agc_ku"));
  ("scale_factor_ku_l1bs_echo_sar_ku", (SSurf "sigma0_scaling_factor"));
  ("sig0_cal_ku_l1bs_echo_sar_ku", (SBurst "sig0_cal_ku"));
  ("snr_ku_l1bs_echo_sar_ku", SNone);
  ("i2q2_meas_ku_l1bs_echo_sar_ku", (SMul (SSurf "waveform_multilooked") (SLocal "scale_factor")));
  ("nb_stack_l1bs_echo_sar_ku", (SSurf "data_stack_size"));
  ("max_stack_l1bs_echo_sar_ku", (SSurf "stack_max"));
  ("max_loc_stack_l1bs_echo_sar_ku", SNone);
  ("stdev_stack_l1bs_echo_sar_ku", (SSurf "stack_std"));
  ("skew_stack_l1bs_echo_sar_ku", (SSurf "stack_skewness"));
  ("kurt_stack_l1bs_echo_sar_ku", (SSurf "stack_kurtosis"));
  ("beam_ang_l1bs_echo_sar_ku", (SSurf "beam_angles_start_stop"));
  ("beam_form_l1bs_echo_sar_ku", SNone);
  ("burst_start_ind_l1bs_echo_sar_ku", (SSurf "start_burst_index"));
  ("burst_stop_ind_l1bs_echo_sar_ku", (SSurf "stop_burst_index"));
  ("iq_scale_factor_l1bs_echo_sar_ku", (SLocal "dynamic_scale"));
  ("i_echoes_ku_l1bs_echo_sar_ku", (SDiv (SLocal "stack_i") (SLocal "dynamic_scale")));
  ("q_echoes_ku_l1bs_echo_sar_ku", (SDiv (SLocal "stack_q") (SLocal "dynamic_scale")));
  ("start_look_angle_stack_l1bs_echo_sar_ku", (SSurf "start_look_angle"));
  ("stop_look_angle_stack_l1bs_echo_sar_ku", (SSurf "stop_look_angle"));
  ("start_beam_ang_stack_l1bs_echo_sar_ku", (SSurf "start_beam_angle"));
  ("stop_beam_ang_stack_l1bs_echo_sar_ku", (SSurf "stop_beam_angle")) ].

Definition l1bs_product : product :=
  {| p_dims := l1bs_dims; p_vars := l1bs_vars; p_writes := l1bs_writes |}.
