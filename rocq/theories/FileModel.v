(** From an L1A file to the items a run is fed with: opening the file, reading
    the variables of a record through the cache, making the burst and testing
    its position (dedop/data/input/l1a/l1a_dataset.py 86-263).  Definitions
    only. *)
From Coq Require Import String List ZArith QArith Qreals Reals Bool.
From Verif Require Import Common Cplx GeoModel ReaderModel WholeModel.
From Verif Require PktModel SurfModel PointModel LinModel.
Import ListNotations.
Local Open Scope string_scope.
Local Open Scope list_scope.
Local Open Scope nat_scope.

(** What a variable holds for one record: a number, a row (one number for each
    pulse) or a table.  Numbers that decide where a run goes (time, latitude,
    longitude) are rational, as floats are; the others are reals. *)
Inductive cell := CExact (q : Q) | CNum (x : R) | CRow (l : list R) | CTable (l : list (list R)).
(** The size of the dimension time_l1a_echo_sar_ku, and the variables. *)
Record file := mk_file { f_size : nat; f_var : string -> list cell }.

Definition exact (c : cell) : Q := match c with CExact q => q | _ => 0%Q end.
Definition num (c : cell) : R := match c with CExact q => Q2R q | CNum x => x | _ => 0%R end.
Definition row (c : cell) : list R := match c with CRow l => l | _ => [] end.
Definition table (c : cell) : list (list R) := match c with CTable l => l | _ => [] end.

Definition v_lat := "lat_l1a_echo_sar_ku".
Definition v_lon := "lon_l1a_echo_sar_ku".
Definition v_time := "time_l1a_echo_sar_ku".
Definition v_i := "i_meas_ku_l1a_echo_sar_ku".
Definition v_q := "q_meas_ku_l1a_echo_sar_ku".
Definition v_power := "burst_power_cor_ku_l1a_echo_sar_ku".
Definition v_phase := "burst_phase_cor_ku_l1a_echo_sar_ku".
Definition v_gprw := "gprw_meas_ku_l1a_echo_sar_ku".
(** l1a_dataset.py 164-235: the variables read, in that order; [PktModel.attributes]
    are the scalar arguments of lines 173-230. *)
Fixpoint vars (s : PktModel.asrc) : list string :=
  match s with PktModel.AVar x => [x] | PktModel.ARad a => vars a | _ => [] end.
Definition names : list string :=
  ["agc_ku_l1a_echo_sar_ku"; v_i; v_q; "pitch_sat_pointing_l1a_echo_sar_ku"; "cog_cor_l1a_echo_sar_ku";
   "range_ku_l1a_echo_sar_ku"] ++ flat_map (fun a => vars (snd a)) PktModel.attributes ++ [v_power; v_phase; v_gprw].

(** What the data set is opened with: derived characterisation parameters and
    speed of light, seconds of a day, flag_cal2_table_index, the chunk size of
    the reader (40, netcdf_reader.py 23). *)
Record opener := mk_opener { n_aux : PktModel.aux; n_day : R; n_cal2 : nat; n_chunk : Z }.

(** The first error of a sequence of reads, or their values by name. *)
Fixpoint collect (vs : list string) (l : list (res read_err cell)) : res read_err (list (string * cell)) :=
  match vs, l with
  | v :: vs, Ok c :: l => match collect vs l with Ok r => Ok ((v, c) :: r) | Err e => Err e end
  | _ :: _, Err e :: _ => Err e
  | _, _ => Ok []
  end.
Definition value_of (l : list (string * cell)) (v : string) : cell :=
  match find (fun p => (fst p =? v)%string) l with Some p => snd p | None => CNum 0 end.

(** l1a_dataset.py 162-235: the burst from the values read.  The Cartesian
    positions and the Doppler angle (237-238) are computed in [WholeModel]. *)
Definition scalars (c : string -> cell) : PktModel.l1a :=
  {| PktModel.l_var := fun v => num (c v); PktModel.l_i := fun _ => 0%R; PktModel.l_q := fun _ => 0%R |}.
Definition arg (o : opener) (c : string -> cell) (f : string) : R :=
  match PktModel.attribute (n_aux o) (scalars c) f with Some x => x | None => 0%R end.
Definition zip2 {A B D} (f : A -> B -> D) (l : list A) (l' : list B) : list D := map (fun p => f (fst p) (snd p)) (combine l l').
Definition waveform (c : string -> cell) : list (list C) :=
  let s := PktModel.agc_scale (scalars c) in
  zip2 (zip2 (fun i q => (i / s, q / s)%R)) (table (c v_i)) (table (c v_q)).
Definition make (o : opener) (c : string -> cell) : rec :=
  mk_rec (exact (c v_time))
    {| SurfModel.b_time := arg o c "time_sar_ku";
       SurfModel.b_lla := V (arg o c "lat_sar_sat") (arg o c "lon_sar_sat") (arg o c "alt_sar_sat");
       SurfModel.b_wd := arg o c "win_delay_sar_ku";
       SurfModel.b_sat := V (arg o c "x_sar_sat") (arg o c "y_sar_sat") (arg o c "z_sar_sat");
       SurfModel.b_surf := V 0 0 0;
       SurfModel.b_vel := V (arg o c "x_vel_sat_sar") (arg o c "y_vel_sat_sar") (arg o c "z_vel_sat_sar");
       SurfModel.b_rate := arg o c "alt_rate_sat_sar";
       SurfModel.b_roll := arg o c "roll_sar"; SurfModel.b_pitch := arg o c "pitch_sar"; SurfModel.b_yaw := arg o c "yaw_sar";
       SurfModel.b_days := arg o c "days"; SurfModel.b_secs := arg o c "seconds";
       (* l1a_processing_data.py 792-793 *)
       SurfModel.b_leap := (arg o c "time_sar_ku" - (arg o c "days" * n_day o + arg o c "seconds"))%R |}
    {| LinModel.r_burst :=
         {| PointModel.b_x := 0; PointModel.b_y := 0; PointModel.b_z := 0; PointModel.b_speed := 0;
            PointModel.b_pri := arg o c "pri_sar_pre_dat"; PointModel.b_wd := arg o c "win_delay_sar_ku";
            PointModel.b_t0 := arg o c "t0_sar"; PointModel.b_angles := []; PointModel.b_pos := 0;
            PointModel.b_wfm := waveform c |};
       LinModel.r_agc := arg o c "agc_ku"; LinModel.r_sig0 := arg o c "sig0_cal_ku";
       LinModel.r_power := row (c v_power); LinModel.r_phase := row (c v_phase);
       LinModel.r_table := nth (n_cal2 o) (table (c v_gprw)) [] |}.

(** l1a_dataset.py 162-239, [__getitem__]; the index of the table of lines
    233-235 may be out of range. *)
Definition get_item (o : opener) (fi : file) (i : nat) (r : reader string cell) :
    res read_err (string -> cell) * reader string cell :=
  let '(l, r') := reads (f_var fi) (n_chunk o) (map (fun v => (v, Z.of_nat i)) names) r in
  (match collect names l with
   | Err e => Err e
   | Ok t => if Nat.ltb (n_cal2 o) (length (table (value_of t v_gprw))) then Ok (value_of t) else Err EIndex
   end, r').

(** l1a_dataset.py 248-263, [__next__]: the item, the data set and the reader
    after it.  The burst is read before its position is tested. *)
Definition moved (d : dataset) : dataset :=
  {| d_pos := d_pos d; d_filter := d_filter d; d_start := d_start d; d_final := d_final d; d_last := S (d_last d) |}.
Definition next_packet (o : opener) (fi : file) (d : dataset) (r : reader string cell) :
    option witem * dataset * reader string cell :=
  if Nat.leb (d_final d) (d_last d) then (None, d, r)
  else if negb (check_roi d (d_last d)) then (Some WNothing, moved d, r)
  else match get_item o fi (d_last d) r with
       | (Err _, r') => (Some WFail, d, r')
       | (Ok c, r') =>
           (Some (if is_valid (exact (c v_lat), exact (c v_lon)) then WValid (make o c) else WNothing), moved d, r')
       end.
(** Until StopIteration or the first exception; [n] bounds the number of calls. *)
Fixpoint packets (n : nat) (o : opener) (fi : file) (d : dataset) (r : reader string cell) : list witem :=
  match n with
  | 0 => []
  | S n => match next_packet o fi d r with
           | (None, _, _) => []
           | (Some WFail, _, _) => [WFail]
           | (Some i, d', r') => i :: packets n o fi d' r'
           end
  end.

(** l1a_dataset.py 86-125: opening.  The region is tested on whole variables,
    not through the cache. *)
Definition positions (fi : file) : list pos := combine (map exact (f_var fi v_lat)) (map exact (f_var fi v_lon)).
Definition delivered (o : opener) (g : region) (fi : file) : res read_err (list witem) :=
  match open_dataset g (positions fi) with
  | Err e => Err e
  | Ok d => Ok (packets (f_size fi) o fi d fresh)
  end.
