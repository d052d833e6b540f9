(** Vocabulary for C86-C89, independent of how the writers are coded. *)
From Coq Require Import String List ZArith QArith Reals Bool Arith.
From Verif Require Import Common WriterModel SchModel.
Import ListNotations.
Open Scope string_scope.

Definition products : list product := [ext_product; std_product; l1bs_product].

(** * Shapes of the values of a surface (C86)

    Per-beam arrays have at most [nl] entries, waveforms at most [ns], the
    complex stack at most [nl] rows and [ns] columns; everything else is a
    number. *)
Definition stack_vectors : list string :=
  ["beam_angles_surf"; "look_angles_surf"; "beam_angles_start_stop";
   "stack_mask_vector_start_stop"; "sigma0_scaling_factor_beam"].
Definition stack_matrices : list string := ["stack_i"; "stack_q"].

Definition is_num (v : value R) : Prop := exists x, v = VNum x.
Definition is_vec (m : nat) (v : value R) : Prop :=
  exists n f, v = VVec n f /\ (0 < n <= m)%nat.
Definition is_mat (m k : nat) (v : value R) : Prop :=
  exists r c f, v = VMat r c f /\ (0 < r <= m)%nat /\ (0 < c <= k)%nat.

Definition shaped (ns nl : nat) (e : env) : Prop :=
  (forall f, In f stack_vectors -> is_vec nl (e_surf e f)) /\
  is_vec ns (e_surf e "waveform_multilooked") /\
  (forall f, ~ In f stack_vectors -> f <> "waveform_multilooked" -> is_num (e_surf e f)) /\
  (forall f, is_num (e_burst e f)) /\
  (forall f, In f stack_matrices -> is_mat nl ns (e_local e f)) /\
  (forall f, ~ In f stack_matrices -> is_num (e_local e f)).

(** Variables of each product that no record ever gives a value. *)
Definition l1b_never : list string :=
  ["time_time_corr_val_l1b_echo_sar_ku"; "flag_man_pres_l1b_echo_sar_ku";
   "flag_man_thrust_l1b_echo_sar_ku"; "flag_man_plane_l1b_echo_sar_ku";
   "flag_gnss_status_l1b_echo_sar_ku"; "nav_bul_coarse_time_l1b_echo_sar_ku";
   "nav_bul_fine_time_l1b_echo_sar_ku"; "isp_time_status_echo_sar_ku";
   "weighting_l1b_echo_sar_ku"; "range_rate_l1b_echo_sar_ku";
   "beam_form_l1b_echo_sar_ku"].
Definition l1bs_never : list string :=
  ["snr_ku_l1bs_echo_sar_ku"; "max_loc_stack_l1bs_echo_sar_ku";
   "beam_form_l1bs_echo_sar_ku"; "power_var_stack_l1bs_echo_sar_ku"].
Definition nevers : list (product * list string) :=
  [(ext_product, l1b_never); (std_product, l1b_never); (l1bs_product, l1bs_never)].

(** The fill value is a number of the variable's type. *)
Definition fill_fits (v : vdecl) : Prop :=
  match v_fill v with
  | None => True
  | Some q => is_int (v_type v) = true ->
              exists n : Z, (q == inject_Z n)%Q /\ (tmin (v_type v) <= n <= tmax (v_type v))%Z
  end.

(** * Packing (C87) *)
Open Scope R_scope.

(** Rounding to a nearest integer; conversions stay in the type. *)
Definition nearest (rnd : R -> Z) : Prop := forall x, Rabs (IZR (rnd x) - x) <= 1 / 2.
Definition in_type (wrap : ntype -> Z -> Z) : Prop :=
  forall t n, (tmin t <= wrap t n <= tmax t)%Z.

(** A number survives: what is read back is within half a packing step. *)
Definition survives (rnd : R -> Z) (wrap : ntype -> Z -> Z) (v : vdecl) (x : R) : Prop :=
  exists y, unpack v (pack rnd wrap v x) = Some y /\
            Rabs (y - x) <= Q2R (qor (v_scale v) 1) / 2.

Close Scope R_scope.
Open Scope Q_scope.

(** Physical ranges: degrees, metres, m/s, dB, radians. *)
Definition shared_ranges (sfx : string) : list (string * (Q * Q)) :=
  map (fun p => ((fst p ++ sfx)%string, snd p))
  [("lat", (-(90), 90)); ("lon", (-(360), 360));
   ("alt", (500000, 900000)); ("range_ku", (500000, 900000));
   ("orb_alt_rate", (-(300), 300));
   ("uso_cor", (-(1000), 1000)); ("int_path_cor_ku", (-(1000), 1000));
   ("agc_ku", (-(100), 100)); ("sig0_cal_ku", (-(100), 100));
   ("scale_factor_ku", (-(1000), 1000));
   ("stdev_stack", (0, 1)); ("skew_stack", (-(100), 100)); ("kurt_stack", (-(100), 100))].

Definition small : Q * Q := (-(3 # 100), 3 # 100).
Definition upright : Q * Q := (1541 # 1000, 1600 # 1000).
Definition degree3 : Q * Q := (-(3), 3).

Definition ext_ranges : list (string * (Q * Q)) :=
  shared_ranges "_l1b_echo_sar_ku" ++
  [("agc_cor_ku_l1b_echo_sar_ku", (-(300), 300));
   ("beam_ang_l1b_echo_sar_ku", upright);
   ("start_beam_ang_stack_l1b_echo_sar_ku", upright);
   ("stop_beam_ang_stack_l1b_echo_sar_ku", upright);
   ("start_look_angle_stack_l1b_echo_sar_ku", small);
   ("stop_look_angle_stack_l1b_echo_sar_ku", small);
   ("roll_sat_pointing_l1b_echo_sar_ku", degree3);
   ("pitch_sat_pointing_l1b_echo_sar_ku", degree3);
   ("yaw_sat_pointing_l1b_echo_sar_ku", degree3);
   ("i2q2_meas_ku_l1b_echo_sar_ku", (0, 1));
   ("stack_scale_factor_ku_l1b_echo_sar_ku", (-(1000), 1000))].
Definition std_ranges : list (string * (Q * Q)) :=
  shared_ranges "_l1b_echo_sar_ku" ++
  [("agc_cor_ku_l1b_echo_sar_ku", (-(300), 300));
   ("beam_ang_l1b_echo_sar_ku", small)].
Definition l1bs_ranges : list (string * (Q * Q)) :=
  shared_ranges "_l1bs_echo_sar_ku" ++
  [("beam_ang_l1bs_echo_sar_ku", upright);
   ("start_beam_ang_stack_l1bs_echo_sar_ku", upright);
   ("stop_beam_ang_stack_l1bs_echo_sar_ku", upright);
   ("start_look_angle_stack_l1bs_echo_sar_ku", small);
   ("stop_look_angle_stack_l1bs_echo_sar_ku", small);
   ("roll_sat_pointing_l1bs_echo_sar_ku", degree3);
   ("pitch_sat_pointing_l1bs_echo_sar_ku", degree3);
   ("yaw_sat_pointing_l1bs_echo_sar_ku", degree3);
   ("roll_sral_mispointing_l1bs_echo_sar_ku", degree3);
   ("pitch_sral_mispointing_l1bs_echo_sar_ku", degree3);
   ("yaw_sral_mispointing_l1bs_echo_sar_ku", degree3);
   ("cog_cor_l1bs_echo_sar_ku", (-(3), 3))].
Definition ranges : list (product * list (string * (Q * Q))) :=
  [(ext_product, ext_ranges); (std_product, std_ranges); (l1bs_product, l1bs_ranges)].

Close Scope Q_scope.
Open Scope R_scope.

(** * Units and agreement (C88) *)

(** A number given in SI units, expressed in the unit of the attribute. *)
Definition in_unit (u : string) (x : R) : R :=
  if (u =? "degrees") || (u =? "degrees_north") || (u =? "degrees_east")
  then x * 180 / PI else x.

(** The quantity each variable stands for, in SI units.  Surfaces keep angles
    in radians; the burst's mispointing angles are kept in degrees. *)
Definition rad_of_deg (x : R) : R := x * PI / 180.
Definition quantity (e : env) (base : string) : option (value R) :=
  let s f := Some (e_surf e f) in
  let table :=
    [("time", s "time_surf"); ("lat", s "lat_surf"); ("lon", s "lon_surf");
     ("alt", s "alt_sat"); ("orb_alt_rate", s "alt_rate_sat");
     ("x_pos", s "x_sat"); ("y_pos", s "y_sat"); ("z_pos", s "z_sat");
     ("x_vel", s "x_vel_sat"); ("y_vel", s "y_vel_sat"); ("z_vel", s "z_vel_sat");
     ("meas_x_pos", s "x_surf"); ("meas_y_pos", s "y_surf"); ("meas_z_pos", s "z_surf");
     ("roll_sat_pointing", s "roll_sat"); ("pitch_sat_pointing", s "pitch_sat");
     ("yaw_sat_pointing", s "yaw_sat");
     ("roll_sral_mispointing", Some (vmap rad_of_deg (e_burst e "roll_sral_mispointing")));
     ("pitch_sral_mispointing", Some (vmap rad_of_deg (e_burst e "pitch_sral_mispointing")));
     ("yaw_sral_mispointing", Some (vmap rad_of_deg (e_burst e "yaw_sral_mispointing")));
     ("range_ku", Some (vmap (fun d => d * e_light e / 2) (e_surf e "win_delay_surf")));
     ("stdev_stack", s "stack_std");
     ("start_look_angle_stack", s "start_look_angle"); ("stop_look_angle_stack", s "stop_look_angle");
     ("start_beam_ang_stack", s "start_beam_angle"); ("stop_beam_ang_stack", s "stop_beam_angle");
     ("look_ang", s "look_angles_surf")]
  in match List.find (fun p => fst p =? base) table with Some p => snd p | None => None end.

(** Variables of the table above, and those of a product. *)
Definition quantities : list string :=
  ["time"; "lat"; "lon"; "alt"; "orb_alt_rate"; "x_pos"; "y_pos"; "z_pos";
   "x_vel"; "y_vel"; "z_vel"; "meas_x_pos"; "meas_y_pos"; "meas_z_pos";
   "roll_sat_pointing"; "pitch_sat_pointing"; "yaw_sat_pointing";
   "roll_sral_mispointing"; "pitch_sral_mispointing"; "yaw_sral_mispointing";
   "range_ku"; "stdev_stack"; "start_look_angle_stack"; "stop_look_angle_stack";
   "start_beam_ang_stack"; "stop_beam_ang_stack"; "look_ang"].
Definition suffix_of (l1bs : bool) : string :=
  if l1bs then "_l1bs_echo_sar_ku" else "_l1b_echo_sar_ku".
Definition tagged : list (bool * product) :=
  [(false, ext_product); (false, std_product); (true, l1bs_product)].

Definition same_value (v w : value R) : Prop :=
  match v, w with
  | VNum a, VNum b => a = b
  | VVec n f, VVec m g => n = m /\ forall i, f i = g i
  | VMat r c f, VMat r' c' g => r = r' /\ c = c' /\ forall i j, f i j = g i j
  | _, _ => False
  end.

(** The value a product stores under a name is the quantity, in the unit the
    variable declares. *)
Definition states_quantity (l1bs : bool) (p : product) (base : string) : Prop :=
  forall v s e q w,
    In v (p_vars p) -> v_name v = (base ++ suffix_of l1bs)%string ->
    In (v_name v, s) (p_writes p) ->
    quantity e base = Some q -> eval e s = Some w ->
    same_value w (vmap (in_unit (match v_units v with Some u => u | None => "" end)) q).

Close Scope R_scope.

(** * Calendar (C89): days from 1 January of year 0 to 1 January of year [y]
      in the Gregorian calendar, and to a day of that year. *)
Open Scope Z_scope.
Definition leap (y : Z) : bool :=
  ((y mod 4 =? 0) && negb (y mod 100 =? 0)) || (y mod 400 =? 0).
Fixpoint year_days (n : nat) : Z :=
  match n with
  | O => 0
  | S k => year_days k + (if leap (Z.of_nat k) then 366 else 365)
  end.
Definition january (y : nat) (d : Z) : Z := year_days y + (d - 1).
