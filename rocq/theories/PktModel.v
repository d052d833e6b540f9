(** Construction of a burst from an L1A record
    (data/input/l1a/l1a_dataset.py, [L1ADataset.__getitem__]).  Definitions
    only. *)
From Coq Require Import String List ZArith Reals.
Import ListNotations.
Open Scope string_scope.
Open Scope R_scope.

(** The L1A variables of the record, as returned by [get_value]; [l_i] and
    [l_q] are the samples of [i_meas_ku] and [q_meas_ku] of one pulse.  Reals
    instead of floats and integers. *)
Record l1a := {
  l_var : string -> R;
  l_i : nat -> R;
  l_q : nat -> R
}.

(** Derived characterisation parameters and the speed of light. *)
Record aux := { a_chd : string -> R; a_c : R }.

(** Keyword arguments of the [L1AProcessingData] constructor
    (l1a_dataset.py 173-235): a variable, its [radians], a derived
    characterisation parameter, a constant, or the window delay. *)
Inductive asrc :=
| AVar (x : string)
| ARad (a : asrc)
| AChd (x : string)
| AConst (z : Z)
| ADelay.

(** [zcog], [range] and [win_delay_sar_ku] (l1a_dataset.py 169-171, 204):
    [np.cos] is applied to the variable as read. *)
Definition zcog (l : l1a) : R :=
  cos (l_var l "pitch_sat_pointing_l1a_echo_sar_ku") * l_var l "cog_cor_l1a_echo_sar_ku".
Definition range_cog (l : l1a) : R := l_var l "range_ku_l1a_echo_sar_ku" + zcog l.
Definition win_delay (x : aux) (l : l1a) : R := range_cog l * 2 / a_c x.

(** [math.radians] *)
Definition radians (x : R) : R := x * PI / 180.

Fixpoint aeval (x : aux) (l : l1a) (s : asrc) : R :=
  match s with
  | AVar v => l_var l v
  | ARad a => radians (aeval x l a)
  | AChd c => a_chd x c
  | AConst z => IZR z
  | ADelay => win_delay x l
  end.

(** The scalar attributes (l1a_dataset.py 173-230); the waveform is below, the
    calibration arrays (232-234) are passed unchanged and left out. *)
Definition attributes : list (string * asrc) := [
  ("time_sar_ku", (AVar "time_l1a_echo_sar_ku"));
  ("isp_coarse_time", (AVar "isp_coarse_time_l1a_echo_sar_ku"));
  ("isp_fine_time", (AVar "isp_fine_time_l1a_echo_sar_ku"));
  ("sral_fine_time", (AVar "sral_fine_time_l1a_echo_sar_ku"));
  ("days", (AVar "UTC_day_l1a_echo_sar_ku"));
  ("seconds", (AVar "UTC_sec_l1a_echo_sar_ku"));
  ("inst_id_sar_isp", (AConst 0));
  ("pri_sar_pre_dat", (AChd "pri_sar"));
  ("ambiguity_order_sar", (AConst 0));
  ("burst_sar_ku", (AVar "burst_count_prod_l1a_echo_sar_ku"));
  ("lat_sar_sat", (ARad (AVar "lat_l1a_echo_sar_ku")));
  ("lon_sar_sat", (ARad (AVar "lon_l1a_echo_sar_ku")));
  ("alt_sar_sat", (AVar "alt_l1a_echo_sar_ku"));
  ("alt_rate_sat_sar", (AVar "orb_alt_rate_l1a_echo_sar_ku"));
  ("x_vel_sat_sar", (AVar "x_vel_l1a_echo_sar_ku"));
  ("y_vel_sat_sar", (AVar "y_vel_l1a_echo_sar_ku"));
  ("z_vel_sat_sar", (AVar "z_vel_l1a_echo_sar_ku"));
  ("roll_sar", (ARad (AVar "roll_sral_mispointing_l1a_echo_sar_ku")));
  ("pitch_sar", (ARad (AVar "pitch_sral_mispointing_l1a_echo_sar_ku")));
  ("yaw_sar", (ARad (AVar "yaw_sral_mispointing_l1a_echo_sar_ku")));
  ("roll_sral_mispointing", (AVar "roll_sral_mispointing_l1a_echo_sar_ku"));
  ("pitch_sral_mispointing", (AVar "pitch_sral_mispointing_l1a_echo_sar_ku"));
  ("yaw_sral_mispointing", (AVar "yaw_sral_mispointing_l1a_echo_sar_ku"));
  ("cog_cor", (AVar "cog_cor_l1a_echo_sar_ku"));
  ("h0_sar", (AVar "h0_applied_l1a_echo_sar_ku"));
  ("t0_sar", (AChd "t0_nom"));
  ("uso_cor", (AVar "uso_cor_l1a_echo_sar_ku"));
  ("cor2_sar", (AVar "cor2_applied_l1a_echo_sar_ku"));
  ("win_delay_sar_ku", ADelay);
  ("x_sar_sat", (AVar "x_pos_l1a_echo_sar_ku"));
  ("y_sar_sat", (AVar "y_pos_l1a_echo_sar_ku"));
  ("z_sar_sat", (AVar "z_pos_l1a_echo_sar_ku"));
  ("flag_time_status", (AVar "flag_time_status_l1a_echo_sar_ku"));
  ("nav_bul_status", (AVar "nav_bul_status_l1a_echo_sar_ku"));
  ("nav_bul_source", (AVar "nav_bul_source_l1a_echo_sar_ku"));
  ("source_seq_count", (AVar "seq_count_l1a_echo_sar_ku"));
  ("oper_instr", (AVar "oper_instr_l1a_echo_sar_ku"));
  ("SAR_mode", (AVar "SAR_mode_l1a_echo_sar_ku"));
  ("cl_gain", (AVar "cl_gain_l1a_echo_sar_ku"));
  ("acq_stat", (AVar "acq_stat_l1a_echo_sar_ku"));
  ("dem_eeprom", (AVar "dem_eeprom_l1a_echo_sar_ku"));
  ("loss_track", (AVar "loss_track_l1a_echo_sar_ku"));
  ("h0_nav_dem", (AVar "h0_nav_dem_l1a_echo_sar_ku"));
  ("h0_applied", (AVar "h0_applied_l1a_echo_sar_ku"));
  ("cor2_nav_dem", (AVar "cor2_nav_dem_l1a_echo_sar_ku"));
  ("cor2_applied", (AVar "cor2_applied_l1a_echo_sar_ku"));
  ("dh0", (AVar "dh0_l1a_echo_sar_ku"));
  ("agccode_ku", (AVar "agccode_ku_l1a_echo_sar_ku"));
  ("range_ku", (AVar "range_ku_l1a_echo_sar_ku"));
  ("int_path_cor_ku", (AVar "int_path_cor_ku_l1a_echo_sar_ku"));
  ("agc_ku", (AVar "agc_ku_l1a_echo_sar_ku"));
  ("sig0_cal_ku", (AVar "sig0_cal_ku_l1a_echo_sar_ku"));
  ("surf_type", (AVar "surf_type_l1a_echo_sar_ku"))].

(** [getattr(packet, f)] right after construction (the positions and the
    Doppler angle are recomputed by lines 237-238). *)
Definition attribute (x : aux) (l : l1a) (f : string) : option R :=
  match List.find (fun p => (fst p =? f)%string) attributes with
  | Some p => Some (aeval x l (snd p))
  | None => None
  end.

(** [scale_factor] and [waveform] (l1a_dataset.py 162-168): real and imaginary
    part of a sample. *)
Definition agc_scale (l : l1a) : R :=
  Rpower 10 (- l_var l "agc_ku_l1a_echo_sar_ku" / 20).
Definition wave_re (l : l1a) (k : nat) : R := l_i l k / agc_scale l.
Definition wave_im (l : l1a) (k : nat) : R := l_q l k / agc_scale l.
