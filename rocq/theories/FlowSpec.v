(** What is claimed about attributes being set before they are used. *)
From Coq Require Import List String Bool.
From Verif Require Import SchModel FlowModel.
Import ListNotations.
Local Open Scope string_scope.

Definition has {V} (s : store V) (k : string) : Prop := exists v, s k = Some v.
Definition has_all {V} (s : store V) (ks : list string) : Prop := forall k, In k ks -> has s k.
Definition has_exactly {V} (s : store V) (ks : list string) : Prop := forall k, has s k <-> In k ks.
Definition same_store {V} (s s' : store V) : Prop := forall k, s k = s' k.
Definition same_but {V} (x : string) (s s' : store V) : Prop := forall k, k <> x -> s k = s' k.
Definition succeeds {A} (r : res A) : Prop := exists a, r = Ok a.

(** The attribute the stack gathering has from its constructor
    (stack_gathering.py 16). *)
Definition constructed {V} (o : objects V) : Prop := has (o "stack_gathering") "closest_burst_index".

(** Everything later read from a burst. *)
Definition burst_needed : list string :=
  ["beam_angles_list"; "doppler_angle_sar_sat"; "beams_focused"; "t0_sar"; "pitch_sar"; "isp_pid"; "x_sar_sat";
   "y_sar_sat"; "z_sar_sat"; "win_delay_sar_ku"; "source_seq_count"; "pri_sar_pre_dat"; "agc_ku";
   "isp_coarse_time"; "isp_fine_time"; "sral_fine_time"; "flag_time_status"; "nav_bul_status"; "nav_bul_source";
   "oper_instr"; "SAR_mode"; "cl_gain"; "acq_stat"; "dem_eeprom"; "loss_track"; "h0_nav_dem"; "h0_applied";
   "cor2_nav_dem"; "cor2_applied"; "dh0"; "surf_type"; "uso_cor"; "int_path_cor_ku"; "agccode_ku"; "sig0_cal_ku";
   "roll_sral_mispointing"; "pitch_sral_mispointing"; "yaw_sral_mispointing"; "cog_cor"].

(** The orders of the six steps in which each finds what it reads. *)
Definition good_orders : list (list step) :=
  [[s_gather; s_geometry; s_compress; s_mask; s_multilook; s_sigma];
   [s_gather; s_geometry; s_compress; s_mask; s_sigma; s_multilook];
   [s_gather; s_geometry; s_compress; s_sigma; s_mask; s_multilook];
   [s_gather; s_geometry; s_sigma; s_compress; s_mask; s_multilook]].

(** Two outcomes that agree on the surface. *)
Definition agree {V} (r r' : res (objects V * store V)) : Prop :=
  match r, r' with
  | Ok (_, s), Ok (_, s') => same_store s s'
  | Err e, Err e' => e = e'
  | _, _ => False
  end.
