(** What an L1B file says of the L1A file it was made from. *)
From Coq Require Import String List ZArith Reals Bool.
From Verif Require Import Common GeoModel ReaderModel ChainModel WholeModel FileModel FileSpec WriterModel EndModel.
From Verif Require SurfModel GcorrModel SchModel SchSpec WaveModel.
Import ListNotations.
Local Open Scope string_scope.
Local Open Scope R_scope.

(** Value [a] of variable [x]_l1b_echo_sar_ku of record [n] of the file. *)
Definition said (out : wstate R) (n : nat) (x : string) (a : nat) : option R := w_tbl out (x ++ "_l1b_echo_sar_ku") n a 0.
(** The attributes left open have their usual shapes, and there is room for
    samples and looks. *)
Definition usual (j : job) : Prop :=
  let nl := c_looks (u_cf (j_u j)) in
  let ns := (GcorrModel.k_n (u_k (j_u j)) * u_zp (j_u j))%nat in
  (0 < nl)%nat /\ (0 < ns)%nat /\
  forall p f, (In f SchSpec.stack_vectors -> SchSpec.is_vec nl (j_rest j p f)) /\
    (~ In f SchSpec.stack_vectors -> SchSpec.is_num (j_rest j p f)).

(** The first look, of those kept, whose angle is nearest to the right angle. *)
Definition first_nearest (pi : R) (es : list (nat * nat * option R)) (i : nat) : Prop :=
  exists k b a, nth_error es k = Some (i, b, Some a) /\
    forall k' i' b' a', nth_error es k' = Some (i', b', Some a') ->
      Rabs (a - pi / 2) <= Rabs (a' - pi / 2) /\ ((k' < k)%nat -> Rabs (a - pi / 2) < Rabs (a' - pi / 2)).

(** Variables of a location, in the units of the file. *)
Definition in_degrees (x : R) : R := x * 180 / PI.
Definition located (c : R) (l : SurfModel.loc) : list (string * R) :=
  [("time", SurfModel.l_time l);
   ("lat", in_degrees (vx (SurfModel.l_surf_lla l))); ("lon", in_degrees (vy (SurfModel.l_surf_lla l)));
   ("alt", vz (SurfModel.l_sat_lla l)); ("orb_alt_rate", SurfModel.l_rate l);
   ("x_pos", vx (SurfModel.l_sat l)); ("y_pos", vy (SurfModel.l_sat l)); ("z_pos", vz (SurfModel.l_sat l));
   ("x_vel", vx (SurfModel.l_vel l)); ("y_vel", vy (SurfModel.l_vel l)); ("z_vel", vz (SurfModel.l_vel l));
   ("range_ku", SurfModel.l_wd l * c / 2)].
(** Variables copied from the L1A file. *)
Definition copied : list string :=
  ["isp_coarse_time"; "isp_fine_time"; "sral_fine_time"; "flag_time_status"; "nav_bul_status"; "nav_bul_source";
   "seq_count"; "oper_instr"; "SAR_mode"; "cl_gain"; "acq_stat"; "dem_eeprom"; "loss_track"; "h0_nav_dem"; "h0_applied";
   "cor2_nav_dem"; "cor2_applied"; "dh0"; "agccode_ku"; "surf_type"; "uso_cor"; "int_path_cor_ku"; "agc_ku"; "sig0_cal_ku"].
