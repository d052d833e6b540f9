(** What a record of an L1A file says, and files that are complete. *)
From Coq Require Import String List ZArith QArith Qreals Reals Bool.
From Verif Require Import Common Cplx GeoModel ReaderModel ReaderSpec WholeModel FileModel.
From Verif Require PktModel SurfModel PointModel LinModel.
Import ListNotations.
Local Open Scope string_scope.
Local Open Scope R_scope.

(** Every variable has a value for each record, of its kind. *)
Definition is_exact (c : cell) : Prop := exists q, c = CExact q.
Definition complete (o : opener) (fi : file) : Prop :=
  (forall v, In v names -> length (f_var fi v) = f_size fi) /\
  (forall v, In v [v_lat; v_lon; v_time] -> Forall is_exact (f_var fi v)) /\
  Forall (fun c => exists l, c = CTable l /\ (n_cal2 o < length l)%nat) (f_var fi v_gprw) /\ (0 < n_chunk o)%Z.

(** Variable [x]_l1a_echo_sar_ku of record [i]. *)
Definition at_ (fi : file) (i : nat) (x : string) : cell := nth i (f_var fi (x ++ "_l1a_echo_sar_ku")) (CNum 0).
Definition number_at (fi : file) (i : nat) (x : string) : R := num (at_ fi i x).
Definition degrees (x : R) : R := x * PI / 180.
(** The two-way travel time to the centre of gravity, as the code has it (C91). *)
Definition delay_at (o : opener) (fi : file) (i : nat) : R :=
  (number_at fi i "range_ku" + cos (number_at fi i "pitch_sat_pointing") * number_at fi i "cog_cor") * 2 / PktModel.a_c (n_aux o).
(** Record [i]. *)
Definition record_at (o : opener) (fi : file) (i : nat) : rec :=
  let x := number_at fi i in
  mk_rec (exact (at_ fi i "time"))
    {| SurfModel.b_time := x "time";
       SurfModel.b_lla := V (degrees (x "lat")) (degrees (x "lon")) (x "alt");
       SurfModel.b_wd := delay_at o fi i;
       SurfModel.b_sat := V (x "x_pos") (x "y_pos") (x "z_pos"); SurfModel.b_surf := V 0 0 0;
       SurfModel.b_vel := V (x "x_vel") (x "y_vel") (x "z_vel"); SurfModel.b_rate := x "orb_alt_rate";
       SurfModel.b_roll := degrees (x "roll_sral_mispointing"); SurfModel.b_pitch := degrees (x "pitch_sral_mispointing");
       SurfModel.b_yaw := degrees (x "yaw_sral_mispointing");
       SurfModel.b_days := x "UTC_day"; SurfModel.b_secs := x "UTC_sec";
       SurfModel.b_leap := x "time" - (x "UTC_day" * n_day o + x "UTC_sec") |}
    {| LinModel.r_burst :=
         {| PointModel.b_x := 0; PointModel.b_y := 0; PointModel.b_z := 0; PointModel.b_speed := 0;
            PointModel.b_pri := PktModel.a_chd (n_aux o) "pri_sar"; PointModel.b_wd := delay_at o fi i;
            PointModel.b_t0 := PktModel.a_chd (n_aux o) "t0_nom"; PointModel.b_angles := []; PointModel.b_pos := 0;
            PointModel.b_wfm := map (fun iq => map (fun z => (fst z / Rpower 10 (- x "agc_ku" / 20), snd z / Rpower 10 (- x "agc_ku" / 20)))
                                               (combine (fst iq) (snd iq)))
                                    (combine (table (at_ fi i "i_meas_ku")) (table (at_ fi i "q_meas_ku"))) |};
       LinModel.r_agc := x "agc_ku"; LinModel.r_sig0 := x "sig0_cal_ku";
       LinModel.r_power := row (at_ fi i "burst_power_cor_ku"); LinModel.r_phase := row (at_ fi i "burst_phase_cor_ku");
       LinModel.r_table := nth (n_cal2 o) (table (at_ fi i "gprw_meas_ku")) [] |}.

(** Latitude and longitude of record [i], in degrees. *)
Definition place (fi : file) (i : nat) : Q * Q := (exact (at_ fi i "lat"), exact (at_ fi i "lon")).
Definition in_region (g : region) (fi : file) (i : nat) : Prop :=
  within (min_lat g) (max_lat g) (fst (place fi i)) /\ within (min_lon g) (max_lon g) (snd (place fi i)).
(** The item for record [i]. *)
Definition item_for (o : opener) (g : region) (fi : file) (i : nat) (it : witem) : Prop :=
  (in_region g fi i /\ usable (place fi i) -> it = WValid (record_at o fi i)) /\
  (~ (in_region g fi i /\ usable (place fi i)) -> it = WNothing).
Definition everywhere : region := {| min_lat := None; max_lat := None; min_lon := None; max_lon := None |}.
(** The records [a], ..., [b] - 1 as a file. *)
Definition cut (a b : nat) (fi : file) : file := mk_file (b - a) (fun v => firstn (b - a) (skipn a (f_var fi v))).
(** The records inside the region are [a], ..., [b]. *)
Definition stretch (g : region) (fi : file) (a b : nat) : Prop :=
  (a <= b < f_size fi)%nat /\ forall i, (i < f_size fi)%nat -> (in_region g fi i <-> (a <= i <= b)%nat).
