(** What the waveform of a surface is. *)
From Coq Require Import List ZArith Reals Bool.
From Verif Require Import Common Cplx GeoModel WholeModel WaveModel.
From Verif Require SurfModel DopModel GcorrModel PointModel PointSpec LinModel.
Import ListNotations.
Local Open Scope R_scope.

(** Nearest integer, halves to the even one. *)
Definition nearest (x : R) (z : Z) : Prop :=
  Rabs (x - IZR z) <= 1 / 2 /\ (Rabs (x - IZR z) = 1 / 2 -> Z.even z = true).

(** Sample [m] of a look was in the window of its burst before the look was
    shifted (by whole samples), and the look angle is allowed. *)
Definition visible (v : settings) (N zp : nat) (m : nat) (k : look) : bool :=
  negb (v_mask v) ||
  ((0 <=? Z.of_nat m - Z.of_nat zp * r_round (k_shift k))%Z &&
   (Z.of_nat m - Z.of_nat zp * r_round (k_shift k) <? Z.of_nat (N * zp))%Z && inside v (k_look k)).
(** A look with a visible sample. *)
Definition used (v : settings) (N zp : nat) (k : look) : bool := existsb (fun m => visible v N zp m k) (seq 0 (N * zp)).
Definition weight (v : settings) (k : look) : option R :=
  match v_weight v with None => Some 1 | Some f => f (k_point k) end.
Definition weight0 (v : settings) (k : look) : R := match weight v k with Some w => w | None => 0 end.
Definition total (f : look -> R) (ks : list look) : R := fold_right (fun k a => f k + a) 0 ks.
(** Sample [m] of the waveform: the mean over the looks used of what is visible;
    either over all looks used, or over those where it is visible. *)
Definition sample (v : settings) (N zp : nat) (ks : list look) (m : nat) : option R :=
  let us := filter (used v N zp) ks in
  let vs := filter (visible v N zp m) us in
  let n := length (if v_avoid v then vs else us) in
  match n with
  | O => None
  | S _ => Some (total (fun k => weight0 v k * nth m (k_row k) 0) vs / INR n)
  end.
(** The rows have the length of the mask, and every look has a weight. *)
Definition proper (v : settings) (N zp : nat) (k : look) : Prop :=
  length (k_row k) = (N * zp)%nat /\ exists w, weight v k = Some w.

(** * Looks of a run *)

(** The burst of a record, with a single beam at the angle [a]. *)
Definition aimed (u : setup) (r : rec) (a : R) : PointModel.obs :=
  let o := LinModel.r_burst (w_echo r) in
  let sat := lla2ecef (SurfModel.g_k (u_g u)) false (SurfModel.b_lla (w_geo r)) in
  {| PointModel.b_x := vx sat; PointModel.b_y := vy sat; PointModel.b_z := vz sat;
     PointModel.b_speed := norm (vlist (SurfModel.b_vel (w_geo r))); PointModel.b_pri := PointModel.b_pri o;
     PointModel.b_wd := SurfModel.b_wd (w_geo r); PointModel.b_t0 := PointModel.b_t0 o;
     PointModel.b_angles := [a]; PointModel.b_pos := 0; PointModel.b_wfm := PointModel.b_wfm o |}.
(** Where, in samples from the middle of its window, record [r] hears a point at [y]
    seen under the angle [a]. *)
Definition heard (u : setup) (r : rec) (y : vec) (a : R) : R :=
  let k := u_k u in
  PointSpec.beat (GcorrModel.k_c k) (GcorrModel.k_lam k) (GcorrModel.k_plen k) (GcorrModel.k_bw k) (aimed u r a)
    (PointSpec.distance (aimed u r a) (vx y) (vy y) (vz y)) a.
(** Record [r], which sees the point [y] under the angle [a], holds its echo, of
    amplitude [A], within the window. *)
Definition holds_echo (u : setup) (y : vec) (A : R) (r : rec) (a : R) : Prop :=
  PointModel.b_t0 (LinModel.r_burst (w_echo r)) <> 0 /\
  (exists phi, PointSpec.is_echo (u_k u) (ChainModel.c_N (u_cf u)) (aimed u r a) A phi
                 (PointSpec.distance (aimed u r a) (vx y) (vy y) (vz y)) a) /\
  Rabs (heard u r y a) < (INR (GcorrModel.k_n (u_k u)) - 1) / 2.
(** A bright point at [y]: every record of [input] holds its echo, as seen from it. *)
Definition bright (u : setup) (input : list witem) (y : vec) (A : R) (i : nat) : Prop :=
  forall r a, nth_error input i = Some (WValid r) ->
    DopModel.beam_angle (lla2ecef (SurfModel.g_k (u_g u)) false (SurfModel.b_lla (w_geo r))) (SurfModel.b_vel (w_geo r)) y = Some a ->
    holds_echo u y A r a.
(** All look angles of the stack are allowed. *)
Definition admitted (u : setup) (v : settings) (input : list witem) (p : product) : Prop :=
  forall e x, In e (pr_stack p) -> look_at u input e = Some x -> inside v x = true.
(** Doppler and slant range corrections switched on, no calibration, no azimuth
    weighting of the looks in multilooking; sizes that make sense. *)
Record plain (u : setup) (v : settings) : Prop := mk_plain {
  l_doppler : GcorrModel.f_doppler (u_flags u) = true;
  l_slant : GcorrModel.f_slant (u_flags u) = true;
  l_sound : PointSpec.sound (u_k u);
  l_cal1 : u_cal1 u = false;
  l_cal2 : u_cal2 u = false;
  l_pulses : (2 <= ChainModel.c_N (u_cf u))%nat;
  l_zp : (0 < u_zp u)%nat;
  l_looks : (0 < ChainModel.c_looks (u_cf u))%nat;
  l_samples : (2 <= GcorrModel.k_n (u_k u))%nat;
  l_weight : v_weight v = None }.
(** The largest value is at [c]: [top], and less elsewhere. *)
Definition peaked (w : list (option R)) (c : nat) (top : R) : Prop :=
  (c < length w)%nat /\ nth c w None = Some top /\
  forall m x, (m < length w)%nat -> m <> c -> nth m w None = Some x -> 0 <= x < top.
