(** A satellite on a circle above the equator. *)
From Coq Require Import List Reals Bool Arith.
From Verif Require Import Common GeoModel ChainModel ChainSpec FullSpec WholeModel.
From Verif Require SurfModel.
Import ListNotations.
Local Open Scope R_scope.

(** The circle: radius of the satellite's orbit and of the ground below,
    longitude of the first record, angle from one record to the next, speed. *)
Record ring := mk_ring { r_sat : R; r_ground : R; r_first : R; r_step : R; r_speed : R }.
(** The longitude of record [p]. *)
Definition lon (g : ring) (p : nat) : R := r_first g + INR p * r_step g.
Definition around (r a : R) : vec := V (r * cos a) (r * sin a) 0.
Definition along (v a : R) : vec := V (- (v * sin a)) (v * cos a) 0.

(** The sine of the angle, at the satellite, between the point straight below and
    the ground [x] further round. *)
Definition off_nadir (g : ring) (x : R) : R :=
  r_ground g * sin x / sqrt (r_sat g ^ 2 + r_ground g ^ 2 - 2 * r_ground g * r_sat g * cos x).

(** Record [p] of the pass. *)
Definition on_ring (u : setup) (g : ring) (p : nat) (r : rec) : Prop :=
  SurfModel.b_lla (w_geo r) = V 0 (lon g p) (r_sat g - k_major (SurfModel.g_k (u_g u))) /\
  SurfModel.b_wd (w_geo r) * k_c (SurfModel.g_k (u_g u)) / 2 = r_sat g - r_ground g /\
  SurfModel.b_vel (w_geo r) = along (r_speed g) (lon g p).

(** (A record at latitude and longitude 0 counts as one without a position,
    dedop/data/input/input_dataset.py 18-27: [p_place].)
    A pass within sight of the ground it flies over, over an Earth with the usual
    constants; a new surface is due after [K] records exactly, and the beams reach
    [m] records to either side. *)
Record ring_pass (u : setup) (g : ring) (K m : nat) (input : list witem) : Prop := mk_ring_pass {
  p_rec : forall p i, nth_error input p = Some i -> exists r, i = WValid r /\ on_ring u g p r;
  p_place : forall p, (p < length input)%nat -> - PI <= lon g p <= PI /\ lon g p <> 0;
  p_pi : k_pi (SurfModel.g_k (u_g u)) = PI;
  p_mean : u_mean u <> 0;
  p_fuel : (0 < u_fuel u)%nat;
  p_ground : 0 < r_ground g < r_sat g;
  p_speed : 0 < r_speed g;
  p_freq : 0 < SurfModel.g_freq (u_g u);
  p_pulses : 0 < SurfModel.g_pulses (u_g u) * SurfModel.g_pri (u_g u);
  p_step : 0 < r_step g;
  p_far : INR (length input + m + K) * r_step g <= PI / 2;
  p_horizon : r_ground g <= r_sat g * cos (INR (length input + m + K) * r_step g);
  p_due : k_c (SurfModel.g_k (u_g u)) / (2 * SurfModel.g_freq (u_g u) * r_speed g * SurfModel.g_pulses (u_g u) * SurfModel.g_pri (u_g u))
          = off_nadir g (INR K * r_step g);
  p_beam : off_nadir g (INR m * r_step g) <= k_c (SurfModel.g_k (u_g u)) / (1 / u_prf u) / 4 / SurfModel.g_freq (u_g u) / r_speed g
           < off_nadir g (INR (S m) * r_step g);
  p_K : (0 < K <= 2 * m)%nat;
  p_N : (m < c_N (u_cf u) * K)%nat;
  p_min : (2 * m / K + 3 <= c_min (u_cf u))%nat;
  p_focus : SurfModel.g_focus (u_g u) = false;
  p_gapless : gapless (u_cf u) (map erase input) }.

(** The records that reach surface [s], below record [s] * [K], of [n]. *)
Definition near (K m s p : nat) : bool := (s * K <=? p + m) && (p <=? s * K + m).
Definition window (n K m s : nat) : list nat := filter (near K m s) (seq 0 n).
(** The number of surfaces below [n] records. *)
Definition ring_count (n K : nat) : nat := match n with O => O | S n => S (n / K) end.
