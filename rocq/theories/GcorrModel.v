(** Geometry corrections and sigma-zero scaling.  Definitions only. *)
From Coq Require Import List ZArith Reals.
From Verif Require Import Common Cplx.
Import ListNotations.
Local Open Scope R_scope.

(** One entry of the gathered stack, the fields used by
    geometry_corrections.py and sigma_zero_scaling.py: position and speed of the
    burst, its window delay, pri, the beam angle, t0 and focused beam gathered
    for it (surface_data.py properties of the same names). *)
Record gbeam := {
  g_x : R; g_y : R; g_z : R;
  g_speed : R;      (* norm(vel_sat_sar) *)
  g_pri : R;        (* pri_sar_pre_dat *)
  g_wd : R;         (* win_delay_sar_ku *)
  g_angle : R;      (* beam_angles_surf[i] *)
  g_t0 : R;         (* t0_surf[i] *)
  g_row : list C    (* beams_surf[i, :] *)
}.

Record gsurf := { sx : R; sy : R; sz : R; s_wd : R (* win_delay_surf *) }.

Record gconst := {
  k_c : R; k_pi : R;                  (* cst.c, cst.pi *)
  k_lam : R; k_plen : R; k_bw : R;    (* wv_length_ku, pulse_length, bw_ku *)
  k_n : nat                           (* n_samples_sar *)
}.

(** The three switches; the third one (flag_window_delay_alignment_method) is
    declared but never read (lines 13 and 18). *)
Record gflags := { f_doppler : bool; f_slant : bool; f_align : Z }.

(** Values computed for one beam. *)
Record gout := { o_doppler : R; o_slant : R; o_wdc : R; o_range : R; o_row : list C }.

(** geometry_corrections.py lines 64-84, [compute_doppler_correction]; without
    the correction the entry keeps the zero it was created with (line 37). *)
Definition doppler_correction (fl : gflags) (k : gconst) (b : gbeam) : R :=
  if f_doppler fl then
    let doppler_range := - k_c k / k_lam k * g_speed b * cos (g_angle b) * k_plen k / k_bw k in
    2 / k_c k * doppler_range / g_t0 b
  else 0.

(** geometry_corrections.py lines 95-99. *)
Definition range_to (s : gsurf) (b : gbeam) : R :=
  sqrt ((g_x b - sx s) ^ 2 + (g_y b - sy s) ^ 2 + (g_z b - sz s) ^ 2).

(** geometry_corrections.py lines 86-108, [compute_slant_range_correction]. *)
Definition slant_correction (fl : gflags) (k : gconst) (s : gsurf) (b : gbeam) : R :=
  if f_slant fl then (s_wd s - range_to s b * 2 / k_c k) / g_t0 b else 0.

(** geometry_corrections.py lines 110-123. *)
Definition win_delay_correction (wd_ref : R) (b : gbeam) : R :=
  - (wd_ref - g_wd b) / g_t0 b.

(** geometry_corrections.py lines 134-144, [apply_corrections]: sample j is
    multiplied by exp(2j * pi / n * shift * j). *)
Fixpoint shift_row (k : gconst) (shift : R) (j : nat) (row : list C) : list C :=
  match row with
  | [] => []
  | z :: rest => Cmul (cis (2 * k_pi k / INR (k_n k) * shift * INR j)) z
                 :: shift_row k shift (S j) rest
  end.

(** geometry_corrections.py lines 47-62: one iteration. *)
Definition correct_beam (fl : gflags) (k : gconst) (s : gsurf) (b : gbeam) : gout :=
  let wd_ref := s_wd s in
  let d := doppler_correction fl k b in
  let sl := slant_correction fl k s b in
  let w := win_delay_correction wd_ref b in
  {| o_doppler := d; o_slant := sl; o_wdc := w; o_range := range_to s b;
     o_row := shift_row k (d + sl + w) 0 (g_row b) |}.

(** geometry_corrections.py lines 27-42: entries beyond the stack are zero. *)
Definition gzero (n : nat) : gout :=
  {| o_doppler := 0; o_slant := 0; o_wdc := 0; o_range := 0; o_row := repeat C0 n |}.

(** geometry_corrections.py lines 20-62, [__call__]: [size] =
    data_stack_size, [nlooks] = n_looks_stack, [bs] the gathered stack. *)
Definition geometry_corrections (fl : gflags) (k : gconst) (s : gsurf) (nlooks size : nat)
    (bs : list gbeam) : list gout :=
  let m := Nat.min size nlooks in
  map (correct_beam fl k s) (firstn m bs) ++ repeat (gzero (k_n k)) (nlooks - m).

(* ------------------------------------------------------------------ *)

(** math.log10 *)
Definition log10 (x : R) : R := ln x / ln 10.

(** Constants of sigma_zero_scaling.py. *)
Record sconst := {
  q_c : R; q_pi : R; q_re : R;       (* cst.c, cst.pi, cst.earth_radius *)
  q_ptx : R; q_gain : R; q_trc : R;  (* power_tx_ant_ku, antenna_gain_ku, ratio_trc_ku *)
  q_ptr : R; q_np : nat;             (* ptr_width, n_ku_pulses_burst *)
  q_lam : R                          (* wavelength_ku *)
}.

(** sigma_zero_scaling.py lines 24-31. *)
Definition sigma0_offset (q : sconst) : R :=
  10 * log10 64 + 30 * log10 (q_pi q) - 10 * log10 (q_ptx q) - 2 * q_gain q
  - 20 * log10 (q_lam q) + q_trc q + 10 * log10 (INR (q_np q)).

(** sigma_zero_scaling.py lines 35-53: the surface area of one beam; [rng] is
    range_sat_surf[i]. *)
Definition surface_area (q : sconst) (rng speed pri : R) : R :=
  let azimuth_distance :=
    (1 + rng / q_re q) * q_lam q * rng / pri / (2 * speed * INR (q_np q)) in
  let range_distance := 2 * sqrt (q_c q * rng * q_ptr q * q_re q / (q_re q + rng)) in
  azimuth_distance * range_distance * (886 / 1000).

(** sigma_zero_scaling.py lines 55-57; [agc] is the closest burst's agc_ku. *)
Definition sigma0_beam (q : sconst) (agc rng speed pri : R) : R :=
  - (1) * (sigma0_offset q + 40 * log10 rng - 10 * log10 (surface_area q rng speed pri) - agc).

Fixpoint rlist_sum (l : list R) : R := match l with [] => 0 | x :: r => x + rlist_sum r end.

(** sigma_zero_scaling.py lines 18-60, [__call__]: per-beam array of
    data_stack_size entries, the first min(size, n_looks) computed; the mean of an
    empty array is NaN ([None]). Beams are triples (range, speed, pri); the
    arguments of the logarithms are positive (physical constants and ranges). *)
Definition sigma0_scaling (q : sconst) (nlooks size : nat) (agc : R) (bs : list (R * R * R))
    : list R * option R :=
  let m := Nat.min size nlooks in
  let arr := map (fun t => match t with (rng, speed, pri) => sigma0_beam q agc rng speed pri end)
                 (firstn m bs) ++ repeat 0 (size - m) in
  (arr, match arr with [] => None | _ => Some (rlist_sum arr / INR (length arr)) end).
