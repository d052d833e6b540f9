(** The echo of a point target in a deramping altimeter. *)
From Coq Require Import List ZArith Reals.
From Verif Require Import Cplx GcorrModel PointModel.
Import ListNotations.
Local Open Scope R_scope.

(** Doppler frequency of a target seen under the angle [a] from the velocity. *)
Definition doppler_hz (lam v a : R) : R := 2 * v * cos a / lam.

(** Two-way delay relative to the window, in samples, with the offset a Doppler
    shift produces in a chirp of length [T] and bandwidth [B]. *)
Definition beat (c lam T B : R) (o : obs) (dist a : R) : R :=
  ((2 * dist / c - b_wd o) + doppler_hz lam (b_speed o) a * T / B) / b_t0 o.

(** Sample [j] of pulse [p] of the echo of a target at distance [dist] under the
    angle [a], of amplitude [A] and phase [phi]. *)
Definition echo_sample (c lam T B : R) (n : nat) (o : obs) (A phi dist a : R) (p j : nat) : C :=
  Cscal A (cis (phi + 2 * PI * doppler_hz lam (b_speed o) a * (b_pri o * INR p)
                + 2 * PI * beat c lam T B o dist a * INR j / INR n)).
Definition is_echo (k : gconst) (N : nat) (o : obs) (A phi dist a : R) : Prop :=
  length (b_wfm o) = N /\
  (forall p, (p < N)%nat -> length (nth p (b_wfm o) []) = k_n k) /\
  (forall p j, (p < N)%nat -> (j < k_n k)%nat ->
     nth j (nth p (b_wfm o) []) C0 = echo_sample (k_c k) (k_lam k) (k_plen k) (k_bw k) (k_n k) o A phi dist a p j).

(** Distance from the burst to a point. *)
Definition distance (o : obs) (x y z : R) : R := sqrt ((b_x o - x) ^ 2 + (b_y o - y) ^ 2 + (b_z o - z) ^ 2).

(** Doppler difference between a target under the angle [a] and the beam under
    the angle [b]: turn of the phase from one pulse to the next. *)
Definition turn (k : gconst) (o : obs) (b a : R) : R :=
  2 * PI * (doppler_hz (k_lam k) (b_speed o) a - doppler_hz (k_lam k) (b_speed o) b) * b_pri o.

(** Samples by which the echo of the target is behind the echo of a target at the
    surface, seen under the angle [b] of the beam. *)
Definition lag (k : gconst) (s : gsurf) (o : obs) (b dist a : R) : R :=
  beat (k_c k) (k_lam k) (k_plen k) (k_bw k) o dist a -
  beat (k_c k) (k_lam k) (k_plen k) (k_bw k) o (distance o (sx s) (sy s) (sz s)) b.

(** The beam of the surface is one of the burst's beams, under the angle [b]. *)
Definition in_beam (N : nat) (o : obs) (b : R) : Prop :=
  nth_error (b_angles o) (b_pos o) = Some b /\ (length (b_angles o) <= N)%nat /\ b_t0 o <> 0.
Definition usable (N : nat) (o : obs) : Prop := (exists b, in_beam N o b) /\ length (b_wfm o) = N.

(** Power of a sum of [n] unit vectors, each turned by [t] against the one
    before. *)
Definition array_power (t : R) (n : nat) : R := Cnorm2 (csum (fun j => cis (t * INR j)) n).

(** Physical constants. *)
Definition sound (k : gconst) : Prop :=
  k_pi k = PI /\ k_c k > 0 /\ k_lam k > 0 /\ k_bw k > 0 /\ (0 < k_n k)%nat.

(** Mean over the looks. *)
Definition mean_power (rows : list (list R)) (m : nat) : R :=
  fold_right Rplus 0 (map (fun r => nth m r 0) rows) / INR (length rows).
