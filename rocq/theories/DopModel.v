(** Angles between bursts and surfaces: beam angles, visibility, Doppler angle,
    look angle.  Definitions only.

    Exact real numbers; [None] is a floating point "not a number", except where
    noted. *)
From Coq Require Import Reals List Bool.
From Verif Require Import Common GeoModel BeamModel.
Import ListNotations.
Open Scope R_scope.

(** dedop/proc/sar/algorithms/beam_angles.py:31-34 with
    dedop/conf/characterization.py:104-105 (pri_sar) and
    dedop/model/l1a_processing_data.py:813-819 (norm of the velocity).
    [None]: math.acos raises ValueError (also for the infinity that a velocity
    of zero gives). *)
Definition q_min (k : consts) (prf freq : R) (vel : vec) : option R :=
  let n := norm (vlist vel) in
  if Req_EM_T n 0 then None
  else arccos (k_c k / (1 / prf) / 4 / freq / n).
(** dedop/proc/sar/algorithms/beam_angles.py:62-73: angle between the vector
    from the satellite to the surface and the velocity *)
Definition beam_angle (pos vel surf : vec) : option R :=
  let r := vsub surf pos in
  let d := norm (vlist r) * norm (vlist vel) in
  if Req_EM_T d 0 then None else arccos (dot (vlist r) (vlist vel) / d).
(** dedop/proc/sar/algorithms/beam_angles.py:35, 75-80; comparisons with "not a
    number" are false *)
Definition in_range (k : consts) (q : R) (dop b : option R) : bool :=
  match dop, b with
  | Some d, Some a =>
      (if Rle_dec q (a - d) then true else false) && (if Rle_dec (a - d) (k_pi k - q) then true else false)
  | _, _ => false
  end.
(** dedop/proc/sar/algorithms/beam_angles.py:17-53 with the geometry filled in:
    surfaces are pairs of a counter and a position.  [None]: ValueError *)
Definition burst_beams (N : nat) (k : consts) (prf freq : R) (pos vel : vec) (dop : option R)
    (work : nat * vec -> bool) (surfs : list (nat * vec)) : option (list (option R * nat) * bool) :=
  match q_min k prf freq vel with
  | None => None
  | Some q =>
      Some (beam_angles N (fun s => in_range k q dop (beam_angle pos vel (snd s)))
                        (fun s => beam_angle pos vel (snd s)) fst work surfs)
  end.

(** numpy.cross *)
Definition cross (u v : vec) : vec :=
  V (vy u * vz v - vz u * vy v) (vz u * vx v - vx u * vz v) (vx u * vy v - vy u * vx v).
(** dedop/model/l1a_processing_data.py:900-927: the position is the one computed
    from the same latitude, longitude and altitude (lines 857-866, called just
    before: dedop/data/input/l1a/l1a_dataset.py:237-238).  The comparison with
    pi/2 is false for "not a number". *)
Definition doppler_angle (k : consts) (mean_alt : R) (lla vel : vec) : option R :=
  let pos := lla2ecef k false lla in
  let surf := lla2ecef k false (V (vx lla) (vy lla) (vz lla - mean_alt)) in
  let n := vsub surf pos in
  let w := cross n vel in
  let m := cross w n in
  match angle_between (vlist vel) (vlist m) with
  | None => None
  | Some a => Some (if Rlt_dec a (k_pi k / 2) then a * -1 else a)
  end.
(** dedop/proc/sar/algorithms/stack_gathering.py:62, 117 *)
Definition look_angle (k : consts) (dop beam : R) : R := k_pi k / 2 + dop - beam.
(** dedop/proc/sar/algorithms/stack_gathering.py:119 *)
Definition pointing_angle (k : consts) (dop beam pitch : R) : R := look_angle k dop beam - pitch.
