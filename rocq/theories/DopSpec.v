(** What the theorems about beam and Doppler angles are about. *)
From Coq Require Import Reals List Bool Sorted.
From Verif Require Import Common GeoModel GeoSpec.
Import ListNotations.
Open Scope R_scope.

Definition inner (u v : vec) : R := vx u * vx v + vy u * vy v + vz u * vz v.
Definition len (v : vec) : R := sqrt (inner v v).
(** Doppler shift of an echo from [surf], for a carrier [freq]: twice the speed
    of approach, relative to the speed of light. *)
Definition doppler_shift (c freq : R) (pos vel surf : vec) : R :=
  2 * freq * (inner (vsub surf pos) vel / len (vsub surf pos)) / c.
(** Surfaces met in order along a straight line in the direction of flight. *)
Definition straight_track (p0 vel : vec) (surfs : list (nat * vec)) : Prop :=
  exists ts : list R, StronglySorted Rlt ts /\ map snd surfs = map (fun t => vadd p0 (vscale t vel)) ts.
(** Rate of descent, as the sine of the angle below the horizon. *)
Definition descent (lat lon : R) (vel : vec) : R := - inner vel (zenith lat lon) / len vel.
