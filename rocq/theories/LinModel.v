(** From the recorded waveforms of the bursts of a stack to the powers of its
    looks: calibration, azimuth processing (exact method), gathering, geometry
    corrections and range compression (proc/sar/processor.py 204-206, 238-254).
    The steps are those of DftModel and PointModel.  Definitions only. *)
From Coq Require Import List ZArith Reals.
From Verif Require Import Common Cplx BeamModel DftModel AzModel GcorrModel PointModel.
Import ListNotations.
Local Open Scope R_scope.

(** A burst as read, with what its calibration reads: agc_ku and sig0_cal_ku,
    cal1_power and cal1_phase, cal2_array (cal/cal1_algorithm.py 9-18,
    cal/cal2_algorithm.py 9-15). *)
Record raw := {
  r_burst : obs;                 (* b_wfm: the samples as read *)
  r_agc : R; r_sig0 : R;
  r_power : list R; r_phase : list R;
  r_table : list R
}.
Definition with_wfm (o : obs) (w : list (list C)) : obs :=
  {| b_x := b_x o; b_y := b_y o; b_z := b_z o; b_speed := b_speed o; b_pri := b_pri o; b_wd := b_wd o;
     b_t0 := b_t0 o; b_angles := b_angles o; b_pos := b_pos o; b_wfm := w |}.
(** processor.py 204-206: CAL1, then CAL2; [None]: an error, or samples that are
    not finite. *)
Definition calibrated (f1 f2 : bool) (k : gconst) (N : nat) (r : raw) : option obs :=
  match cal1 f1 (k_n k) (r_agc r) (r_sig0 r) (r_power r) (r_phase r) (b_wfm (r_burst r)) with
  | Ok (Some w1) => match cal2 f2 N (k_n k) (r_table r) w1 with
                    | Ok (Some w2) => Some (with_wfm (r_burst r) w2)
                    | _ => None
                    end
  | _ => None
  end.
Fixpoint calibrated_all (f1 f2 : bool) (k : gconst) (N : nat) (l : list raw) : option (list obs) :=
  match l with
  | [] => Some []
  | r :: t => match calibrated f1 f2 k N r, calibrated_all f1 f2 k N t with
              | Some o, Some os => Some (o :: os)
              | _, _ => None
              end
  end.
(** The powers of the looks of a surface. *)
Definition looks (f1 f2 : bool) (fl : gflags) (k : gconst) (s : gsurf) (N zp nlooks : nat) (l : list raw)
    : option (list (list R)) :=
  match calibrated_all f1 f2 k N l with
  | Some os => image fl k s N zp nlooks os
  | None => None
  end.

(** The complex looks (beam_range_compr_iq) of calibrated bursts. *)
Definition image_iq (fl : gflags) (k : gconst) (s : gsurf) (N zp nlooks : nat) (l : list obs)
    : option (list (list C)) :=
  match gathered_all k N l with
  | None => None
  | Some bs =>
      let corrected := map o_row (geometry_corrections fl k s nlooks (length bs) bs) in
      match range_compress zp (k_n k) nlooks (length bs) corrected with
      | Ok (iq, _) => Some iq
      | Err _ => None
      end
  end.
