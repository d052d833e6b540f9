(** The image of one surface: azimuth processing of each burst of its stack
    (exact method), selection of its beam, geometry corrections and range
    compression (proc/sar/processor.py 238-254, 411-460).  The azimuth window is
    the disabled one (all ones; azimuth_processing.py 36-40; windows: C70).  The
    list of bursts is the part of the stack that was kept (choice of the bursts:
    C26-C29).  Definitions only. *)
From Coq Require Import List ZArith Reals.
From Verif Require Import Common Cplx BeamModel DftModel AzModel GcorrModel.
Import ListNotations.
Local Open Scope R_scope.

(** One burst of the stack, with the position of the surface in its list of
    beam angles. *)
Record obs := {
  b_x : R; b_y : R; b_z : R;     (* x/y/z_sar_sat *)
  b_speed : R;                   (* norm(vel_sat_sar) *)
  b_pri : R;                     (* pri_sar_pre_dat *)
  b_wd : R;                      (* win_delay_sar_ku *)
  b_t0 : R;                      (* t0_sar *)
  b_angles : list R;             (* beam_angles_list *)
  b_pos : nat;                   (* stack_all_beams_indices entry *)
  b_wfm : list (list C)          (* waveform_cor_sar *)
}.

(** azimuth_processing.py 114-170 with the values of the burst. *)
Definition obs_radar (k : gconst) (o : obs) : radar :=
  {| cpi := k_pi k; wavelength := k_lam k; speed := b_speed o; pri := b_pri o |}.
(** stack_gathering.py 105-126: the beam and the angle gathered for the
    surface; [N] = n_ku_pulses_burst; [None]: an index error or a beam that was
    never computed. *)
Definition gathered (k : gconst) (N : nat) (o : obs) : option gbeam :=
  match exact_method (obs_radar k o) N (k_n k) (b_angles o) (b_wfm o), nth_error (b_angles o) (b_pos o) with
  | Ok rows, Some a =>
      match nth_error rows (b_pos o) with
      | Some (Row row) =>
          Some {| g_x := b_x o; g_y := b_y o; g_z := b_z o; g_speed := b_speed o; g_pri := b_pri o;
                  g_wd := b_wd o; g_angle := a; g_t0 := b_t0 o; g_row := row |}
      | _ => None
      end
  | _, _ => None
  end.
(** The loop of stack_gathering.py 105-126. *)
Fixpoint gathered_all (k : gconst) (N : nat) (l : list obs) : option (list gbeam) :=
  match l with
  | [] => Some []
  | o :: r => match gathered k N o, gathered_all k N r with
              | Some b, Some bs => Some (b :: bs)
              | _, _ => None
              end
  end.

(** processor.py 245-254: the range-compressed powers (beams_range_compr) of a
    surface whose stack holds the bursts [l]. *)
Definition image (fl : gflags) (k : gconst) (s : gsurf) (N zp nlooks : nat) (l : list obs)
    : option (list (list R)) :=
  match gathered_all k N l with
  | None => None
  | Some bs =>
      let corrected := map o_row (geometry_corrections fl k s nlooks (length bs) bs) in
      match range_compress zp (k_n k) nlooks (length bs) corrected with
      | Ok (_, power) => Some power
      | Err _ => None
      end
  end.
