(** Azimuth processing: steering and the transform along the pulses of a
    burst.  Definitions only; nadir selection and row placement are in
    BeamModel. *)
From Coq Require Import List ZArith Reals.
From Verif Require Import Common Cplx BeamModel DftModel.
Import ListNotations.
Local Open Scope R_scope.

(** azimuth_processing.py lines 164-166: the exponent of
    exp(-2j * 2 * pi / wavelength * |vel| * cos(angle) * pri * pulse). *)
Record radar := { cpi : R; wavelength : R; speed : R; pri : R }.
Definition steer_phase (r : radar) (angle : R) (pulse : nat) : R :=
  - (2 * 2 * cpi r / wavelength r * speed r * cos angle * pri r * INR pulse).

(** azimuth_processing.py lines 144-170, [compute_phase_shift]: the waveform
    has n_ku_pulses_burst rows (waveform_cor_sar). *)
Fixpoint phase_shift_from (r : radar) (angle : R) (p : nat) (wfm : list (list C)) : list (list C) :=
  match wfm with
  | [] => []
  | row :: rest => map (Cmul (cis (steer_phase r angle p))) row
                   :: phase_shift_from r angle (S p) rest
  end.
Definition phase_shift (r : radar) (angle : R) (wfm : list (list C)) : list (list C) :=
  phase_shift_from r angle 0 wfm.

(** azimuth_processing.py lines 172-187, [compute_fft_azimuth_dimension]: FFT
    along axis 0 with norm='ortho' (factor 1/sqrt of the number of rows), then
    fftshift of the rows; [ns] is the row length. *)
Definition az_fft (ns : nat) (wfm : list (list C)) : list (list C) :=
  let n := length wfm in
  fftshift
    (map (fun k =>
            map (fun s => Cscal (/ sqrt (INR n)) (dft n (fun p => nth s (nth p wfm []) C0) k))
                (seq 0 ns))
         (seq 0 n)).

(** azimuth_processing.py lines 74-112, [compute_approximate_method]. *)
Definition approximate_method (r : radar) (N ns : nat) (angles : list R) (t : Z)
    (wfm : list (list C)) : res beam_err (list (row (list C))) :=
  bind (nadir_beam N angles t)
       (fun a => Ok (approx_rows N (length angles) t (az_fft ns (phase_shift r a wfm)))).

(** azimuth_processing.py lines 114-142, [compute_exact_method]. *)
Definition exact_method (r : radar) (N ns : nat) (angles : list R)
    (wfm : list (list C)) : res beam_err (list (row (list C))) :=
  exact_rows N (fun a => az_fft ns (phase_shift r a wfm)) angles.
