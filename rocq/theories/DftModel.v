(** Transforms along the range axis: CAL1, CAL2 and range compression.
    Definitions only.  Samples are exact complex numbers (pairs of reals). *)
From Coq Require Import List ZArith Reals Bool.
From Verif Require Import Common Cplx.
Import ListNotations.
Local Open Scope R_scope.

(** numpy.fft.fftshift along one axis of length n: element i moves to
    position (i + n//2) mod n (np.roll by n//2). *)
Definition fftshift {A} (l : list A) : list A :=
  let n := length l in
  let s := Nat.div n 2 in
  skipn (n - s) l ++ firstn (n - s) l.

(** numpy.fft.ifftshift: np.roll by -(n//2). *)
Definition ifftshift {A} (l : list A) : list A :=
  let s := Nat.div (length l) 2 in
  skipn s l ++ firstn s l.

(** numpy.fft.fft(row, n): the row is cut or filled with zeros to length n,
    then X[k] = sum_j x[j] exp(-2 pi i j k / n). *)
Definition np_fft (n : nat) (row : list C) : list C :=
  map (dft n (fun j => nth j row C0)) (seq 0 n).

(** numpy.fft.ifft(row, n): x[j] = (1/n) sum_k X[k] exp(2 pi i j k / n). *)
Definition np_ifft (n : nat) (row : list C) : list C :=
  map (fun j => Cscal (/ INR n) (idft n (fun k => nth k row C0) j)) (seq 0 n).

(** [EShape]: operands could not be broadcast; [EFft]: invalid number of FFT
    data points (n = 0). *)
Inductive dft_err := EShape | EFft.

Fixpoint zip2 {A B D} (f : A -> B -> D) (a : list A) (b : list B) : list D :=
  match a, b with
  | x :: a', y :: b' => f x y :: zip2 f a' b'
  | _, _ => []
  end.

Definition positive (x : R) : bool := if Rlt_dec 0 x then true else false.
Definition nonnegative (x : R) : bool := if Rle_dec 0 x then true else false.

(** cal2_algorithm.py lines 14-15, one pulse: the shifted spectrum is divided,
    entry by entry, by the square root of the table. *)
Definition cal2_row (n : nat) (table : list R) (row : list C) : list C :=
  let wfm_fft := fftshift (np_fft n row) in
  let corrected := zip2 (fun z t => Cscal (/ sqrt t) z) wfm_fft table in
  np_ifft n (ifftshift corrected).

(** cal2_algorithm.py lines 9-15, [CAL2Algorithm.__call__]; [N] =
    chd.n_ku_pulses_burst, [n] = chd.n_samples_sar.  [None] stands for a
    waveform with non-finite samples: a table entry that is not positive makes
    the division inf or NaN, and the inverse transform spreads it over the
    whole pulse.  The two operands must have the same shape (numpy would also
    accept a dimension of size 1; the table read from the product has n
    entries, l1a_dataset.py). *)
Definition cal2 (flag : bool) (N n : nat) (table : list R) (wfm : list (list C))
    : res dft_err (option (list (list C))) :=
  if flag then
    if Nat.eqb n 0 then Err EFft
    else if negb (Nat.eqb (length wfm) N && Nat.eqb (length table) n) then Err EShape
    else if forallb positive table then Ok (Some (map (cal2_row n table) wfm))
    else Ok None
  else Ok (Some wfm).

(** cal1_algorithm.py line 14: the complex factor of one pulse. *)
Definition cal1_factor (fixed_gain power phase : R) : C :=
  Cscal (sqrt power / sqrt (Rpower 10 (fixed_gain / 10))) (cis phase).

(** cal1_algorithm.py lines 9-18, [CAL1Algorithm.__call__]: the in-place
    product with correction[:, newaxis] * ones((1, n)).  [None]: the square
    root of a negative power is NaN. *)
Definition cal1 (flag : bool) (n : nat) (agc sig0 : R) (power phase : list R)
    (wfm : list (list C)) : res dft_err (option (list (list C))) :=
  if flag then
    let fixed_gain := agc - sig0 in
    if negb (Nat.eqb (length power) (length phase) && Nat.eqb (length power) (length wfm)
             && forallb (fun r => Nat.eqb (length r) n) wfm) then Err EShape
    else if forallb nonnegative power then
      let correction := zip2 (cal1_factor fixed_gain) power phase in
      Ok (Some (zip2 (fun c row => map (fun z => Cmul z c) row) correction wfm))
    else Ok None
  else Ok (Some wfm).

(** range_compression.py lines 28-47, one beam: FFT with zero padding and
    orthogonal scaling (a factor 1/sqrt(n)), shift, and square modulus. *)
Definition range_row (padded : nat) (beam : list C) : list C :=
  fftshift (map (Cscal (/ sqrt (INR padded))) (np_fft padded beam)).

Definition power_row (row : list C) : list R :=
  map (fun z => Rsqr (sqrt (Cnorm2 z))) row.

(** range_compression.py lines 8-47, [RangeCompressionAlgorithm.__call__]:
    [zp] = zp_fact_range, [n] = n_samples_sar, [nlooks] = n_looks_stack; the
    first [stack_size] rows of beams_geo_corr are used.  Result:
    (beam_range_compr_iq, beam_range_compr).  A beams_geo_corr array with fewer
    rows than stack_size does not occur (it has n_looks rows). *)
Definition range_compress (zp n nlooks stack_size : nat) (beams : list (list C))
    : res dft_err (list (list C) * list (list R)) :=
  let padded := (zp * n)%nat in
  let size := Nat.min stack_size nlooks in
  if Nat.eqb padded 0 && negb (Nat.eqb size 0) then Err EFft
  else
    let iq := map (range_row padded) (firstn size beams) in
    Ok (iq, map power_row iq).
