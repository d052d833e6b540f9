(** Azimuth window.  Definitions only. *)
From Coq Require Import List ZArith Reals.
From Verif Require Import Common.
Import ListNotations.

(** dedop/conf/enums.py, [AzimuthWindowingMethod]; [Other] stands for any other
    value handed to the method. *)
Inductive shape := Disabled | Boxcar | Hamming | Hanning | Other.

(** A weight: a number, or the NaN that numpy produces for 0/0. *)
Inductive weight := Num (r : R) | NaN.

Inductive win_err := EBroadcast | EUnsupported.

(** numpy [l[lo:hi] = vals] after clamping ([lo], [hi] are positions): the
    number of values must be the length of the slice, or one (broadcast). *)
Definition assign_slice {A} (l : list A) (lo hi : nat) (vals : list A)
    : res win_err (list A) :=
  let len := hi - lo in
  let put vs := firstn lo l ++ vs ++ skipn (lo + len) l in
  if Nat.eqb (length vals) len then Ok (put vals)
  else match vals with
       | [v] => Ok (put (repeat v len))
       | _ => Err EBroadcast
       end.

(** azimuth_processing.py lines 63 and 66: a0 - a1 cos(2 pi n / (width - 1));
    for width 1 the argument is 0/0. *)
Definition cos_weights (cpi a0 a1 : R) (width : nat) : list weight :=
  map (fun n =>
         if Nat.eqb width 1 then NaN
         else Num (a0 - a1 * cos ((2 * cpi * INR n) / (INR width - 1)))%R)
      (seq 0 width).

(** azimuth_processing.py lines 49-72, [construct_azimuth_window];
    [N] = chd.n_ku_pulses_burst, [cpi] = cst.pi.  The width is a
    non-negative integer (a configuration value). *)
Definition azimuth_window (cpi : R) (N : nat) (sh : shape) (width : nat)
    : res win_err (list weight) :=
  let window := repeat (Num 0) N in
  let centre := Z.of_nat (Nat.div N 2) in
  let start := (centre - Z.of_nat (Nat.div width 2))%Z in
  let stop := (start + Z.of_nat width)%Z in
  let lo := py_clip N start in
  let hi := py_clip N stop in
  match sh with
  | Disabled => Ok (repeat (Num 1) N)
  | Boxcar => assign_slice window lo hi [Num 1]
  | Hamming => assign_slice window lo hi (cos_weights cpi (5/10) (5/10) width)
  | Hanning => assign_slice window lo hi (cos_weights cpi (54/100) (46/100) width)
  | Other => Err EUnsupported
  end.

(** azimuth_processing.py lines 34-38: every sample of pulse i is multiplied by
    weight i (complex samples as pairs of reals). *)
Definition mul_weight (w : weight) (z : R * R) : option (R * R) :=
  match w with
  | Num r => Some (fst z * r, snd z * r)%R
  | NaN => None
  end.

Fixpoint windowed {A} (f : weight -> A -> option A) (w : list weight) (wfm : list (list A))
    : res win_err (list (list (option A))) :=
  match w, wfm with
  | [], [] => Ok []
  | x :: w', row :: wfm' =>
      bind (windowed f w' wfm') (fun r => Ok (map (f x) row :: r))
  | _, _ => Err EBroadcast
  end.
