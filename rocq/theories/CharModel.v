(** Characterisation of the stack of a surface (proc/sar/algorithms/
    multilooking.py lines 11-41 and 83-166).  Definitions only.

    Reals instead of floats; [None] is a number that is not finite (the NaN or
    infinity that numpy produces for a division by zero). *)
From Coq Require Import List ZArith Reals Bool.
From Verif Require Import Common.
Import ListNotations.
Open Scope R_scope.

(** The arrays of a surface that are read (stack_gathering.py 75-101,
    stack_masking.py): one entry per position of the stack. *)
Record stack := {
  k_angles : list R;          (* beam_angles_surf *)
  k_looks : list R;           (* look_angles_surf *)
  k_points : list R;          (* pointing_angles_surf *)
  k_rows : list (list R);     (* beams_masked *)
  k_size : nat                (* data_stack_size *)
}.

(** [np.empty] of a negative size; [0 / 0] on Python integers; an exception of
    [curve_fit] other than the three that are caught; an index out of range. *)
Inductive char_err := ENegative | EZeroDiv | ERaise | EEmpty.

(** Result of scipy's [curve_fit]: parameters, one of the exceptions caught at
    line 37, or another exception. *)
Inductive fit := Fitted (a b c : R) | Caught | Raised.

Definition sum (l : list R) : R := fold_right Rplus 0 l.

(** multilooking.py 93-99: [np.argmin] of the complementary angles, the first
    position of the least value. *)
Fixpoint argmin_from (best : R) (at_ i : nat) (l : list R) : nat :=
  match l with
  | [] => at_
  | x :: r => if Rlt_dec x best then argmin_from x i (S i) r else argmin_from best at_ (S i) r
  end.
Definition argmin (l : list R) : option nat :=
  match l with [] => None | x :: r => Some (argmin_from x 0 1 r) end.
Definition complementary (cpi : R) (s : stack) : list R :=
  map (fun a => Rabs (cpi / 2 - a)) (k_angles s).

(** multilooking.py 89, 101-110: the power of each beam, over the first
    [(n_samples_sar // 2) * zp_fact_range] samples. *)
Definition beam_powers (nlooks nsamp zp : nat) (s : stack) : list R :=
  let max_stack := Nat.min nlooks (k_size s) in
  map (fun r => sum (firstn (Nat.div nsamp 2 * zp) r)) (firstn max_stack (k_rows s)).
Definition max_power (ps : list R) : R :=
  fold_left (fun m p => if Rlt_dec m p then p else m) ps 0.

(** multilooking.py 114-119: first beam and number of beams of the fit. *)
Definition window (centre max_stack : nat) : Z * Z :=
  let last := Z.min (Z.of_nat centre + 124) (Z.of_nat max_stack - 1) in
  let first := Z.max (Z.of_nat centre - 124) 0 in
  (first, last - first + 1)%Z.

Definition slice {A} (first n : nat) (l : list A) : list A := firstn n (skipn first l).

(** What is fitted (121-134): look angles, pointing angles, powers relative
    to the largest of the stack. *)
Record samples := { f_n : nat; f_looks : list R; f_points : list R; f_powers : list (option R) }.

Definition normalise (m : R) (p : R) : option R :=
  if Req_EM_T m 0 then None else Some (p / m).

Definition fitting (cpi : R) (nlooks nsamp zp : nat) (s : stack) : res char_err samples :=
  let max_stack := Nat.min nlooks (k_size s) in
  match argmin (complementary cpi s) with
  | None => Err EEmpty
  | Some centre =>
      let ps := beam_powers nlooks nsamp zp s in
      let '(first, n) := window centre max_stack in
      if (n <? 0)%Z then Err ENegative
      else
        let first := Z.to_nat first in
        let n := Z.to_nat n in
        Ok {| f_n := n; f_looks := slice first n (k_looks s);
              f_points := slice first n (k_points s);
              f_powers := map (normalise (max_power ps)) (slice first n ps) |}
  end.

(** multilooking.py 12-17, [gauss]: [a * exp(-(x - b)**2 / c**2)]. *)
Definition gauss (a b c x : R) : option R :=
  if Req_EM_T c 0 then (if Req_EM_T x b then None else Some 0)
  else Some (a * exp (- (x - b) ^ 2 / c ^ 2)).

(** multilooking.py 20-41, [gauss_fit]: points that are not finite are
    skipped; a failed fit is the parameters 1, 1, 1. *)
Fixpoint valid (xs : list R) (ys : list (option R)) : list R * list R :=
  match xs, ys with
  | x :: xs', Some y :: ys' => let '(a, b) := valid xs' ys' in (x :: a, y :: b)
  | _ :: xs', None :: ys' => valid xs' ys'
  | _, _ => ([], [])
  end.
Definition gauss_fit (curve_fit : list R -> list R -> fit) (xs : list R) (ys : list (option R))
    : res char_err (R * R * R) :=
  let '(a, b) := valid xs ys in
  match curve_fit a b with
  | Fitted a b c => Ok (a, b, c)
  | Caught => Ok (1, 1, 1)
  | Raised => Err ERaise
  end.

(** multilooking.py 148-166: mean and standard deviation of the fitted curve,
    then the means of the third and fourth powers. *)
Definition all_some (l : list (option R)) : option (list R) :=
  fold_right (fun x acc => match x, acc with Some x, Some l => Some (x :: l) | _, _ => None end)
    (Some []) l.
Definition mean (l : list R) : R := sum l / INR (length l).
Definition std (l : list R) : R := sqrt (mean (map (fun x => (x - mean l) ^ 2) l)).
Definition moment (k : nat) (l : list R) : R :=
  mean (map (fun x => ((x - mean l) / std l) ^ k) l).
Definition shape (l : list (option R)) : option R * option R :=
  match all_some l with
  | None => (None, None)
  | Some l => if Req_EM_T (std l) 0 then (None, None)
              else (Some (moment 3 l), Some (moment 4 l - 3))
  end.

Record outcome := {
  o_max : R;                  (* stack_max *)
  o_look : R;                 (* look_angle_centre *)
  o_std : R;                  (* stack_std *)
  o_point : R;                (* pointing_angle_centre *)
  o_skew : option R;          (* stack_skewness *)
  o_kurt : option R           (* stack_kurtosis *)
}.

(** [np.arange(n)] *)
Definition arange (n : nat) : list R := map INR (seq 0 n).

(** multilooking.py 83-166, [compute_stack_characterization_params]. *)
Definition characterise (curve_fit : list R -> list R -> fit) (cpi : R)
    (nlooks nsamp zp : nat) (s : stack) : res char_err outcome :=
  bind (fitting cpi nlooks nsamp zp s) (fun d =>
  bind (gauss_fit curve_fit (f_looks d) (f_powers d)) (fun '(la, lb, lc) =>
  bind (gauss_fit curve_fit (f_points d) (f_powers d)) (fun '(_, pb, _) =>
  bind (gauss_fit curve_fit (arange (f_n d)) (f_powers d)) (fun '(a, b, c) =>
  if (f_n d =? 0)%nat then Err EZeroDiv
  else
    let '(sk, ku) := shape (map (gauss a b c) (arange (f_n d))) in
    Ok {| o_max := la; o_look := lb; o_std := lc / 2; o_point := pb;
          o_skew := sk; o_kurt := ku |})))).
