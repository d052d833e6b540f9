(** Beam angles, beam trend, nadir beam, look index, focused beams.
    Definitions only. *)
From Coq Require Import List ZArith Bool.
From Verif Require Import Common.
Import ListNotations.

(* ------------------------------------------------------------------ *)
(** ** dedop/proc/sar/algorithms/beam_angles.py *)

(** beam_angles.py lines 40-53: the loop of [BeamAnglesAlgorithm.__call__]
    over the surfaces still to be visited.  [angle s] and [vis s] are the two
    results of [compute_beam_angle] (lines 55-82) for surface [s] and the
    given burst: the geometry is left abstract, every function is allowed.
    [acc] is the pair of lists beam_angles / surfaces_seen, kept as one list of
    pairs because the code appends to and pops from both together (lines
    44-45 and 48-49); [work s] says whether [s] is the working surface (line
    50); [prev] is curr_location_seen before the iteration. *)
Fixpoint beam_scan {S A : Type} (N : nat) (vis : S -> bool) (angle : S -> A)
    (counter : S -> nat) (work : S -> bool)
    (surfs : list S) (prev : bool) (acc : list (A * nat)) (wseen : bool)
    : list (A * nat) * bool :=
  match surfs with
  | [] => (acc, wseen)
  | s :: rest =>
      if vis s then
        let acc1 := acc ++ [(angle s, counter s)] in
        let acc2 := if Nat.ltb N (length acc1) then tl acc1 else acc1 in
        beam_scan N vis angle counter work rest true acc2 (wseen || work s)
      else if prev then (acc, wseen)
      else beam_scan N vis angle counter work rest false acc wseen
  end.

(** beam_angles.py lines 28-53: initial values and the whole loop. *)
Definition beam_angles {S A : Type} (N : nat) (vis : S -> bool) (angle : S -> A)
    (counter : S -> nat) (work : S -> bool) (surfs : list S)
    : list (A * nat) * bool :=
  beam_scan N vis angle counter work surfs false [] false.

(* ------------------------------------------------------------------ *)
(** ** dedop/model/l1a_processing_data.py *)

(** l1a_processing_data.py lines 879-898, [calculate_beam_angles_trend]:
    [N] = chd.n_ku_pulses_burst, [size] = len(beam_angles_list); [psize] = -1
    before the first burst. *)
Definition trend (N : nat) (size : nat) (psize ptrend : Z) : Z :=
  if Nat.eqb size N then 0%Z
  else if (psize =? -1)%Z || (psize <? Z.of_nat size)%Z then 1%Z
  else if (Z.of_nat size <? psize)%Z then (-1)%Z
  else ptrend.

(** processor.py lines 133-134 and 385-392: the trends stored for a sequence
    of bursts whose beam lists have the given sizes. *)
Fixpoint trends_from (N : nat) (psize ptrend : Z) (sizes : list nat) : list Z :=
  match sizes with
  | [] => []
  | s :: rest =>
      let t := trend N s psize ptrend in
      t :: trends_from N (Z.of_nat s) t rest
  end.

Definition trends (N : nat) (sizes : list nat) : list Z :=
  trends_from N (-1) (-1) sizes.

(* ------------------------------------------------------------------ *)
(** ** dedop/proc/sar/algorithms/azimuth_processing.py *)

Inductive beam_err := EIndexError | ETrend.

(** azimuth_processing.py lines 189-227: the index into the beam list. *)
Definition nadir_index (N size : nat) (t : Z) : res beam_err Z :=
  let half := Nat.div N 2 in
  if (t =? 1)%Z then
    if Nat.ltb size half then Ok 0%Z else Ok (- Z.of_nat half)%Z
  else if (t =? -1)%Z then
    if Nat.leb size half then Ok (-1)%Z else Ok (Z.of_nat half)
  else if (t =? 0)%Z then Ok (Z.of_nat half)
  else Err ETrend.

(** azimuth_processing.py lines 228-230: Python indexing of the list. *)
Definition nadir_beam {A} (N : nat) (l : list A) (t : Z) : res beam_err A :=
  bind (nadir_index N (length l) t)
       (fun i => match py_get l i with Some a => Ok a | None => Err EIndexError end).

(** azimuth_processing.py lines 29-32: np.empty gives rows of unknown content;
    [Undef] marks such a row. *)
Inductive row (R : Type) : Type := Undef | Row (r : R).
Arguments Undef {R}.
Arguments Row {R} r.

(** azimuth_processing.py lines 106-112: rows of beams_focused after the
    approximate method; [fft] is the list of the N rows of the shifted FFT. *)
Definition approx_offset (N size : nat) (t : Z) : nat :=
  if (t =? 1)%Z then N - size else 0.

Definition approx_rows {R} (N size : nat) (t : Z) (fft : list R) : list (row R) :=
  let off := approx_offset N size t in
  let copy_end := N - off in
  map (@Row R) (firstn copy_end (skipn off fft)) ++ repeat Undef (N - copy_end).

(** azimuth_processing.py lines 128-142: rows after the exact method;
    [steer a] is the list of the N rows of the FFT after steering with angle
    [a] (lines 131-137); row N//2 is kept. An index beyond the array
    (more than N angles) is an IndexError. *)
Definition exact_rows {A R} (N : nat) (steer : A -> list R) (angles : list A)
    : res beam_err (list (row R)) :=
  if Nat.ltb N (length angles) then Err EIndexError
  else
    Ok (map (fun a => match nth_error (steer a) (Nat.div N 2) with
                      | Some r => Row r
                      | None => Undef
                      end) angles
        ++ repeat Undef (N - length angles)).

(* ------------------------------------------------------------------ *)
(** ** dedop/model/surface_data.py *)

(** surface_data.py lines 1125-1136, [add_stack_beam_index]: the absolute look
    index appended to stack_all_beams_indices_abs. *)
Definition abs_index (N : nat) (idx : nat) (t : Z) (size : nat) : Z :=
  (if (t =? 1)%Z
   then Z.of_nat idx + Z.of_nat N - Z.of_nat size - Z.of_nat (Nat.div N 2)
   else Z.of_nat idx - Z.of_nat (Nat.div N 2))%Z.
