(** Multilooking and antenna weighting.  Definitions only. *)
From Coq Require Import List ZArith QArith Bool.
From Verif Require Import Common.
Import ListNotations.

(** Position i of the arrays of a surface read by the algorithm
    (dedop/model/surface_data.py attributes of the same names). *)
Record mbeam := {
  m_vec : Q;             (* stack_mask_vector[i] *)
  m_mask : list Q;       (* stack_mask[i, :] *)
  m_row : list Q;        (* beams_masked[i, :] *)
  m_look : Q;            (* look_angles_surf[i] *)
  m_doppler : Q;         (* doppler_angles_surf[i] *)
  m_pointing : Q;        (* pointing_angles_surf[i] *)
  m_angle : Q;           (* beam_angles_surf[i] *)
  m_seq : Z              (* stack_bursts[i].source_seq_count *)
}.

Inductive mlook_err := EIndex | EShape.

(* ------------------------------------------------------------------ *)
(** ** antenna weighting *)

Record antenna := { a_angles : list Q; a_weights : list Q; a_spacing : Q }.

(** Python [int(q)]: truncation towards zero. *)
Definition q_trunc (q : Q) : Z := Z.quot (Qnum q) (Zpos (Qden q)).

Definition get_w (l : list Q) (i : Z) : res mlook_err Q :=
  match py_get l i with Some q => Ok q | None => Err EIndex end.

(** multilooking.py lines 192-219, [_select_weight_from_angle]. *)
Definition select_weight (t : antenna) (angle : Q) : res mlook_err Q :=
  bind (get_w (a_angles t) 0) (fun a_first =>
  if Qle_bool angle a_first then get_w (a_weights t) 0
  else
    bind (get_w (a_angles t) (-1)) (fun a_last =>
    if Qle_bool a_last angle then get_w (a_weights t) (-1)
    else
      let weight_index := (angle - a_first) / a_spacing t in
      let index_left := q_trunc weight_index in
      let index_right := (index_left + 1)%Z in
      bind (get_w (a_weights t) index_left) (fun weight_left =>
      bind (get_w (a_weights t) index_right) (fun weight_right =>
        let alpha := (angle - weight_left) / a_spacing t in
        Ok (weight_left + alpha * (weight_right - weight_left)))))).

Definition with_row (b : mbeam) (r : list Q) : mbeam :=
  {| m_vec := m_vec b; m_mask := m_mask b; m_row := r; m_look := m_look b;
     m_doppler := m_doppler b; m_pointing := m_pointing b; m_angle := m_angle b;
     m_seq := m_seq b |}.

(** multilooking.py lines 168-190, [apply_antenna_weighting]: beam i is
    multiplied by the weight of its pointing angle; the rows beyond the stack
    are not read afterwards and are left as they are here. *)
Fixpoint weigh (t : antenna) (n : nat) (beams : list mbeam) : res mlook_err (list mbeam) :=
  match n, beams with
  | O, _ => Ok beams
  | S n', [] => Err EIndex
  | S n', b :: r =>
      bind (select_weight t (m_pointing b)) (fun w =>
      bind (weigh t n' r) (fun r' =>
        Ok (with_row b (map (fun x => x * w) (m_row b)) :: r')))
  end.

Definition antenna_weighting (t : antenna) (flag : bool) (nlooks size : nat)
    (beams : list mbeam) : res mlook_err (list mbeam) :=
  if flag then weigh t (Nat.min size nlooks) beams else Ok beams.

(* ------------------------------------------------------------------ *)
(** ** multilooking *)

(** numpy [a[:] += b] and [a * b] for vectors of the same length. *)
Fixpoint vzip (f : Q -> Q -> Q) (a b : list Q) : res mlook_err (list Q) :=
  match a, b with
  | [], [] => Ok []
  | x :: a', y :: b' => bind (vzip f a' b') (fun r => Ok (f x y :: r))
  | _, _ => Err EShape
  end.

Record acc := {
  c_n : nat;                 (* n_beams_multilooking *)
  c_start : option nat;      (* start_beam_index *)
  c_stop : option nat;       (* stop_beam_index *)
  c_sum : list Q;            (* waveform_multilooked *)
  c_cnt : list Q             (* sample_counter *)
}.

(** multilooking.py lines 253-274: the loop body, [i] = beam_index. *)
Definition mlook_step (avoid : bool) (i : nat) (b : mbeam) (a : acc) : res mlook_err acc :=
  if Qeq_bool (m_vec b) 0 then Ok a
  else
    let start := match c_start a with None => Some i | s => s end in
    let ones := map (fun _ => 1) (c_sum a) in
    let mask := if avoid then m_mask b else ones in
    bind (vzip Qmult (m_row b) mask) (fun prod =>
    bind (vzip Qplus (c_sum a) prod) (fun s =>
    bind (vzip Qplus (c_cnt a) mask) (fun c =>
      Ok {| c_n := S (c_n a); c_start := start; c_stop := Some i; c_sum := s; c_cnt := c |}))).

Fixpoint mlook_loop (avoid : bool) (i : nat) (beams : list mbeam) (a : acc) : res mlook_err acc :=
  match beams with
  | [] => Ok a
  | b :: r => bind (mlook_step avoid i b a) (mlook_loop avoid (S i) r)
  end.

(** multilooking.py line 276: division of the sums by the counters; [None] is
    the NaN (or infinity) that numpy produces for a zero counter. *)
Definition divide (s c : list Q) : list (option Q) :=
  map (fun p => if Qeq_bool (snd p) 0 then None else Some (fst p / snd p)) (combine s c).

Record mlook_out := {
  r_wave : list (option Q);      (* waveform_multilooked *)
  r_n : nat;                     (* n_beams_multilooking *)
  r_n_start_stop : nat;          (* n_beams_start_stop *)
  r_start_look : Q; r_stop_look : Q;
  r_start_doppler : Q; r_stop_doppler : Q;
  r_start_pointing : Q; r_stop_pointing : Q;
  r_start_angle : Q; r_stop_angle : Q;
  r_start_burst : Z; r_stop_burst : Z;
  r_vec_ss : list Q;             (* stack_mask_vector_start_stop *)
  r_angles_ss : list Q;          (* beam_angles_start_stop *)
  r_looks_ss : list Q            (* look_angles_start_stop *)
}.

(** multilooking.py lines 318-323: [z[:n] = l[a:b+1]] with z = zeros(nlooks). *)
Definition trimmed (nlooks : nat) (l : list Q) (a b : nat) : list Q :=
  firstn (S b - a) (skipn a l) ++ repeat 0 (nlooks - (S b - a)).

(** multilooking.py lines 221-323, [compute_multilooking]; [nsamp] =
    chd.n_samples_sar * zp_fact_range, [size] = data_stack_size; [beams] are the
    positions of the arrays (at least max_stack of them). *)
Definition multilook (avoid : bool) (nlooks nsamp size : nat) (beams : list mbeam)
    : res mlook_err mlook_out :=
  let max_stack := Nat.min nlooks size in
  if Nat.ltb (length beams) max_stack then Err EIndex
  else
  bind (mlook_loop avoid 0 (firstn max_stack beams)
          {| c_n := 0; c_start := None; c_stop := None;
             c_sum := repeat 0 nsamp; c_cnt := repeat 0 nsamp |}) (fun a =>
  let wave := divide (c_sum a) (c_cnt a) in
  match c_start a, c_stop a with
  | Some s, Some t =>
      match nth_error beams s, nth_error beams t,
            nth_error beams 0, nth_error beams (max_stack - 1) with
      | Some bs, Some bt, Some b0, Some bl =>
          Ok {| r_wave := wave; r_n := c_n a; r_n_start_stop := S t - s;
                r_start_look := m_look bs; r_stop_look := m_look bt;
                r_start_doppler := m_doppler bs; r_stop_doppler := m_doppler bt;
                r_start_pointing := m_pointing bs; r_stop_pointing := m_pointing bt;
                r_start_angle := m_angle bs; r_stop_angle := m_angle bt;
                r_start_burst := m_seq b0; r_stop_burst := m_seq bl;
                r_vec_ss := trimmed nlooks (map m_vec beams) s t;
                r_angles_ss := trimmed nlooks (map m_angle beams) s t;
                r_looks_ss := trimmed nlooks (map m_look beams) s t |}
      | _, _, _, _ => Err EIndex
      end
  | _, _ =>
      Ok {| r_wave := wave; r_n := c_n a; r_n_start_stop := 0;
            r_start_look := 0; r_stop_look := 0; r_start_doppler := 0; r_stop_doppler := 0;
            r_start_pointing := 0; r_stop_pointing := 0; r_start_angle := 0; r_stop_angle := 0;
            r_start_burst := 0; r_stop_burst := 0;
            r_vec_ss := repeat 0 nlooks; r_angles_ss := repeat 0 nlooks;
            r_looks_ss := repeat 0 nlooks |}
  end).

(** multilooking.py lines 70-81, [__call__] without the fit of lines 83-166. *)
Definition multilooking (t : antenna) (flag avoid : bool) (nlooks nsamp size : nat)
    (beams : list mbeam) : res mlook_err mlook_out :=
  bind (antenna_weighting t flag nlooks size beams) (multilook avoid nlooks nsamp size).
