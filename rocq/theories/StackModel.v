(** Stack gathering.  Definitions only. *)
From Coq Require Import List ZArith QArith Qabs.
From Verif Require Import Common.
Import ListNotations.

(** The attributes of a burst (L1AProcessingData) read by the algorithm;
    complex samples are pairs of rationals. *)
Record burst := {
  s_id : nat;                     (* identity of the object *)
  s_angles : list Q;              (* beam_angles_list *)
  s_beams : list (list (Q * Q));  (* beams_focused, one row per beam *)
  s_t0 : Q;                       (* t0_sar *)
  s_doppler : Q;                  (* doppler_angle_sar_sat *)
  s_pitch : Q;                    (* pitch_sar *)
  s_seq : Z;                      (* seq_count_sar *)
  s_rmc : bool                    (* isp_pid == PacketPid.echo_rmc *)
}.

(** One contribution to a surface: stack_all_bursts[i],
    stack_all_beams_indices[i], stack_all_beams_indices_abs[i]
    (surface_data.py lines 1125-1139). *)
Record entry := { e_burst : burst; e_index : nat; e_abs : Z }.

(** One position of the output arrays. *)
Record look := {
  l_burst : option burst;
  l_beam : list (Q * Q);
  l_angle : Q;
  l_t0 : Q;
  l_doppler : Q;
  l_look : Q;
  l_pointing : Q;
  l_index : Z;
  l_counter : Z
}.

Inductive stack_err := EIndex | EEmptyMin | EBroadcastRow.

(** stack_gathering.py lines 75-101: the initial content of every position. *)
Definition empty_look (nsamp : nat) : look :=
  {| l_burst := None; l_beam := repeat (0, 0) nsamp; l_angle := 0; l_t0 := 0;
     l_doppler := 0; l_look := 0; l_pointing := 0; l_index := -128; l_counter := 0 |}.

(** stack_gathering.py lines 54-62 (and 107-117): look angle of a contribution. *)
Definition look_angle (cpi : Q) (e : entry) : res stack_err Q :=
  match nth_error (s_angles (e_burst e)) (e_index e) with
  | None => Err EIndex
  | Some a => Ok (cpi / 2 + s_doppler (e_burst e) - a)
  end.

Fixpoint map_res {E A B} (f : A -> res E B) (l : list A) : res E (list B) :=
  match l with
  | [] => Ok []
  | x :: r => bind (f x) (fun y => bind (map_res f r) (fun ys => Ok (y :: ys)))
  end.

(** stack_gathering.py lines 107-132: one iteration of the copying loop. *)
Definition make_look (cpi : Q) (nsamp : nat) (e : entry) : res stack_err look :=
  let b := e_burst e in
  match nth_error (s_beams b) (e_index e) with
  | None => Err EIndex
  | Some row =>
  match nth_error (s_angles b) (e_index e) with
  | None => Err EIndex
  | Some a =>
      if Nat.ltb nsamp (length row) then Err EBroadcastRow
      else
        let la := cpi / 2 + s_doppler b - a in
        Ok {| l_burst := Some b;
              l_beam := row ++ repeat (0, 0) (nsamp - length row);
              l_angle := a; l_t0 := s_t0 b; l_doppler := s_doppler b;
              l_look := la; l_pointing := la - s_pitch b;
              l_index := e_abs e; l_counter := s_seq b |}
  end end.

(** stack_gathering.py lines 104 and 137-141: closest_burst_beam_angle and
    closest_burst_index; [idx] is the index left by the previous call. *)
Fixpoint closest_scan (cpi : Q) (looks : list look) (i : nat)
    (best : option Q) (idx : nat) : nat :=
  match looks with
  | [] => idx
  | l :: r =>
      let d := Qabs (l_angle l - cpi / 2) in
      let better := match best with
                    | None => true
                    | Some b => negb (Qle_bool b d)
                    end in
      if better then closest_scan cpi r (S i) (Some d) i
      else closest_scan cpi r (S i) best idx
  end.

Definition has_rmc (looks : list look) : bool :=
  existsb (fun l => match l_burst l with Some b => s_rmc b | None => false end) looks.

Fixpoint list_min (l : list nat) : option nat :=
  match l with
  | [] => None
  | x :: r => match list_min r with None => Some x | Some m => Some (Nat.min x m) end
  end.

Record gathered := {
  g_size : nat;            (* data_stack_size *)
  g_offset : nat;          (* stack_begin_offset, local variable *)
  g_looks : list look;     (* the arrays of length n_looks_stack *)
  g_closest : nat;         (* closest_burst_index *)
  g_rmc : bool             (* surface_type == surface_rmc, lines 103, 134, 143-146 *)
}.

Section Gather.
(** numpy.argsort: any function; its contract is stated where it is needed. *)
Variable argsort : list Q -> list nat.

(** stack_gathering.py lines 35-73: number of elements kept and the offset. *)
Definition window_of (cpi : Q) (nlooks : nat) (entries : list entry)
    : res stack_err (nat * nat) :=
  let all := length entries in
  if Nat.ltb all nlooks then Ok (all, 0%nat)
  else
    bind (map_res (look_angle cpi) entries) (fun angles =>
      match list_min (firstn nlooks (argsort (map Qabs angles))) with
      | None => Err EEmptyMin
      | Some off => Ok (nlooks, off)
      end).

(** stack_gathering.py lines 28-146, [__call__]; [closest0] is the
    closest_burst_index left by the previous call. *)
Definition gather (cpi : Q) (nlooks nsamp closest0 : nat) (entries : list entry)
    : res stack_err gathered :=
  bind (window_of cpi nlooks entries) (fun wo =>
    let (size, off) := wo in
    (* an index beyond the list would be an IndexError; firstn/skipn then give
       fewer elements, which is tested explicitly *)
    let chosen := firstn size (skipn off entries) in
    if Nat.ltb (length chosen) size then Err EIndex
    else
      bind (map_res (make_look cpi nsamp) chosen) (fun looks =>
        Ok {| g_size := size; g_offset := off;
              g_looks := looks ++ repeat (empty_look nsamp) (nlooks - size);
              g_closest := closest_scan cpi looks 0 None closest0;
              g_rmc := has_rmc looks |})).
End Gather.

(** surface_data.py lines 848-851, [closest_burst]. *)
Definition closest_burst (g : gathered) : option burst :=
  match nth_error (g_looks g) (g_closest g) with
  | Some l => l_burst l
  | None => None
  end.
