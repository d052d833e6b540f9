(** Changes of the echoes and of the tracking of the receiving window. *)
From Coq Require Import List ZArith QArith Reals.
From Verif Require Import Cplx GcorrModel PointModel LinModel MlookModel.
Import ListNotations.
Local Open Scope R_scope.

(** The same burst with every sample multiplied by the complex number [g]. *)
Definition amplified (g : C) (r : raw) : raw :=
  {| r_burst := with_wfm (r_burst r) (map (map (Cmul g)) (b_wfm (r_burst r)));
     r_agc := r_agc r; r_sig0 := r_sig0 r; r_power := r_power r; r_phase := r_phase r; r_table := r_table r |}.
(** The same burst recorded with an automatic gain [d] decibel higher. *)
Definition regained (d : R) (r : raw) : raw :=
  {| r_burst := r_burst r; r_agc := r_agc r + d; r_sig0 := r_sig0 r; r_power := r_power r; r_phase := r_phase r; r_table := r_table r |}.
(** Row by row, the powers of the second list are those of the first times the
    squared modulus of the factor. *)
Inductive louder : list C -> list (list R) -> list (list R) -> Prop :=
| louder_nil : forall gs, louder gs [] []
| louder_cons : forall g gs row rows rows', louder gs rows rows' ->
    louder (g :: gs) (row :: rows) (map (Rmult (Cnorm2 g)) row :: rows').

(** Sample [j] of pulse [p] of a burst. *)
Definition sample (o : obs) (p j : nat) : C := nth j (nth p (b_wfm o) []) C0.
Definition shaped (N n : nat) (o : obs) : Prop :=
  length (b_wfm o) = N /\ forall p, (p < N)%nat -> length (nth p (b_wfm o) []) = n.

(** [o] has the geometry of [o1], and the sum of the echoes of [o1] and [o2]. *)
Definition superposed (N n : nat) (o1 o2 o : obs) : Prop :=
  o2 = with_wfm o1 (b_wfm o2) /\ o = with_wfm o1 (b_wfm o) /\
  shaped N n o1 /\ shaped N n o2 /\ shaped N n o /\
  forall p j, (p < N)%nat -> (j < n)%nat -> sample o p j = Cadd (sample o1 p j) (sample o2 p j).

(** [o'] is [o] recorded with a window that opens [d] seconds later: each echo has
    the same delay, but counted from the new start of the window. *)
Definition with_delay (o : obs) (wd : R) : obs :=
  {| b_x := b_x o; b_y := b_y o; b_z := b_z o; b_speed := b_speed o; b_pri := b_pri o; b_wd := wd;
     b_t0 := b_t0 o; b_angles := b_angles o; b_pos := b_pos o; b_wfm := b_wfm o |}.
Definition tracked (N n : nat) (d : R) (o o' : obs) : Prop :=
  o' = with_delay (with_wfm o (b_wfm o')) (b_wd o + d) /\ shaped N n o /\ shaped N n o' /\
  forall p j, (p < N)%nat -> (j < n)%nat ->
    sample o' p j = Cmul (cis (- (2 * PI * (d / b_t0 o) * INR j / INR n))) (sample o p j).

(** Multilooking: the same beam with its powers multiplied by [q]. *)
Definition brighter (q : Q) (b b' : mbeam) : Prop :=
  b' = with_row b (m_row b') /\ Forall2 (fun x y => y == q * x)%Q (m_row b) (m_row b').
(** Waveforms: not-a-number at the same places, other samples times [q]. *)
Definition brighter_wave (q : Q) : list (option Q) -> list (option Q) -> Prop :=
  Forall2 (fun x y => match x, y with
                      | Some a, Some b => (b == q * a)%Q
                      | None, None => True
                      | _, _ => False
                      end).
(** All other results. *)
Definition same_selection (r r' : mlook_out) : Prop :=
  r' = {| r_wave := r_wave r'; r_n := r_n r; r_n_start_stop := r_n_start_stop r;
          r_start_look := r_start_look r; r_stop_look := r_stop_look r;
          r_start_doppler := r_start_doppler r; r_stop_doppler := r_stop_doppler r;
          r_start_pointing := r_start_pointing r; r_stop_pointing := r_stop_pointing r;
          r_start_angle := r_start_angle r; r_stop_angle := r_stop_angle r;
          r_start_burst := r_start_burst r; r_stop_burst := r_stop_burst r;
          r_vec_ss := r_vec_ss r; r_angles_ss := r_angles_ss r; r_looks_ss := r_looks_ss r |}.
