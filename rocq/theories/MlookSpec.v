(** Independent vocabulary for C22-C25. *)
From Coq Require Import List ZArith QArith Bool.
From Verif Require Import Common MlookModel.
Import ListNotations.

Definition sumQ (l : list Q) : Q := fold_right Qplus 0 l.
Definition countQ (l : list Q) : Q := inject_Z (Z.of_nat (length l)).

(** Beam kept by the mask. *)
Definition keptb (b : mbeam) : bool := negb (Qeq_bool (m_vec b) 0).

(** The values averaged into sample [j]: those of the kept beams, only the
    unmasked ones when zero avoidance is on. *)
Definition contributions (avoid : bool) (j : nat) (beams : list mbeam) : list Q :=
  map (fun b => nth j (m_row b) 0)
    (filter (fun b => keptb b && (negb avoid || negb (Qeq_bool (nth j (m_mask b) 0) 0)))
            beams).

(** Rows of the right length, masks of zeros and ones. *)
Definition well_formed (nsamp : nat) (b : mbeam) : Prop :=
  length (m_row b) = nsamp /\ length (m_mask b) = nsamp /\
  forall x, In x (m_mask b) -> x == 0 \/ x == 1.

(** [s] and [t] are the first and the last kept beam of a stack. *)
Definition first_kept (beams : list mbeam) (s : nat) : Prop :=
  exists b, nth_error beams s = Some b /\ keptb b = true /\
    forall i c, (i < s)%nat -> nth_error beams i = Some c -> keptb c = false.
Definition last_kept (beams : list mbeam) (t : nat) : Prop :=
  exists b, nth_error beams t = Some b /\ keptb b = true /\
    forall i c, (t < i)%nat -> nth_error beams i = Some c -> keptb c = false.

(** An antenna table with constant positive spacing. *)
Definition regular_table (t : antenna) : Prop :=
  0 < a_spacing t /\ (1 <= length (a_angles t))%nat /\
  length (a_weights t) = length (a_angles t) /\
  forall i, (i < length (a_angles t))%nat ->
    nth i (a_angles t) 0 == nth 0 (a_angles t) 0 + inject_Z (Z.of_nat i) * a_spacing t.

(** Linear interpolation of the table between positions [i] and [i+1]. *)
Definition lerp (t : antenna) (i : nat) (x : Q) : Q :=
  nth i (a_weights t) 0 +
  (x - nth i (a_angles t) 0) / a_spacing t * (nth (S i) (a_weights t) 0 - nth i (a_weights t) 0).
