(** Vocabulary for C93-C96. *)
From Coq Require Import List ZArith Reals.
From Verif Require Import Common CharModel.
Import ListNotations.
Open Scope R_scope.

(** The arrays of a surface after stack gathering: [k_size] beams, then
    padding with zeros; beam angles are inverse cosines. *)
Definition gathered (nlooks : nat) (s : stack) : Prop :=
  (0 < k_size s <= nlooks)%nat /\
  length (k_angles s) = nlooks /\ length (k_looks s) = nlooks /\
  length (k_points s) = nlooks /\ length (k_rows s) = nlooks /\
  (forall i a, (i < k_size s)%nat -> nth_error (k_angles s) i = Some a -> 0 <= a <= PI) /\
  (forall i, (k_size s <= i < nlooks)%nat -> nth_error (k_angles s) i = Some 0).

(** Beam [c] of the stack looks closest to the perpendicular of the track,
    the first such beam. *)
Definition central (s : stack) (c : nat) : Prop :=
  (c < k_size s)%nat /\ exists a, nth_error (k_angles s) c = Some a /\
  forall i b, (i < k_size s)%nat -> nth_error (k_angles s) i = Some b ->
    Rabs (PI / 2 - a) <= Rabs (PI / 2 - b) /\
    ((i < c)%nat -> Rabs (PI / 2 - a) < Rabs (PI / 2 - b)).

(** Beams [first .. last] are the central beam and up to 124 on each side. *)
Definition central_window (s : stack) (c first last : nat) : Prop :=
  (first <= c <= last)%nat /\ (last < k_size s)%nat /\
  ((first = 0 /\ c <= 124) \/ c = first + 124)%nat /\
  ((last + 1 = k_size s /\ last <= c + 124) \/ last = c + 124)%nat.

(** Entries [first .. last] of an array. *)
Definition entries {A} (first last : nat) (l m : list A) : Prop :=
  length m = (last + 1 - first)%nat /\
  forall i, (i < last + 1 - first)%nat -> nth_error m i = nth_error l (first + i).

(** No negative power, some power. *)
Definition no_negative (s : stack) : Prop :=
  forall r x, In r (k_rows s) -> In x r -> 0 <= x.

(** All powers multiplied by a factor. *)
Definition amplified (k : R) (s : stack) : stack :=
  {| k_angles := k_angles s; k_looks := k_looks s; k_points := k_points s;
     k_rows := map (map (Rmult k)) (k_rows s); k_size := k_size s |}.

(** The Gaussian bell with peak [a], centre [b] and standard deviation [d]. *)
Definition bell (a b d x : R) : R := a * exp (- (x - b) ^ 2 / (2 * d ^ 2)).

(** Third and fourth standardised moment of a list of numbers. *)
Definition total (l : list R) : R := fold_right Rplus 0 l.
Definition average (l : list R) : R := total l / INR (length l).
Definition is_moment (k : nat) (l : list R) (m : R) : Prop :=
  exists d, 0 < d /\ d ^ 2 = average (map (fun x => (x - average l) ^ 2) l) /\
  m = average (map (fun x => (x - average l) ^ k) l) / d ^ k.
