(** Independent descriptions for the range-axis transforms. *)
From Coq Require Import List Reals.
From Verif Require Import Cplx.
Import ListNotations.
Local Open Scope R_scope.

(** The content of a row of n samples at frequency number f (0 <= f < n). *)
Definition spectrum (n : nat) (row : list C) (f : nat) : C :=
  dft n (fun j => nth j row C0) f.

(** The frequency number of position t in a spectrum displayed with the zero
    frequency in the middle (position n/2). *)
Definition freq_of (n t : nat) : nat := Nat.modulo (t + (n - Nat.div n 2)) n.

(** energy of a row *)
Fixpoint energy (row : list C) : R :=
  match row with
  | [] => 0
  | z :: r => fst z * fst z + snd z * snd z + energy r
  end.

Fixpoint total (row : list R) : R :=
  match row with
  | [] => 0
  | x :: r => x + total r
  end.
