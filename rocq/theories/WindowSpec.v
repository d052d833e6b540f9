(** Independent vocabulary for C19. *)
From Coq Require Import Reals.
Local Open Scope R_scope.

(** First position of a window of [w] out of [N] pulses centred on [N/2]. *)
Definition first_in (N w : nat) : nat := Nat.div N 2 - Nat.div w 2.

(** The textbook windows on 0..w-1. *)
Definition hamming_at (w i : nat) : R := 54/100 - 46/100 * cos (2 * PI * INR i / INR (w - 1)).
Definition hanning_at (w i : nat) : R := 5/10 - 5/10 * cos (2 * PI * INR i / INR (w - 1)).
