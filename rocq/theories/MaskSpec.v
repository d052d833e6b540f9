(** Independent vocabulary for C26-C28. *)
From Coq Require Import List ZArith QArith Bool.
Import ListNotations.
Local Open Scope Z_scope.

(** [r] is the integer nearest to [q], the even one of two. *)
Definition nearest_even (q : Q) (r : Z) : Prop :=
  (inject_Z r - (1#2) <= q <= inject_Z r + (1#2))%Q /\
  ((q == inject_Z r + (1#2) \/ q == inject_Z r - (1#2))%Q -> Z.even r = true).

(** Sample [j] of a beam of [N] samples, oversampled [zp] times and shifted by
    [s] samples, was not wrapped around. *)
Definition not_wrapped (N zp : nat) (s : Z) (j : nat) : Prop :=
  if 0 <? s then s * Z.of_nat zp <= Z.of_nat j
  else Z.of_nat j < (Z.of_nat N - Z.abs s) * Z.of_nat zp.

(** [p] is the last position holding a one. *)
Definition last_one (row : list Z) (p : nat) : Prop :=
  nth_error row p = Some 1 /\ forall j, (p < j)%nat -> nth_error row j <> Some 1.

Definition binary (row : list Z) : Prop := forall x, In x row -> x = 0 \/ x = 1.
