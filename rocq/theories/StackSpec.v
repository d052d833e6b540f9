(** Independent vocabulary for C20 and C21. *)
From Coq Require Import List ZArith QArith Qabs Sorting.Permutation Sorting.Sorted.
Import ListNotations.

(** Contract of numpy.argsort: a permutation of the positions along which the
    values do not decrease.  The order of equal values is left open. *)
Definition is_argsort (vals : list Q) (perm : list nat) : Prop :=
  Permutation perm (seq 0 (length vals)) /\
  StronglySorted (fun i j => nth i vals 0 <= nth j vals 0) perm.

(** Values that strictly decrease up to position [m] and strictly increase
    from there on. *)
Definition valley (vals : list Q) : Prop :=
  exists m, (forall i j, (i < j <= m)%nat -> (j < length vals)%nat -> nth j vals 0 < nth i vals 0) /\
            (forall i j, (m <= i < j)%nat -> (j < length vals)%nat -> nth i vals 0 < nth j vals 0).

(** The first position of a minimum. *)
Definition first_argmin (vals : list Q) (k : nat) : Prop :=
  (k < length vals)%nat /\
  (forall j, (j < length vals)%nat -> nth k vals 0 <= nth j vals 0) /\
  (forall j, (j < k)%nat -> nth k vals 0 < nth j vals 0).
