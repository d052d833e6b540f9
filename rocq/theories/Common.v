(** Shared vocabulary: Python outcomes, Python indexing and slicing.

    Python semantics, not repository code: an index [i] of a sequence of
    length [n] is valid when [-n <= i < n]; negative indices count from the
    end.  Slice bounds are clamped. *)
From Coq Require Import List ZArith Lia Bool Arith.
Import ListNotations.

Inductive res (E A : Type) : Type :=
| Ok (a : A)
| Err (e : E).
Arguments Ok {E A} a.
Arguments Err {E A} e.

Definition bind {E A B} (x : res E A) (f : A -> res E B) : res E B :=
  match x with Ok a => f a | Err e => Err e end.

Definition is_ok {E A} (x : res E A) : bool :=
  match x with Ok _ => true | Err _ => false end.

(** Python [seq[i]]: the position denoted by index [i], if any. *)
Definition py_pos (n : nat) (i : Z) : option nat :=
  if (0 <=? i)%Z then
    if (i <? Z.of_nat n)%Z then Some (Z.to_nat i) else None
  else
    if (- Z.of_nat n <=? i)%Z then Some (Z.to_nat (Z.of_nat n + i)) else None.

Definition py_get {A} (l : list A) (i : Z) : option A :=
  match py_pos (length l) i with
  | Some k => nth_error l k
  | None => None
  end.

(** Python slice bound clamping: [l[a:b]] covers the positions
    [py_clip n a .. py_clip n b - 1]. *)
Definition py_clip (n : nat) (i : Z) : nat :=
  if (0 <=? i)%Z then Nat.min n (Z.to_nat i)
  else Z.to_nat (Z.max 0 (Z.of_nat n + i)).

Definition py_slice {A} (l : list A) (a b : Z) : list A :=
  let lo := py_clip (length l) a in
  let hi := py_clip (length l) b in
  firstn (hi - lo) (skipn lo l).

Lemma py_pos_lt : forall n i k, py_pos n i = Some k -> k < n.
Proof.
  intros n i k. unfold py_pos.
  destruct (0 <=? i)%Z eqn:E1.
  - destruct (i <? Z.of_nat n)%Z eqn:E2; [|discriminate].
    intro H; inversion H; subst. lia.
  - destruct (- Z.of_nat n <=? i)%Z eqn:E2; [|discriminate].
    intro H; inversion H; subst. lia.
Qed.

Lemma py_pos_nonneg : forall n k, k < n -> py_pos n (Z.of_nat k) = Some k.
Proof.
  intros n k H. unfold py_pos.
  replace (0 <=? Z.of_nat k)%Z with true by lia.
  replace (Z.of_nat k <? Z.of_nat n)%Z with true by lia.
  f_equal. lia.
Qed.
