(** Independent vocabulary for C13-C18. *)
From Coq Require Import List ZArith Bool.
Import ListNotations.

(** The first contiguous run of elements satisfying [p]. *)
Fixpoint drop_while {A} (p : A -> bool) (l : list A) : list A :=
  match l with
  | [] => []
  | x :: r => if p x then drop_while p r else l
  end.
Fixpoint take_while {A} (p : A -> bool) (l : list A) : list A :=
  match l with
  | [] => []
  | x :: r => if p x then x :: take_while p r else []
  end.
Definition first_run {A} (p : A -> bool) (l : list A) : list A :=
  take_while p (drop_while (fun x => negb (p x)) l).

(** The last [n] elements. *)
Definition last_n {A} (n : nat) (l : list A) : list A := skipn (length l - n) l.

(** Direction of the last strict change in a history of sizes that ends with
    [cur], read backwards; a history without change counts as growing (the
    first burst starts the run). *)
Fixpoint last_direction (cur : nat) (older : list nat) : Z :=
  match older with
  | [] => 1%Z
  | p :: older' =>
      if Nat.ltb p cur then 1%Z
      else if Nat.ltb cur p then (-1)%Z
      else last_direction cur older'
  end.

(** What the trend of burst [k] of a history must be. *)
Definition trend_spec (N : nat) (sizes : list nat) (k : nat) : option Z :=
  match nth_error sizes k with
  | None => None
  | Some s =>
      if Nat.eqb s N then Some 0%Z
      else Some (last_direction s (rev (firstn k sizes)))
  end.

(** Position in the full set of N beams of element [idx] of a list of [size]
    beams: a filling list ([t = 1]) holds the last [size] beams, otherwise it
    holds the first ones. *)
Definition full_position (N size : nat) (t : Z) (idx : nat) : nat :=
  if Z.eqb t 1 then N - size + idx else idx.
