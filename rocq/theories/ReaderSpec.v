(** Independent vocabulary for C31-C34, C75. *)
From Coq Require Import List ZArith QArith Bool.
Import ListNotations.

(** x lies within the optional limits, limits included *)
Definition within (lo hi : option Q) (x : Q) : Prop :=
  match lo with Some m => (m <= x)%Q | None => True end /\
  match hi with Some m => (x <= m)%Q | None => True end.

(** a record position is usable: not exactly (0, 0) *)
Definition usable (p : Q * Q) : Prop := ~ (fst p == 0 /\ snd p == 0)%Q.

Fixpoint somes {A} (l : list (option A)) : list A :=
  match l with
  | [] => []
  | Some x :: r => x :: somes r
  | None :: r => somes r
  end.

Fixpoint strictly_increasing (l : list nat) : Prop :=
  match l with
  | [] => True
  | x :: r => Forall (fun y => x < y)%nat r /\ strictly_increasing r
  end.
