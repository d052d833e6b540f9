(** Vocabulary for C109-C110 (with IoSpec). *)
From Coq Require Import String List Reals.
From Verif Require Import Common Dict FsModel.
Import ListNotations.
Open Scope R_scope.

Definition is_min (l : list R) (m : R) : Prop := In m l /\ forall x, In x l -> m <= x.
Definition is_max (l : list R) (m : R) : Prop := In m l /\ forall x, In x l -> x <= m.
(** The two numbers are the smallest and the largest, in either order. *)
Definition extremes (l : list R) (p : R * R) : Prop :=
  (is_min l (fst p) /\ is_max l (snd p)) \/ (is_max l (fst p) /\ is_min l (snd p)).
Fixpoint rising (l : list R) : Prop :=
  match l with x :: (y :: _) as r => x <= y /\ rising r | _ => True end.
Fixpoint falling (l : list R) : Prop :=
  match l with x :: (y :: _) as r => y <= x /\ falling r | _ => True end.
