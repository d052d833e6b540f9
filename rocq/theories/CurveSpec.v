(** What line plots should show. *)
From Coq Require Import Ascii String List ZArith Reals Bool Arith Permutation.
From Verif Require Import Common InspModel CurveModel.
Import ListNotations.
Open Scope string_scope.

(** A variable over a single dimension *)
Definition over (d : dataset) (v n : string) : Prop := In v (d_names d) /\ d_dims d v = [n].
(** Variables over a dimension have its size. *)
Definition sized (d : dataset) : Prop := forall v n, over d v n -> List.length (d_vec d v) = d_size d n.
(** A dimension that is not empty and has two variables *)
Definition shared (d : dataset) (n : string) : Prop :=
  (0 < d_size d n)%nat /\ exists v w, v <> w /\ over d v n /\ over d w n.

Section Sessions.
Variables (sort : list string -> list string) (d : dataset).
(** What can be reached in a notebook by selecting offered names; without and with
    a dimension selector. *)
Inductive session : panel -> Prop :=
| S_start : forall y p, start_line sort d None y = Ok p -> session p
| S_x : forall p x p', session p -> In x (p_xs p) -> choose_x sort d p x = Ok p' -> session p'
| S_y : forall p y, session p -> In y (p_ys p) -> session (choose_y p y).
Inductive dim_session : panel -> Prop :=
| D_start : forall x y p, start_dim sort d x y = Ok p -> dim_session p
| D_dim : forall p n p', dim_session p -> In n (valid_dims sort d) -> choose_dim sort d n = Ok p' -> dim_session p'
| D_x : forall p x, dim_session p -> In x (p_xs p) -> dim_session (set_x p x)
| D_y : forall p y, dim_session p -> In y (p_ys p) -> dim_session (choose_y p y).
End Sessions.

Definition no_char (c : ascii) (s : string) : Prop := ~ In c (list_ascii_of_string s).
Definition dash : ascii := "-"%char.
(** A matrix of [n] rows of [m] values *)
Definition matrix (n m : nat) (z : list (list R)) : Prop := List.length z = n /\ Forall (fun r => List.length r = m) z.
