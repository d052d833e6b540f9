(** Independent vocabulary for the processing-chain properties. *)
From Coq Require Import List ZArith QArith Bool Sorted.
From Verif Require Import ChainModel.
Import ListNotations.
Local Open Scope nat_scope.

(** Time of the last valid record of a list of records. *)
Fixpoint last_valid_from (t : option Q) (l : list item) : option Q :=
  match l with
  | [] => t
  | Valid x :: r => last_valid_from (Some x) r
  | _ :: r => last_valid_from t r
  end.
Definition last_valid (l : list item) : option Q := last_valid_from None l.

(** Record [j] is separated from the valid record before it by a gap: the time
    difference is not below the threshold. *)
Definition gap_at (threshold : Q) (input : list item) (j : nat) : Prop :=
  exists t t0, nth_error input j = Some (Valid t)
    /\ last_valid (firstn j input) = Some t0
    /\ ~ (t - t0 < threshold)%Q.

Definition is_valid_item (i : item) : Prop := exists t, i = Valid t.
Definition all_valid (input : list item) : Prop := Forall is_valid_item input.

(** Strictly increasing lists of numbers. *)
Definition increasing (l : list nat) : Prop := StronglySorted lt l.

(** Numbers of the surfaces in a list. *)
Definition numbers (l : list surface) : list nat := map s_counter l.

(** Bursts (record indices) in the stack of a surface. *)
Definition bursts_of (s : surface) : list nat := map e_uid (s_stack s).

Definition no_cancel : nat -> bool := fun _ => false.

Definition prefix {A} (l l' : list A) : Prop := exists r, l' = l ++ r.

(** Surfaces known at the end of a run: decided ones and queued ones. *)
Definition known_surfaces (s : st) : list surface :=
  map fst (w_done (s_out s)) ++ q_surfs (s_q s).

(** An oracle in which no numerical or writing step fails. *)
Definition no_failures (o : oracle) : Prop :=
  (forall n, o_az_fail o n = false) /\ (forall n, o_corr_fail o n = false)
  /\ (forall n, o_w1_fail o n = false) /\ (forall n, o_w2_fail o n = false).
