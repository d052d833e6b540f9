(** Passes with records without a position. *)
From Coq Require Import List Bool.
From Verif Require Import ChainModel ChainSpec HeldSpec.
Import ListNotations.
Local Open Scope nat_scope.

(** The number of valid records before record [x]; of all. *)
Definition rank (input : list item) (x : nat) : nat := length (valid_numbers input x).
Definition valid_count (input : list item) : nat := rank input (length input).

(** The number of records without a position. *)
Definition is_nothing (i : item) : bool := match i with Nothing => true | _ => false end.
Definition holes (input : list item) : nat := length (filter is_nothing input).

(** The valid records of [input] see and locate surfaces under [o] as if they
    were records 0, 1, 2, ... under [o']. *)
Definition counted_as (input : list item) (o o' : oracle) : Prop :=
  (forall s p, valid_record input p = true -> o_vis o s p = o_vis o' s (rank input p)) /\
  (forall s p, valid_record input p = true -> o_new o s p = o_new o' s (rank input p)).

(** The valid records that see a surface. *)
Definition seeing_valid (o : oracle) (input : list item) (s : surface) : list nat :=
  filter (o_vis o (s_uid s)) (valid_numbers input (length input)).
