(** What a run holds in memory. *)
From Coq Require Import List Bool.
From Verif Require Import ChainModel ChainSpec.
Import ListNotations.
Local Open Scope nat_scope.

(** The state after some iterations, or at the end if it comes before. *)
Definition after (cf : cfg) (o : oracle) (cancel : nat -> bool) (input : list item) (iterations : nat) : st :=
  final (loop cf o 0 cancel iterations 0 (init [] [] 0 input)).
(** The surfaces and the numbers of the bursts held. *)
Definition surfaces_held (s : st) : nat := length (q_surfs (s_q s)).
Definition bursts_held (s : st) : list nat := map p_uid (q_packs (s_q s)).
(** The records dealt with: those read, except one that waits behind a gap. *)
Definition dealt (s : st) : nat := if i_gap (s_in s) || i_resume (s_in s) then i_n (s_in s) - 1 else i_n (s_in s).
(** The numbers of the first [k] records that are valid. *)
Definition valid_record (input : list item) (k : nat) : bool := match nth_error input k with Some (Valid _) => true | _ => false end.
Definition valid_numbers (input : list item) (k : nat) : list nat := filter (valid_record input) (seq 0 k).
(** Surfaces are located every [d] records. *)
Definition located_every (d : nat) (s : st) : Prop :=
  (forall x r, known_surfaces s = x :: r -> s_loc x <= d) /\
  (forall l a b r, known_surfaces s = l ++ a :: b :: r -> s_loc b <= s_loc a + d) /\
  (forall l a, known_surfaces s = l ++ [a] -> dealt s <= s_loc a + d) /\ (known_surfaces s = [] -> dealt s <= d).
