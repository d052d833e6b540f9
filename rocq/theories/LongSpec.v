(** A recording and a longer one that begins with it. *)
From Coq Require Import List Bool.
From Verif Require Import ChainModel ChainSpec WholeModel.
Import ListNotations.
Local Open Scope nat_scope.

(** The same answers for the first [n] records. *)
Definition same_before (n : nat) (o o' : oracle) : Prop :=
  (forall p, p < n -> (forall s, o_new o' s p = o_new o s p) /\ (forall s, o_vis o' s p = o_vis o s p) /\ o_az_fail o' p = o_az_fail o p) /\
  (forall s, o_corr_fail o' s = o_corr_fail o s) /\ (forall s, o_w1_fail o' s = o_w1_fail o s) /\
  (forall s, o_w2_fail o' s = o_w2_fail o s).
(** How many surfaces are decided before the last one is located, if [min] must
    be known before the first is processed. *)
Definition settled (min : nat) (s : st) : nat := length (known_surfaces s) - (min - 1).
(** Those numbered below [m]. *)
Definition first_surfaces (m : nat) (l : list surface) : list surface := filter (fun s => Nat.ltb (s_counter s) m) l.
Definition first_products (m : nat) (l : list product) : list product := filter (fun p => Nat.ltb (pr_number p) m) l.
