(** A recording with a gap, and the two recordings before and after it. *)
From Coq Require Import List ZArith Bool.
From Verif Require Import ChainModel ChainSpec.
Import ListNotations.
Local Open Scope nat_scope.

(** The answers for the records from [n] on and the surfaces from [m] on. *)
Definition later_oracle (n m : nat) (o : oracle) : oracle :=
  mk_oracle (fun s p => o_new o (m + s) (n + p)) (fun s p => o_vis o (m + s) (n + p)) (fun p => o_az_fail o (n + p))
    (fun s => o_corr_fail o (m + s)) (fun s => o_w1_fail o (m + s)) (fun s => o_w2_fail o (m + s)).
(** The same surface with the same looks, when [n] records and [m] surfaces come before. *)
Definition later_entry (n : nat) (e e' : entry) : Prop :=
  e_uid e' = n + e_uid e /\ e_counter e' = n + e_counter e /\ e_beam e' = e_beam e.
Definition later_surface (n m : nat) (s s' : surface) : Prop :=
  s_uid s' = m + s_uid s /\ s_counter s' = m + s_counter s /\ s_loc s' = n + s_loc s /\
  Forall2 (later_entry n) (s_stack s) (s_stack s').
Definition later_decision (n m : nat) (x x' : surface * bool) : Prop :=
  later_surface n m (fst x) (fst x') /\ snd x' = snd x.
(** The first list followed by the second. *)
Definition followed {A} (R : A -> A -> Prop) (l1 l2 l : list A) : Prop := exists t, l = l1 ++ t /\ Forall2 R l2 t.
(** The products of a first recording followed by those of a second one. *)
Definition joined (n m : nat) (w1 w2 w : out) : Prop :=
  followed (later_decision n m) (w_done w1) (w_done w2) (w_done w) /\
  followed (later_surface n m) (w_l1b w1) (w_l1b w2) (w_l1b w) /\
  followed (later_surface n m) (w_l1bs w1) (w_l1bs w2) (w_l1bs w).
(** The same end. *)
Definition ends_alike (r r' : outcome) : Prop :=
  match r, r' with
  | OEnd _ c, OEnd _ c' => c = c'
  | ORaise e _, ORaise e' _ => e = e'
  | _, _ => False
  end.
(** No burst waits for azimuth processing. *)
Definition all_processed (s : st) : Prop := forall p, In p (q_packs (s_q s)) -> p_done p = true.
