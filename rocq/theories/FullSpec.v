(** Vocabulary for the completeness of stacks: what a regular pass looks like. *)
From Coq Require Import List ZArith QArith Bool.
From Verif Require Import ChainModel ChainSpec.
Import ListNotations.
Local Open Scope nat_scope.

(** Every surface is seen from one stretch of the track, the stretches advance
    with the surfaces and overlap, a burst that locates a surface sees it, and no
    burst sees more surfaces than it has pulses. *)
Record regular (cf : cfg) (o : oracle) (lo hi : nat -> nat) : Prop := mk_regular {
  r_vis : forall s p, o_vis o s p = true <-> lo s <= p <= hi s;
  r_lo : forall s, lo s <= lo (S s);
  r_hi : forall s, hi s < hi (S s);
  r_join : forall s, lo (S s) <= hi s;
  r_first : o_vis o 0 0 = true;
  r_loc : forall s p, o_new o s p = true -> o_vis o (S s) p = true;
  r_cap : forall p s s', o_vis o s p = true -> o_vis o s' p = true -> s' < s + c_N cf }.

Definition gapless (cf : cfg) (input : list item) : Prop := forall j, ~ gap_at (c_gap cf) input j.

(** The bursts of a file that see a surface. *)
Definition seeing (o : oracle) (input : list item) (s : surface) : list nat :=
  filter (o_vis o (s_uid s)) (seq 0 (length input)).
