(** Passes on which a burst may see more surfaces than it has pulses. *)
From Coq Require Import List Bool Arith.
From Verif Require Import ChainModel ChainSpec HeldSpec.
Import ListNotations.
Local Open Scope nat_scope.

(** Every surface is seen from one stretch of the track, the stretches advance
    with the surfaces and overlap, a burst that locates a surface sees it; no
    burst sees more than [M] surfaces, and the first burst that sees a surface
    does not see the one [N] further. *)
Record sighted (N M : nat) (o : oracle) (lo hi : nat -> nat) : Prop := mk_sighted {
  g_vis : forall s p, o_vis o s p = true <-> lo s <= p <= hi s;
  g_lo : forall s, lo s <= lo (S s);
  g_hi : forall s, hi s < hi (S s);
  g_join : forall s, lo (S s) <= hi s;
  g_first : o_vis o 0 0 = true;
  g_loc : forall s p, o_new o s p = true -> o_vis o (S s) p = true;
  g_cap : forall p s s', o_vis o s p = true -> o_vis o s' p = true -> s' < s + M;
  g_step : forall s, lo s < lo (s + N) }.

(** The valid bursts that see a surface and not, of the [located] surfaces, the
    one [N] further. *)
Definition kept_by (N located : nat) (o : oracle) (input : list item) (s : surface) : list nat :=
  filter (fun p => o_vis o (s_uid s) p && negb ((s_uid s + N <? located) && o_vis o (s_uid s + N) p))
    (valid_numbers input (length input)).
