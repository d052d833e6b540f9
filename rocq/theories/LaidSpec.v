(** A recording processed surface by surface, without the loop: which surfaces
    there are and which records see them. *)
From Coq Require Import List Bool Arith.
From Verif Require Import Common GeoModel ChainModel ChainSpec FullSpec HoleSpec ManySpec WholeModel WholeSpec.
From Verif Require SurfModel.
Import ListNotations.
Local Open Scope nat_scope.

(** The bursts of the records that have a position. *)
Definition bursts_in (u : setup) (input : list witem) : list SurfModel.burst :=
  flat_map (fun i => match i with WValid r => [prepared u r] | _ => [] end) input.

(** The surfaces that follow surface [x], when burst [prev], number [r] - 1, was
    the last one looked at: each with the number of the burst that completes it. *)
Fixpoint lay (g : SurfModel.settings) (x : SurfModel.surface) (prev : SurfModel.burst) (n r : nat)
    (bs : list SurfModel.burst) : list (nat * SurfModel.surface) :=
  match bs with
  | [] => []
  | b :: bs =>
      match SurfModel.find_new_location (SurfModel.g_k g) x prev b with
      | None => lay g x b n (S r) bs
      | Some l => let y := SurfModel.new_surface g n l in (r, y) :: lay g y b (S n) (S r) bs
      end
  end.
(** All: the first one is below the first burst. *)
Definition lay_all (u : setup) (bs : list SurfModel.burst) : list (nat * SurfModel.surface) :=
  match bs with
  | [] => []
  | b :: bs =>
      match SurfModel.first_location (SurfModel.g_k (u_g u)) (u_fuel u) SurfModel.loc0 b with
      | Some l => let x := SurfModel.new_surface (u_g u) 0 (Some l) in (0, x) :: lay (u_g u) x b 1 1 bs
      | None => []
      end
  end.
Definition laid (u : setup) (input : list witem) : list (nat * SurfModel.surface) := lay_all u (bursts_in u input).

(** Does record [p] see surface [s]? *)
Definition in_sight (u : setup) (input : list witem) (s p : nat) : bool :=
  match nth_error (laid u input) s, nth_error input p with
  | Some (_, x), Some (WValid r) => sees u (prepared u r) x
  | _, _ => false
  end.
(** The records that see surface [s], and not, of the first [located] surfaces,
    the one [N] further, [N] the number of pulses of a burst. *)
Definition records_for (u : setup) (input : list witem) (located s : nat) : list nat :=
  filter (fun p => in_sight u input s p && negb ((s + c_N (u_cf u) <? located) && in_sight u input (s + c_N (u_cf u)) p))
    (seq 0 (length input)).

(** The pass of a recording as an oracle: bursts complete surfaces as laid, and
    see as in [vis], which says for the bursts and surfaces there are what the
    geometry says. *)
Definition pass_oracle (u : setup) (input : list witem) (vis : nat -> nat -> bool) : oracle :=
  mk_oracle (fun s p => match nth_error (laid u input) (S s) with Some (r, _) => Nat.eqb r p | None => false end)
            vis (fun _ => false) (fun _ => false) (fun _ => false) (fun _ => false).
Definition seen_as (u : setup) (input : list witem) (vis : nat -> nat -> bool) : Prop :=
  forall s p r x b, nth_error (laid u input) s = Some (r, x) -> nth_error (bursts_in u input) p = Some b ->
    vis s p = sees u b x.

(** A recording that starts with a position and has no gap in time, whose
    surfaces come into and go out of sight one after the other. *)
Record steady (u : setup) (input : list witem) : Prop := mk_steady {
  d_focus : SurfModel.g_focus (u_g u) = false;
  d_fuel : fuel_enough u input;
  d_start : forall i l, input = i :: l -> i <> WNothing;
  d_gap : gapless (u_cf u) (map erase input);
  d_sight : exists vis lo hi M, seen_as u input vis /\ sighted (c_N (u_cf u)) M (pass_oracle u input vis) lo hi /\
    M + 2 + holes (map erase input) <= c_min (u_cf u) }.

(** The records of the stack of a product. *)
Definition records_in (p : product) : list nat := map (fun e => fst (fst e)) (pr_stack p).
