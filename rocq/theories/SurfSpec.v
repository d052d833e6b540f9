(** What the surface location theorems are about. *)
From Coq Require Import Reals List Bool.
From Verif Require Import Common GeoModel GeoSpec SurfModel.
Import ListNotations.
Open Scope R_scope.

(** the mean of [p] and [c] with weight [a] on [c] *)
Definition mean (a p c x : R) : Prop := x = (1 - a) * p + a * c.
Definition vmean (a : R) (p c x : vec) : Prop :=
  mean a (vx p) (vx c) (vx x) /\ mean a (vy p) (vy c) (vy x) /\ mean a (vz p) (vz c) (vz x).
(** all interpolated values of a surface with one weight *)
Definition weighted (a : R) (p c : burst) (l : loc) : Prop :=
  mean a (b_time p) (b_time c) (l_time l) /\
  vmean a (b_surf p) (b_surf c) (l_surf l) /\ vmean a (b_sat p) (b_sat c) (l_sat l) /\
  vmean a (b_vel p) (b_vel c) (l_vel l) /\ mean a (b_rate p) (b_rate c) (l_rate l) /\
  mean a (b_roll p) (b_roll c) (l_roll l) /\ mean a (b_pitch p) (b_pitch c) (l_pitch l) /\
  mean a (b_yaw p) (b_yaw c) (l_yaw l).
(** between, in either order *)
Definition inside (p c x : R) : Prop := Rmin p c <= x <= Rmax p c.

(** The burst has not reached the surface's angular resolution. *)
Definition within (s : surface) (b : burst) : Prop :=
  exists a r, angle_to s b = Some a /\ s_res s = Some r /\ a < r.
(** The last burst is within the resolution of the last surface (if that one
    has a position). *)
Definition ready (t : st) : Prop :=
  forall s p l, last1 (t_surfs t) = Some s -> s_loc s = Some l -> last1 (t_bursts t) = Some p -> within s p.

(** The times of the surfaces created in a history, in order of creation
    (surfaces without position left out). *)
Fixpoint times (g : settings) (fuel : nat) (os : list op) (t : st) : list R :=
  match os with
  | [] => []
  | o :: r =>
      let t' := run_op g fuel o t in
      (if Nat.eqb (t_next t') (t_next t) then []
       else match last1 (t_surfs t') with
            | Some s => match s_loc s with Some l => [l_time l] | None => [] end
            | None => []
            end) ++ times g fuel r t'
  end.
(** The bursts of a history. *)
Fixpoint bursts_of (os : list op) : list burst :=
  match os with
  | [] => []
  | Burst _ b :: r => b :: bursts_of r
  | _ :: r => bursts_of r
  end.
(** Bursts are not sparser than the surfaces: every burst that creates a
    surface is within the resolution of that surface.  A new surface is only
    forced with an empty queue, and removing bursts leaves the last one (as in
    the processor). *)
Fixpoint dense (g : settings) (fuel : nat) (os : list op) (t : st) : Prop :=
  match os with
  | [] => True
  | o :: r =>
      let t' := run_op g fuel o t in
      match o with
      | Burst force _ => (force = true -> t_surfs t = []) /\ (t_next t' <> t_next t -> ready t')
      | DropSurface => True
      | DropBursts n => (n < length (t_bursts t))%nat
      end /\ dense g fuel r t'
  end.

(** A queued surface was changed by an operation. *)
Definition changed (t t' : st) (u : nat) : Prop :=
  exists s s', In s (t_surfs t) /\ In s' (t_surfs t') /\ s_uid s = u /\ s_uid s' = u /\ s <> s'.
(** the points of the line through [p] and [q] *)
Definition on_line (p q : vec) (k : R) : vec := vadd p (vscale k (vsub q p)).
