(** Vocabulary for C35-C37, independent of the model's write loop. *)
From Coq Require Import String List ZArith QArith Bool Arith.
From Verif Require Import Common WriterModel.
Import ListNotations.
Open Scope nat_scope.

(** A record (keyword arguments: distinct names) that can be written: every
    name is a variable and every supplied value fits its variable. *)
Definition writable {A} (vars : string -> option vdesc) (castable : string -> value A -> bool)
    (r : wrecord A) : bool :=
  forallb (fun p => match vars (fst p) with
                    | None => false
                    | Some d => match snd p with
                                | None => true
                                | Some v => accepts A d v && castable (fst p) v
                                end
                    end) r.

Definition is_dict {A} (r : wrecord A) : Prop := NoDup (map fst r).

(** The record supplies element [e] for position [(a,b)] of variable [x]. *)
Definition supplies {A} (r : wrecord A) (x : string) (a b : nat) (e : A) : Prop :=
  exists v, In (x, Some v) r /\ elem A v a b = Some e.
Definition silent {A} (r : wrecord A) (x : string) (a b : nat) : Prop :=
  forall e, ~ supplies r x a b e.

(** A calendar: [T d] is the instant (TAI) at which UTC day [d] begins, so day
    [d] has length [T (d+1) - T d] (86399, 86400 or 86401 s).  The pair
    [(d, s)] denotes instant [t] when [s] seconds of day [d] have elapsed. *)
Open Scope Q_scope.
Definition denotes (T : Z -> Q) (d : Z) (s t : Q) : Prop :=
  t == T d + s /\ 0 <= s /\ s < T (d + 1)%Z - T d.
Close Scope Q_scope.
