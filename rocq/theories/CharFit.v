(** C95 continued: the points that enter the fit. *)
From Coq Require Import Reals List Bool.
From Verif Require Import Common CharModel.
Import ListNotations.
Open Scope R_scope.

Definition finite (p : R * option R) : bool := match snd p with Some _ => true | None => false end.

(** The curve is fitted to the points whose power is finite, each with its own
    angle, in order. *)
Theorem C95_points : forall curve_fit xs ys,
  exists pts, map (fun p => (fst p, Some (snd p))) pts = filter finite (combine xs ys) /\
  gauss_fit curve_fit xs ys =
    match curve_fit (map fst pts) (map snd pts) with
    | Fitted a b c => Ok (a, b, c)
    | Caught => Ok (1, 1, 1)
    | Raised => Err ERaise
    end.
Proof.
  intros curve_fit xs ys.
  assert (V : exists pts, map (fun p => (fst p, Some (snd p))) pts = filter finite (combine xs ys) /\
                          valid xs ys = (map fst pts, map snd pts)).
  { revert ys. induction xs as [|x xs IH]; intros ys; [exists []; split; reflexivity|].
    destruct ys as [|[y|] ys]; [exists []; split; reflexivity| |]; destruct (IH ys) as (pts & A & B).
    - exists ((x, y) :: pts). cbn. rewrite A, B. split; reflexivity.
    - exists pts. cbn. rewrite A, B. split; reflexivity. }
  destruct V as (pts & A & B). exists pts. split; [exact A|]. unfold gauss_fit. rewrite B. reflexivity.
Qed.
Print Assumptions C95_points.

Example C95_points_example : exists pts,
  map (fun p => (fst p, Some (snd p))) pts = filter finite (combine [1; 2; 3] [Some 5; None; Some 7]) /\
  pts = [(1, 5); (3, 7)].
Proof. exists [(1, 5); (3, 7)]. split; reflexivity. Qed.
