(** C19: what weighting does to a burst. *)
From Coq Require Import List ZArith Lia Reals Lra Bool.
From Verif Require Import Common WindowModel WindowSpec WindowProofs.
Import ListNotations.

(** Both parts of every sample of pulse i are multiplied by weight i; weights and pulses are as many. *)
Theorem C19_weighted : forall (w : list weight) (wfm : list (list (R * R))) out, windowed mul_weight w wfm = Ok out ->
  length w = length wfm /\ length out = length wfm /\
  forall i row, nth_error wfm i = Some row -> exists row', nth_error out i = Some row' /\ length row' = length row /\
    (forall x k a b, nth_error w i = Some (Num x) -> nth_error row k = Some (a, b) -> nth_error row' k = Some (Some (a * x, b * x)%R)) /\
    (forall k, nth_error w i = Some NaN -> k < length row -> nth_error row' k = Some None).
Proof.
  induction w as [|y w IH]; intros [|r wfm] out H; cbn [windowed] in H; try discriminate.
  - inversion H. repeat split. intros [|i] row N; discriminate.
  - destruct (windowed mul_weight w wfm) as [t|] eqn:E; cbn [bind] in H; [|discriminate]. inversion H; subst out; clear H.
    destruct (IH wfm t E) as (L1 & L2 & A). split; [cbn; lia|]. split; [cbn; lia|].
    intros [|i] row N; cbn [nth_error] in *; [|exact (A i row N)]. inversion N; subst r; clear N.
    exists (map (mul_weight y) row). split; [reflexivity|]. split; [apply map_length|]. split.
    + intros x k a b X K. inversion X; subst y. rewrite nth_error_map, K. reflexivity.
    + intros k X K. inversion X; subst y. rewrite nth_error_map. destruct (nth_error row k) eqn:NE; [reflexivity|].
      apply nth_error_None in NE. lia.
Qed.
Print Assumptions C19_weighted.
Example C19_weighted_example : exists out, windowed mul_weight [Num 2; NaN] [[(1, 3)]; [(1, 1); (0, 1)]]%R = Ok out /\
  nth_error out 0 = Some [Some (1 * 2, 3 * 2)%R] /\ nth_error out 1 = Some [None; None].
Proof. eexists. repeat split. Qed.
