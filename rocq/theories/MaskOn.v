(** C26: the masked beams. *)
From Coq Require Import List ZArith QArith Lia.
From Verif Require Import Common MaskModel MaskSpec MaskProofs MaskProps.
Import ListNotations.
Local Open Scope Z_scope.

(** With masking on, a sample of a beam is kept where its mask is one and is zero
    where it is zero. *)
Theorem C26_masking_on : forall beams masks i beam row v j x m,
  nth_error beams i = Some beam -> nth_error masks i = Some (row, v) ->
  nth_error beam j = Some x -> nth_error row j = Some m -> (m = 0 \/ m = 1) ->
  exists out y, nth_error (beams_masked true beams masks) i = Some out /\ nth_error out j = Some y /\
    (m = 1 -> (y == x)%Q) /\ (m = 0 -> (y == 0)%Q).
Proof.
  intros beams masks i beam row v j x m B M X R HM. unfold beams_masked.
  assert (C : nth_error (combine beams masks) i = Some (beam, (row, v))).
  { clear - B M. revert masks i B M. induction beams as [|b beams IH]; intros [|k masks] [|i] B M; cbn in *; try discriminate; [congruence|]. apply IH; assumption. }
  exists (mask_row beam row). destruct (C26_apply beam row j x m X R HM) as (y & Y & Y1 & Y0). exists y.
  split; [|auto]. rewrite (map_nth_error _ _ _ C). reflexivity.
Qed.
Print Assumptions C26_masking_on.
Example C26_masking_on_example : beams_masked true [[3; 5]%Q] [([1; 0], Some 1)] = [[3 * inject_Z 1; 5 * inject_Z 0]%Q].
Proof. reflexivity. Qed.
