(** C128: the times of the records decide nothing but where the gaps are. *)
From Coq Require Import List ZArith QArith Qreals Reals Bool Lia Lra.
From Verif Require Import Common Cplx GeoModel BeamModel ChainModel WholeModel WholeSpec WholeProps ClockSpec ClockChain ClockSim.
From Verif Require SurfModel LinProps RotSpec.
Import ListNotations.
Local Open Scope nat_scope.

(** Whatever the times are: if the same records follow the one before without a
    gap, then the run ends in the same way, with the same surfaces at the same
    places, the same stacks and the same looks. *)
Theorem C128_times : forall u cancel input input',
  Forall2 (retimed_item (fun _ _ => True)) input input' ->
  joined (c_gap (u_cf u)) None (map erase input') = joined (c_gap (u_cf u)) None (map erase input) ->
  same_results (fun _ _ => True) (whole u cancel input) (whole u cancel input').
Proof. intros u cancel input input' F J. apply whole_retimed; try assumption. intros. exact I. Qed.
Print Assumptions C128_times.

(** With a clock that runs faster or slower, and starts elsewhere, the times of the
    surfaces are those of that clock. *)
Theorem C128_clock : forall (rate start : R) u cancel input input',
  Forall2 (retimed_item (fun x x' => x' = rate * x + start)%R) input input' ->
  joined (c_gap (u_cf u)) None (map erase input') = joined (c_gap (u_cf u)) None (map erase input) ->
  same_results (fun x x' => x' = rate * x + start)%R (whole u cancel input) (whole u cancel input').
Proof.
  intros rate start u cancel input input' F J. apply whole_retimed; try assumption.
  intros a x x' y y' -> ->. unfold SurfModel.mix. ring.
Qed.
Print Assumptions C128_clock.

(** Later or earlier by the same time: always. *)
Theorem C128_shift : forall (d : Q) u cancel input input',
  Forall2 (retimed_item (fun _ _ => True)) input input' ->
  Forall2 (fun i i' => match i, i' with WValid r, WValid r' => (w_time r' == w_time r + d)%Q | _, _ => True end) input input' ->
  same_results (fun x x' => x' = x + Q2R d)%R (whole u cancel input) (whole u cancel input').
Proof.
  intros d u cancel input input' F D.
  assert (F' : Forall2 (retimed_item (fun x x' => x' = x + Q2R d)%R) input input').
  { revert D. induction F as [|i i' l l' H F IH]; intros D; [constructor|]. inversion D as [|? ? ? ? E D']; subst. constructor; [|apply IH; exact D'].
    destruct i as [r| |], i' as [r'| |]; try contradiction; cbn in *; try exact I. split; [|exact (proj2 H)].
    rewrite <- Q2R_plus. apply Qeq_eqR. exact E. }
  apply whole_retimed; [|exact F'|].
  - intros a x x' y y' -> ->. unfold SurfModel.mix. ring.
  - apply (joined_shift _ d); [|exact I]. clear F'. revert D. induction F as [|i i' l l' H F IH]; intros D; cbn [map]; [constructor|].
    inversion D as [|? ? ? ? E D']; subst. constructor; [|apply IH; exact D'].
    destruct i as [r| |], i' as [r'| |]; cbn in *; try contradiction; try exact I. exact E.
Qed.
Print Assumptions C128_shift.

(** The gaps do decide: a record that follows the one before after the gap is the
    first one of a new part of the pass (processor.py 200-215), so the condition
    of [C128_times] cannot be left out.  Stated for the loop: the same records
    with the same geometry, once without a gap (the second surface is found only
    from the third record on), once with one. *)
Definition g_cf : cfg := mk_cfg 2 2 3 1 false false.
Definition g_o : oracle := mk_oracle (fun _ p => Nat.eqb p 2) (fun _ _ => true) (fun _ => false) (fun _ => false) (fun _ => false) (fun _ => false).
Theorem C128_gaps_decide : exists items items',
  Forall2 same_item items items' /\ joined (c_gap g_cf) None items' <> joined (c_gap g_cf) None items /\
  written (run g_cf g_o (fun _ => false) items) <> written (run g_cf g_o (fun _ => false) items').
Proof.
  exists [Valid 0; Valid (1 # 2); Valid 1], [Valid 0; Valid 5; Valid (11 # 2)].
  split; [repeat constructor|]. split; vm_compute; discriminate.
Qed.
Print Assumptions C128_gaps_decide.

(** Non-vacuity: the record of C122, a day later. *)
Definition e_later : rec := mk_rec 86400 (w_geo e_rec) (w_echo e_rec).
Example C128_example : exists w w' p p' rows,
  whole e_u (fun _ => false) [WValid e_rec] = WEnd w false /\ whole e_u (fun _ => false) [WValid e_later] = WEnd w' false /\
  x_out w = [p] /\ x_out w' = [p'] /\ retimed_product (fun x x' => x' = x + Q2R 86400)%R p p' /\ pr_looks p = Some rows /\ pr_looks p' = Some rows.
Proof.
  assert (H : same_results (fun x x' => x' = x + Q2R 86400)%R (whole e_u (fun _ => false) [WValid e_rec]) (whole e_u (fun _ => false) [WValid e_later])).
  { apply C128_shift; (constructor; [|constructor]); cbn; [repeat split|]. reflexivity. }
  destruct e_run as (w & p & W & O & _ & S & B & _ & rows & L). rewrite W in H |- *. unfold same_results in H.
  destruct (whole e_u (fun _ => false) [WValid e_later]) as [w' c|e w'|w']; try contradiction. destruct H as (-> & Q).
  rewrite O in Q. inversion Q as [|? p' ? ? Q1 Q3 EQ1 EQ2]; subst. inversion Q3; subst.
  exists w, w', p, p', rows. repeat (split; [reflexivity||assumption||(symmetry; assumption)|]).
  destruct Q1 as (_ & _ & _ & _ & Q2). congruence.
Qed.
