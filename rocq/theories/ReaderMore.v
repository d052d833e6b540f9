(** C33: the limits, whichever of the four are set. *)
From Coq Require Import List ZArith QArith Bool Lia Arith.
From Verif Require Import Common ReaderModel ReaderSpec ReaderProofs ReaderProps.
Import ListNotations.

(** A record delivered keeps every limit that is set. *)
Theorem C33_limits : forall g file d i, open_dataset g file = Ok d -> In i (somes (iterate d)) ->
  exists p, nth_error file i = Some p /\ usable p /\
    (forall m, min_lat g = Some m -> (m <= fst p)%Q) /\ (forall m, max_lat g = Some m -> (fst p <= m)%Q) /\
    (forall m, min_lon g = Some m -> (m <= snd p)%Q) /\ (forall m, max_lon g = Some m -> (snd p <= m)%Q).
Proof.
  intros g file d i O I. destruct (roi_enabled g) eqn:R.
  - destruct (C33_all_but_last_partial g file d R O) as (_ & A). apply A in I. destruct I as ((p & P & (L1 & L2) & (L3 & L4)) & (p' & P' & U) & _).
    assert (p' = p) by congruence. subst p'. exists p. split; [exact P|]. split; [exact U|].
    repeat split; intros m M; [rewrite M in L1|rewrite M in L2|rewrite M in L3|rewrite M in L4]; assumption.
  - pose proof R as R'. unfold roi_enabled in R'. rewrite !orb_false_iff in R'. destruct R' as (((N1 & N2) & N3) & N4).
    unfold open_dataset in O. rewrite R in O. inversion O; subst d; clear O. unfold iterate in I. cbn [d_start d_final] in I. rewrite Nat.sub_0_r in I.
    unfold item_at, check_roi in I. cbn [d_filter d_pos andb] in I.
    rewrite (somes_map_seq (fun i => is_valid (nth i file (0%Q, 0%Q)))) in I.
    apply filter_In in I. destruct I as (I & V). apply in_seq in I. apply is_valid_spec in V.
    exists (nth i file (0%Q, 0%Q)). split; [apply nth_error_nth'; lia|]. split; [exact V|].
    repeat split; intros m M; rewrite M in *; discriminate.
Qed.
Print Assumptions C33_limits.

(** With any limit set, a file without a record that keeps the limits cannot be opened. *)
Theorem C33_any_limit : forall g file, min_lat g <> None \/ max_lat g <> None \/ min_lon g <> None \/ max_lon g <> None ->
  (forall i, ~ rec_inside g file i) -> open_dataset g file = Err EEmptyRegion.
Proof.
  intros g file A H. apply C33_empty_region_partial; [|exact H]. unfold roi_enabled, is_some.
  destruct (min_lat g), (max_lat g), (min_lon g), (max_lon g); try reflexivity. destruct A as [A|[A|[A|A]]]; congruence.
Qed.
Print Assumptions C33_any_limit.

Example C33_limit_example : let g := {| min_lat := None; max_lat := None; min_lon := None; max_lon := Some 3%Q |} in
  (exists d, open_dataset g [(5, 1); (11, 4); (15, 3); (25, 1)]%Q = Ok d /\ somes (iterate d) = [0; 2]%nat) /\
  open_dataset g [(5, 4)]%Q = Err EEmptyRegion.
Proof. cbv zeta. split; [eexists; split; reflexivity|reflexivity]. Qed.
