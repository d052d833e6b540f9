(** C147: the region tests of the two classes of data sets. *)
From Coq Require Import List QArith Reals Qreals Bool Lia Lra Arith.
From Verif Require Import Common GeoModel ReaderModel ReaderSpec ReaderProofs ReaderProps BaseModel.
Import ListNotations.

Lemma radians_lt : forall a b, (radians (Q2R a) < radians (Q2R b))%R <-> (a < b)%Q.
Proof.
  intros a b. unfold radians. pose proof PI_RGT_0 as P. split.
  - intros H. apply Rlt_Qlt. apply (Rmult_lt_reg_r (PI / 180)); [lra|]. lra.
  - intros H. apply Qlt_Rlt in H. apply (Rmult_lt_compat_r (PI / 180)) in H; lra.
Qed.
Lemma below_spec : forall q b, below (radians (Q2R q)) b = false <-> match b with Some m => (m <= q)%Q | None => True end.
Proof.
  intros q [m|]; cbn; [|tauto]. destruct (Rlt_dec _ _) as [L|L]; rewrite radians_lt in L.
  - split; [discriminate|]. intros H. apply Qle_not_lt in H. contradiction.
  - split; [|reflexivity]. intros _. apply Qnot_lt_le. exact L.
Qed.
Lemma above_spec : forall q b, above (radians (Q2R q)) b = false <-> match b with Some m => (q <= m)%Q | None => True end.
Proof.
  intros q [m|]; cbn; [|tauto]. destruct (Rlt_dec _ _) as [L|L]; rewrite radians_lt in L.
  - split; [discriminate|]. intros H. apply Qle_not_lt in H. contradiction.
  - split; [|reflexivity]. intros _. apply Qnot_lt_le. exact L.
Qed.

(** The test in radians on the packet is the test in degrees on the file. *)
Theorem C147_test : forall g p, in_range g p = true <->
  within (min_lat g) (max_lat g) (fst p) /\ within (min_lon g) (max_lon g) (snd p) /\ usable p.
Proof.
  intros g p. unfold in_range. cbv zeta. pose proof (below_spec (fst p) (min_lat g)) as B1. pose proof (above_spec (fst p) (max_lat g)) as B2.
  pose proof (below_spec (snd p) (min_lon g)) as B3. pose proof (above_spec (snd p) (max_lon g)) as B4. unfold within. rewrite <- is_valid_spec.
  destruct (below _ _), (above _ _), (below _ _), (above _ _); intuition (try discriminate; try congruence).
Qed.
Print Assumptions C147_test.
Lemma test_eq : forall g p, in_range g p = roi_pass g p && is_valid p.
Proof. intros g p. apply eq_true_iff_eq. rewrite C147_test, andb_true_iff, roi_pass_spec, is_valid_spec. tauto. Qed.

(** Iterating over the base class delivers the usable records inside the region, in
    file order and all of them, with nothing for each other record. *)
Theorem C147_all : forall g file,
  length (base_iterate g file) = length file /\ strictly_increasing (somes (base_iterate g file)) /\
  (forall i, (i < length file)%nat -> nth i (base_iterate g file) None = Some i \/ nth i (base_iterate g file) None = None) /\
  forall i, In i (somes (base_iterate g file)) <-> rec_inside g file i /\ rec_usable file i.
Proof.
  intros g file. unfold base_iterate. rewrite map_length, seq_length. split; [reflexivity|]. rewrite (somes_map_seq (fun i => in_range g (nth i file (0%Q, 0%Q)))).
  split; [apply filter_seq_increasing|]. split.
  - intros i L. set (f := fun i => if in_range g (nth i file (0%Q, 0%Q)) then Some i else None).
    rewrite (nth_indep _ None (f (length file))) by (rewrite map_length, seq_length; exact L). rewrite (map_nth f), seq_nth by exact L. cbn [Nat.add]. unfold f. destruct (in_range _ _); auto.
  - intros i. rewrite filter_In, in_seq, C147_test. split.
    + intros (L & W1 & W2 & U). assert (E : nth_error file i = Some (nth i file (0%Q, 0%Q))) by (apply nth_error_nth'; lia).
      split; [exists (nth i file (0%Q, 0%Q)); auto|exists (nth i file (0%Q, 0%Q)); auto].
    + intros ((p & E & I) & (p' & E' & U)). assert (p' = p) by congruence. subst p'. assert (L : (i < length file)%nat) by (apply nth_error_Some; congruence).
      rewrite (nth_error_nth _ _ _ E). split; [lia|]. destruct I as (I1 & I2). auto.
Qed.
Print Assumptions C147_all.

(** An L1A data set delivers the same records, except the last one inside the region;
    without a region it delivers exactly the same. *)
Theorem C147_versus : forall g file d, open_dataset g file = Ok d ->
  (roi_enabled g = true -> rec_inside g file (d_final d) /\ forall i, In i (somes (base_iterate g file)) <->
     In i (somes (iterate d)) \/ (i = d_final d /\ rec_usable file i)) /\
  (roi_enabled g = false -> base_iterate g file = iterate d).
Proof.
  intros g file d H. split; intros R.
  - assert (LAST : rec_inside g file (d_final d) /\ forall i, rec_inside g file i -> (i <= d_final d)%nat).
    { unfold open_dataset in H. rewrite R in H. pose proof (inside_argwhere g file) as HI.
      destruct (argwhere_from 0 (map (roi_pass g) file)) as [|i0 rest] eqn:EA; [discriminate|]. injection H as <-. cbn [d_final].
      destruct (list_max_spec rest i0) as [M1 M2]. split; [apply HI; exact M1|]. intros i I. apply M2, HI, I. }
    destruct LAST as (L1 & L2). split; [exact L1|]. intros i. destruct (C147_all g file) as (_ & _ & _ & A). destruct (C33_all_but_last_partial g file d R H) as (_ & B).
    rewrite A, B. split.
    + intros (I & U). destruct (Nat.eq_dec i (d_final d)) as [E|E]; [right; auto|]. left. split; [exact I|]. split; [exact U|]. exists (d_final d). split; [specialize (L2 i I); lia|exact L1].
    + intros [(I & U & _)|(-> & U)]; auto.
  - unfold open_dataset in H. rewrite R in H. injection H as <-. unfold base_iterate, iterate. cbn [d_start d_final]. rewrite Nat.sub_0_r. apply map_ext. intros i.
    unfold item_at, check_roi. cbn [d_filter d_pos andb]. rewrite test_eq.
    assert (P : roi_pass g (nth i file (0%Q, 0%Q)) = true); [|now rewrite P].
    destruct g as [[|] [|] [|] [|]]; try discriminate R. reflexivity.
Qed.
Print Assumptions C147_versus.

(** Where the L1A data set cannot be opened the base class delivers nothing. *)
Theorem C147_empty : forall g file, open_dataset g file = Err EEmptyRegion -> somes (base_iterate g file) = [].
Proof.
  intros g file H. destruct (somes (base_iterate g file)) as [|i l] eqn:E; [reflexivity|]. exfalso.
  destruct (C147_all g file) as (_ & _ & _ & A). assert (I : In i (somes (base_iterate g file))) by (rewrite E; now left). apply A in I as (I & _).
  unfold open_dataset in H. destruct (roi_enabled g); [|discriminate]. pose proof (inside_argwhere g file) as HI.
  destruct (argwhere_from 0 (map (roi_pass g) file)) as [|i0 rest] eqn:EA; [|discriminate]. apply HI in I. destruct I.
Qed.
Print Assumptions C147_empty.

(** Five records on a line; the region takes in the second, third and fourth. *)
Definition some_region : region := {| min_lat := Some 1%Q; max_lat := Some 3%Q; min_lon := None; max_lon := Some 7%Q |}.
Definition some_file : list pos := [(0, 5); (1, 5); (2, 9); (3, 7); (4, 5)]%Q.
Example C147_example : somes (base_iterate some_region some_file) = [1; 3]%nat /\
  (exists d, open_dataset some_region some_file = Ok d /\ somes (iterate d) = [1]%nat) /\
  in_range some_region (2, 8)%Q = false /\ in_range some_region (2, 7)%Q = true.
Proof.
  unfold base_iterate. rewrite (map_ext _ _ (fun i => f_equal (fun b : bool => if b then Some i else None) (test_eq some_region (nth i some_file (0%Q, 0%Q))))), !test_eq.
  split; [vm_compute; reflexivity|]. split; [eexists; split; vm_compute; reflexivity|]. split; vm_compute; reflexivity.
Qed.
(** A region without records, and no region at all. *)
Example C147_example_ends :
  open_dataset {| min_lat := Some 8%Q; max_lat := None; min_lon := None; max_lon := None |} some_file = Err EEmptyRegion /\
  let all := {| min_lat := None; max_lat := None; min_lon := None; max_lon := None |} in
  roi_enabled all = false /\ exists d, open_dataset all some_file = Ok d /\ somes (iterate d) = [0; 1; 2; 3; 4]%nat.
Proof. split; [vm_compute; reflexivity|]. split; [reflexivity|]. eexists. split; vm_compute; reflexivity. Qed.
