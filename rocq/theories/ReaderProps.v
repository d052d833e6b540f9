(** C31, C32, C33, C34, C75. *)
From Coq Require Import List ZArith QArith Bool Lia Arith ZifyBool.
From Verif Require Import Common ReaderModel ReaderSpec ReaderProofs.
Import ListNotations.

(** C31: in every history of reads on a new reader, in range or not, each read
    whose index is in range returns the value stored in the file. *)
Theorem C31_reads_return_data : forall (V A : Type) (data : V -> list A) size ops k v i,
  (0 < size)%Z -> nth_error ops k = Some (v, i) ->
  (0 <= i < Z.of_nat (length (data v)))%Z ->
  exists a, nth_error (data v) (Z.to_nat i) = Some a /\
    nth_error (fst (reads data size ops fresh)) k = Some (Ok a).
Proof.
  intros V A data size ops k v i Hs Hk Hi.
  rewrite (reads_nth V A data size ops fresh k v i Hk).
  destruct (get_in_range V A data size Hs v i (snd (reads data size (firstn k ops) fresh))) as (a & H1 & H2); auto.
  - apply reads_good; auto. apply good_fresh.
  - exists a. rewrite H2. auto.
Qed.
Print Assumptions C31_reads_return_data.
Example C31_ex : fst (reads (fun v : bool => if v then [1; 2; 3; 4; 5] else [6])%Z 2
    [(true, 4); (false, 0); (true, 5); (false, 3); (true, 1); (true, 2); (false, -1)]%Z fresh)
  = [Ok 5; Ok 6; Err EIndex; Err EIndex; Ok 2; Ok 3; Err EIndex]%Z.
Proof. reflexivity. Qed.

(** C32 is false: after a read of the first chunk, an index in a chunk wholly
    beyond the variable returns a value of the earlier chunk. *)
Theorem C32_stale_chunk_refuted : exists (data : unit -> list Z) size ops k v i a,
  (0 < size)%Z /\ nth_error ops k = Some (v, i) /\ (Z.of_nat (length (data v)) <= i)%Z /\
  nth_error (fst (reads data size ops fresh)) k = Some (Ok a).
Proof.
  exists (fun _ => [10; 11; 12; 13]%Z), 2%Z, [(tt, 0); (tt, 5)]%Z, 1%nat, tt, 5%Z, 11%Z.
  repeat split; try reflexivity; cbn; lia.
Qed.
Print Assumptions C32_stale_chunk_refuted.

(** C32 is false for negative indices below the start, even on a new reader. *)
Theorem C32_negative_refuted : exists (data : unit -> list Z) size v i a,
  (0 < size)%Z /\ (i < - Z.of_nat (length (data v)))%Z /\
  fst (get_value data size v i fresh) = Ok a.
Proof.
  exists (fun _ => [10; 11; 12]%Z), 2%Z, tt, (-4)%Z, 10%Z. repeat split; try reflexivity; cbn; lia.
Qed.
Print Assumptions C32_negative_refuted.

(** C32, partial: on a new reader the read fails. *)
Theorem C32_first_read_partial : forall (V A : Type) (data : V -> list A) size v i,
  (0 < size)%Z -> (Z.of_nat (length (data v)) <= i)%Z ->
  exists e, fst (get_value data size v i fresh) = Err e.
Proof.
  intros V A data size v i Hs Hi.
  destruct (Z.le_gt_cases (Z.of_nat (length (data v))) (i - i mod size)) as [H|H].
  - exists EKey. unfold get_value. cbn [chunk fresh fst]. unfold load_chunk. cbn [cache fresh].
    destruct (Z.leb_spec (Z.of_nat (length (data v))) (i - i mod size)); [auto|lia].
  - exists EIndex. apply get_past_end; auto; try lia. apply good_fresh.
Qed.
Print Assumptions C32_first_read_partial.

(** C32, partial: whatever was read before, the read fails when the chunk of the
    index still overlaps the variable (in particular for the indices just past
    the end of a variable whose length is not a multiple of the chunk size). *)
Theorem C32_overlapping_chunk_partial : forall (V A : Type) (data : V -> list A) size ops k v i,
  (0 < size)%Z -> nth_error ops k = Some (v, i) ->
  (Z.of_nat (length (data v)) <= i)%Z -> (i - i mod size < Z.of_nat (length (data v)))%Z ->
  nth_error (fst (reads data size ops fresh)) k = Some (Err EIndex).
Proof.
  intros V A data size ops k v i Hs Hk H1 H2. rewrite (reads_nth V A data size ops fresh k v i Hk).
  f_equal. apply get_past_end; auto; try lia. apply reads_good; auto. apply good_fresh.
Qed.
Print Assumptions C32_overlapping_chunk_partial.
Example C32_ex : (3 <= 3)%Z /\ (3 - 3 mod 2 < 3)%Z /\
  fst (reads (fun _ : unit => [1; 2; 3]%Z) 2 [(tt, 0); (tt, 3)]%Z fresh) = [Ok 1%Z; Err EIndex].
Proof. repeat split; cbn; lia. Qed.

(* ------------------------------------------------------------------ *)

(** [rec_inside g file i]: record i exists and lies in the region. *)
Definition rec_inside (g : region) (file : list pos) (i : nat) : Prop :=
  exists p, nth_error file i = Some p /\
    within (min_lat g) (max_lat g) (fst p) /\ within (min_lon g) (max_lon g) (snd p).
Definition rec_usable (file : list pos) (i : nat) : Prop :=
  exists p, nth_error file i = Some p /\ usable p.

Lemma inside_argwhere : forall g file i,
  In i (argwhere_from 0 (map (roi_pass g) file)) <-> rec_inside g file i.
Proof.
  intros g file i. rewrite argwhere_spec, Nat.sub_0_r, map_length. unfold rec_inside. split.
  - intros (_ & H & L). destruct (nth_error file i) as [p|] eqn:E.
    2:{ apply nth_error_None in E. lia. }
    exists p. split; auto. apply roi_pass_spec. rewrite nth_indep with (d' := roi_pass g p) in H
      by (rewrite map_length; auto).
    rewrite map_nth in H. rewrite (nth_error_nth file i p E) in H. auto.
  - intros (p & E & H). assert (L : (i < length file)%nat) by (apply nth_error_Some; congruence).
    repeat split; auto; try lia.
    rewrite nth_indep with (d' := roi_pass g p) by (rewrite map_length; auto).
    rewrite map_nth, (nth_error_nth file i p E). apply roi_pass_spec. auto.
Qed.

Lemma item_at_roi : forall g file s f l i, (i < length file)%nat ->
  item_at {| d_pos := file; d_filter := Some (map (roi_pass g) file); d_start := s; d_final := f; d_last := l |} i
  = if roi_pass g (nth i file (0%Q, 0%Q)) && is_valid (nth i file (0%Q, 0%Q)) then Some i else None.
Proof.
  intros. unfold item_at, check_roi. cbn [d_filter d_pos].
  rewrite nth_indep with (d' := roi_pass g (0%Q, 0%Q)) by (rewrite map_length; auto).
  rewrite map_nth. auto.
Qed.

(** C33, partial: with a region, the delivered records are, in file order,
    exactly the usable records inside the region other than the last record
    inside it; a region without any record makes opening the file fail. *)
Theorem C33_all_but_last_partial : forall g file d, roi_enabled g = true ->
  open_dataset g file = Ok d ->
  strictly_increasing (somes (iterate d)) /\
  forall i, In i (somes (iterate d)) <->
    rec_inside g file i /\ rec_usable file i /\ exists j, (i < j)%nat /\ rec_inside g file j.
Proof.
  intros g file d HR H. unfold open_dataset in H. rewrite HR in H.
  pose proof (inside_argwhere g file) as HI.
  destruct (argwhere_from 0 (map (roi_pass g) file)) as [|i0 rest] eqn:EA; [discriminate|].
  inversion H; subst d; clear H. unfold iterate. cbn [d_start d_final].
  destruct (list_min_spec rest i0) as [Hmin1 Hmin2]. destruct (list_max_spec rest i0) as [Hmax1 Hmax2].
  set (s := list_min i0 rest) in *. set (f := list_max i0 rest) in *.
  assert (HF : (f < length file)%nat).
  { apply HI in Hmax1. destruct Hmax1 as (p & E & _). apply nth_error_Some. congruence. }
  assert (HS : (s <= f)%nat) by auto.
  rewrite (map_ext_in _ (fun i => if roi_pass g (nth i file (0%Q, 0%Q)) && is_valid (nth i file (0%Q, 0%Q)) then Some i else None)).
  2:{ intros i Hi. apply in_seq in Hi. apply item_at_roi. lia. }
  rewrite (somes_map_seq (fun i => roi_pass g (nth i file (0%Q, 0%Q)) && is_valid (nth i file (0%Q, 0%Q)))).
  split. { apply filter_seq_increasing. }
  intros i. rewrite filter_In, in_seq, andb_true_iff, roi_pass_spec, is_valid_spec. split.
  - intros (Hi & H1 & H2). assert (L : (i < length file)%nat) by lia.
    assert (E : nth_error file i = Some (nth i file (0%Q, 0%Q))) by (apply nth_error_nth'; auto).
    split; [exists (nth i file (0%Q, 0%Q)); auto|]. split; [exists (nth i file (0%Q, 0%Q)); auto|].
    exists f. split; [lia|]. apply HI. auto.
  - intros ((p & E & H1) & (p' & E' & H2) & (j & Hj & Hin)).
    assert (p' = p) by congruence. subst p'.
    rewrite (nth_error_nth file i (0%Q, 0%Q) E). split; [|auto].
    assert (Hi : In i (i0 :: rest)) by (apply HI; exists p; auto).
    apply HI in Hin. specialize (Hmin2 i Hi). specialize (Hmax2 j Hin). lia.
Qed.
Print Assumptions C33_all_but_last_partial.

Theorem C33_empty_region_partial : forall g file, roi_enabled g = true ->
  ((forall i, ~ rec_inside g file i) <-> open_dataset g file = Err EEmptyRegion).
Proof.
  intros g file HR. unfold open_dataset. rewrite HR. pose proof (inside_argwhere g file) as HI.
  destruct (argwhere_from 0 (map (roi_pass g) file)) as [|i0 rest]; split; intro H; auto.
  - intros i Hi. apply HI in Hi. destruct Hi.
  - exfalso. apply (H i0). apply HI. left; auto.
  - discriminate.
Qed.
Print Assumptions C33_empty_region_partial.

(** C33 is false: the last record inside the region is not delivered. *)
Theorem C33_last_record_refuted : exists g file d i,
  roi_enabled g = true /\ open_dataset g file = Ok d /\
  rec_inside g file i /\ rec_usable file i /\ ~ In i (somes (iterate d)).
Proof.
  exists {| min_lat := Some 10%Q; max_lat := Some 20%Q; min_lon := None; max_lon := None |},
    [(5, 1); (10, 1); (15, 1); (20, 1); (25, 1)]%Q.
  eexists. exists 3%nat. split; [reflexivity|]. split; [reflexivity|]. split; [|split].
  - exists (20, 1)%Q. split; [reflexivity|]. cbn. unfold within. split; split; auto; unfold Qle; cbn; lia.
  - exists (20, 1)%Q. split; [reflexivity|]. unfold usable. cbn. unfold Qeq. cbn. lia.
  - vm_compute. intuition discriminate.
Qed.
Print Assumptions C33_last_record_refuted.
Example C33_ex : exists d,
  open_dataset {| min_lat := Some 10%Q; max_lat := Some 20%Q; min_lon := None; max_lon := Some 3%Q |}
    [(5, 1); (10, 1); (11, 4); (15, 3); (25, 1); (20, 1); (25, 1)]%Q = Ok d /\
  iterate d = [Some 1; None; Some 3; None]%nat /\ somes (iterate d) = [1; 3]%nat.
Proof. eexists. repeat split. Qed.

(** C34: reading with next() until exhaustion and iterating give the same
    sequence; its length is the reported length; next() then keeps stopping. *)
Theorem C34_same_sequence : forall g file d, open_dataset g file = Ok d ->
  exists d', next_n (ds_len d) d = (iterate d, false, d') /\
    fst (next_item d') = Err EStop /\ snd (next_item d') = d' /\
    length (iterate d) = ds_len d /\ iterate d' = iterate d.
Proof.
  intros g file d H.
  assert (HL : d_last d = d_start d /\ (d_start d <= d_final d)%nat).
  { unfold open_dataset in H. destruct (roi_enabled g).
    - destruct (argwhere_from 0 (map (roi_pass g) file)) as [|i0 rest]; [discriminate|].
      inversion H; subst d; cbn. split; auto.
      destruct (list_min_spec rest i0) as [Hmin1 _]. destruct (list_max_spec rest i0) as [_ Hmax2].
      apply Hmax2. auto.
    - inversion H; subst d; cbn. split; auto; lia. }
  destruct HL as [HL HF]. unfold ds_len.
  destruct (next_n_all (d_final d - d_start d) d) as (d' & E & E1 & E2 & E3 & E4 & E5); [lia|].
  exists d'. rewrite HL in E. split; [exact E|].
  assert (S : next_item d' = (Err EStop, d')).
  { unfold next_item. rewrite <- E1, Nat.leb_refl. auto. }
  rewrite S. split; auto. split; auto. split.
  - unfold iterate. rewrite map_length, seq_length. auto.
  - unfold iterate. rewrite E4, E5. apply map_ext. intros i. unfold item_at, check_roi.
    rewrite E2, E3. auto.
Qed.
Print Assumptions C34_same_sequence.

(** C34: without a region the sequence has one element per record, the record
    itself when usable, None otherwise. *)
Theorem C34_whole_file : forall g file d, roi_enabled g = false -> open_dataset g file = Ok d ->
  length (iterate d) = length file /\
  forall i, (i < length file)%nat ->
    (rec_usable file i -> nth_error (iterate d) i = Some (Some i)) /\
    (~ rec_usable file i -> nth_error (iterate d) i = Some None).
Proof.
  intros g file d HR H. unfold open_dataset in H. rewrite HR in H. inversion H; subst d; clear H.
  unfold iterate. cbn [d_start d_final]. rewrite Nat.sub_0_r.
  split. { rewrite map_length, seq_length. auto. }
  intros i Hi.
  assert (E : nth_error file i = Some (nth i file (0%Q, 0%Q))) by (apply nth_error_nth'; auto).
  assert (N : nth_error (seq 0 (length file)) i = Some i).
  { rewrite nth_error_nth' with (d := 0%nat) by (rewrite seq_length; auto). rewrite seq_nth; auto. }
  rewrite nth_error_map, N. cbn [option_map]. unfold item_at, check_roi. cbn [d_filter d_pos andb].
  pose proof (is_valid_spec (nth i file (0%Q, 0%Q))) as V.
  destruct (is_valid (nth i file (0%Q, 0%Q))); split; intro U; auto; exfalso.
  - apply U. exists (nth i file (0%Q, 0%Q)). split; auto. apply V. auto.
  - destruct U as (p & E' & U). assert (p = nth i file (0%Q, 0%Q)) by congruence. subst p.
    apply V in U. discriminate.
Qed.
Print Assumptions C34_whole_file.
Example C34_ex : exists d,
  open_dataset {| min_lat := None; max_lat := None; min_lon := None; max_lon := None |}
    [(5, 1); (0, 0); (0, 2)]%Q = Ok d /\ iterate d = [Some 0; None; Some 2]%nat /\ ds_len d = 3%nat.
Proof. eexists. repeat split. Qed.

(** C75: the first and last time reported for a data set of positive length are
    those of the first and last element of the delivered sequence, and are read
    from records of the file. *)
Theorem C75_times : forall g file d, open_dataset g file = Ok d -> (0 < ds_len d)%nat ->
  exists a b, first_time_index d = Z.of_nat a /\ last_time_index d = Z.of_nat b /\
    (a <= b < length file)%nat /\ (b = a + (ds_len d - 1))%nat /\
    (forall k x, nth_error (iterate d) k = Some (Some x) -> x = (a + k)%nat /\ (x <= b)%nat).
Proof.
  intros g file d H HP. unfold ds_len in *.
  assert (HF : (d_final d <= length file)%nat).
  { unfold open_dataset in H. destruct (roi_enabled g).
    - pose proof (inside_argwhere g file) as HI.
      destruct (argwhere_from 0 (map (roi_pass g) file)) as [|i0 rest]; [discriminate|].
      inversion H; subst d; cbn [d_final].
      destruct (list_max_spec rest i0) as [Hmax1 _]. apply HI in Hmax1.
      destruct Hmax1 as (p & E & _). apply Nat.lt_le_incl. apply nth_error_Some. congruence.
    - inversion H; subst d; cbn. auto. }
  exists (d_start d), (d_final d - 1)%nat. unfold first_time_index, last_time_index.
  split; auto. split; [lia|]. split; [lia|]. split; [lia|].
  intros k x E. unfold iterate in E. rewrite nth_error_map in E.
  destruct (nth_error (seq (d_start d) (d_final d - d_start d)) k) as [i|] eqn:N; [|discriminate].
  assert (L : (k < d_final d - d_start d)%nat).
  { rewrite <- (seq_length (d_final d - d_start d) (d_start d)). apply nth_error_Some. congruence. }
  rewrite nth_error_nth' with (d := 0%nat) in N by (rewrite seq_length; auto).
  rewrite seq_nth in N by auto. inversion N; subst i. cbn [option_map] in E.
  unfold item_at in E.
  destruct (check_roi d (d_start d + k) && is_valid (nth (d_start d + k) (d_pos d) (0%Q, 0%Q))); inversion E; subst. lia.
Qed.
Print Assumptions C75_times.
Example C75_ex : exists d,
  open_dataset {| min_lat := Some 10%Q; max_lat := None; min_lon := None; max_lon := None |}
    [(5, 1); (10, 1); (11, 4); (15, 3)]%Q = Ok d /\ ds_len d = 2%nat /\
    first_time_index d = 1%Z /\ last_time_index d = 2%Z.
Proof. eexists. repeat split. Qed.

(** C75: for a region that holds only the first record the last time cannot be
    read: the index is -1 and the read fails on a new reader, whatever the chunk
    size. *)
Theorem C75_single_record_region : forall g (p : pos) file d (V A : Type) (data : V -> list A) v size,
  roi_enabled g = true -> open_dataset g (p :: file) = Ok d ->
  rec_inside g (p :: file) 0 -> (forall i, (0 < i)%nat -> ~ rec_inside g (p :: file) i) ->
  (0 < size)%Z ->
  ds_len d = 0%nat /\ last_time_index d = (-1)%Z /\
  fst (get_value data size v (last_time_index d) fresh) = Err EIndex.
Proof.
  intros g p file d V A data v size HR H H0 H1 Hs. unfold open_dataset in H. rewrite HR in H.
  pose proof (inside_argwhere g (p :: file)) as HI.
  destruct (argwhere_from 0 (map (roi_pass g) (p :: file))) as [|i0 rest]; [discriminate|].
  inversion H; subst d; clear H.
  destruct (list_max_spec rest i0) as [Hmax1 _]. destruct (list_min_spec rest i0) as [Hmin1 _].
  set (f := list_max i0 rest) in *. set (s := list_min i0 rest) in *.
  assert (F0 : f = 0%nat). { apply HI in Hmax1. destruct (Nat.eq_dec f 0); auto. exfalso. apply (H1 f); auto; lia. }
  assert (S0 : s = 0%nat). { apply HI in Hmin1. destruct (Nat.eq_dec s 0); auto. exfalso. apply (H1 s); auto; lia. }
  unfold ds_len, last_time_index. cbn [d_final d_start]. rewrite F0, S0.
  split; auto. split; auto.
  assert (M : ((-1) mod size = size - 1)%Z).
  { replace (-1)%Z with (size - 1 + (-1) * size)%Z by lia. rewrite Z.mod_add by lia.
    apply Z.mod_small. lia. }
  change (Z.of_nat 0 - 1)%Z with (-1)%Z.
  unfold get_value. cbn [chunk fresh fst]. rewrite M.
  unfold load_chunk. cbn [cache fresh].
  destruct (Z.leb_spec (Z.of_nat (length (data v))) (-1 - (size - 1))); [lia|].
  replace (-1 - (size - 1) + size)%Z with 0%Z by lia.
  replace (Z.min (Z.of_nat (length (data v))) 0) with 0%Z by lia.
  unfold py_slice. replace (py_clip (length (data v)) 0) with 0%nat by (symmetry; apply Nat.min_0_r).
  cbn [firstn Nat.sub]. unfold py_get, py_pos. cbn [length].
  replace (0 <=? size - 1)%Z with true by lia.
  replace (size - 1 <? Z.of_nat 0)%Z with false by lia. auto.
Qed.
Print Assumptions C75_single_record_region.
