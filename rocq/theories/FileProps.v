(** C139: from the L1A file to the run. *)
From Coq Require Import String List ZArith QArith Qreals Reals Bool Lia Lra Arith.
From Verif Require Import Common Cplx GeoModel ReaderModel ReaderSpec ReaderProofs ReaderProps ChainModel ChainSpec FullSpec WholeModel WholeSpec FileModel FileSpec FileProofs.
From Verif Require Import LongSpec LongProps CircSpec CircProofs CircProps.
From Verif Require PktModel SurfModel PointModel LinModel LinProps LaidSpec.
Import ListNotations.
Local Open Scope string_scope.
Local Open Scope list_scope.
Local Open Scope nat_scope.

(** A run is fed one item for each record from the first inside the region up to
    the last, the last not included: the record if its position is inside and not
    (0, 0), nothing otherwise.  Without a region every record has its item. *)
Theorem C139_delivered : forall o g fi, complete o fi ->
  (forall l, delivered o g fi = Ok l ->
     exists a, (forall j, j < length l -> exists it, nth_error l j = Some it /\ item_for o g fi (a + j) it) /\
       (g = everywhere -> a = 0 /\ length l = f_size fi) /\
       (g <> everywhere -> in_region g fi a /\ in_region g fi (a + length l) /\ a + length l < f_size fi /\
          forall i, i < f_size fi -> in_region g fi i -> a <= i <= a + length l)) /\
  (forall e, delivered o g fi = Err e <-> e = EEmptyRegion /\ g <> everywhere /\ forall i, i < f_size fi -> ~ in_region g fi i).
Proof.
  intros o g fi C. destruct (open_dataset g (positions fi)) as [d|e] eqn:E.
  - pose proof (delivered_is o g fi d C E) as D. destruct (opened o g fi d C E) as (_ & B & H1 & H2). split.
    + intros l X. rewrite D in X. injection X as <-. exists (ReaderModel.d_start d). rewrite map_length, seq_length. split; [|split].
      * intros j J. exists (item_of o d fi (ReaderModel.d_start d + j)). split; [|apply item_of_for; [exact C|exact E|lia]].
        rewrite nth_error_map, (nth_error_nth' (seq (ReaderModel.d_start d) (d_final d - ReaderModel.d_start d)) 0) by (rewrite seq_length; lia).
        rewrite seq_nth by lia. reflexivity.
      * intros G. destruct (H1 G) as (-> & ->). split; [reflexivity|lia].
      * intros G. destruct (H2 G) as (K1 & K2 & K3 & K4). replace (ReaderModel.d_start d + (d_final d - ReaderModel.d_start d)) with (d_final d) by lia. auto.
    + intros e. rewrite D. split; [discriminate|]. intros (_ & G & N). exfalso. destruct (H2 G) as (_ & _ & K3 & K4). exact (N _ K3 K4).
  - assert (D : delivered o g fi = Err e) by (unfold delivered; now rewrite E). rewrite D. split; [discriminate|].
    assert (RE : roi_enabled g = true) by (unfold open_dataset in E; destruct (roi_enabled g); [reflexivity|discriminate]).
    assert (NG : g <> everywhere) by (intros ->; discriminate RE).
    assert (X : e = EEmptyRegion) by (unfold open_dataset in E; rewrite RE in E; destruct (argwhere_from _ _); congruence). subst e.
    pose proof (proj2 (C33_empty_region_partial g (positions fi) RE) E) as NI.
    intros e. split; [|intros (-> & _); reflexivity]. intros [= <-]. split; [reflexivity|]. split; [exact NG|].
    intros i I W. apply (NI i). apply (inside_pos o g fi i C). auto.
Qed.
Print Assumptions C139_delivered.

(** How much the reader keeps of the file at a time makes no difference. *)
Theorem C139_chunk : forall o g fi n, complete o fi -> (0 < n)%Z ->
  delivered (mk_opener (n_aux o) (n_day o) (n_cal2 o) n) g fi = delivered o g fi.
Proof.
  intros o g fi n C P. set (o' := mk_opener (n_aux o) (n_day o) (n_cal2 o) n).
  assert (C' : complete o' fi) by (destruct C as (L & X & T & _); repeat split; assumption).
  unfold delivered. destruct (open_dataset g (positions fi)) as [d|e] eqn:E; [|reflexivity].
  pose proof (delivered_is o g fi d C E) as D. pose proof (delivered_is o' g fi d C' E) as D'. unfold delivered in D, D'. rewrite E in D, D'.
  rewrite D, D'. reflexivity.
Qed.
Print Assumptions C139_chunk.

(** A region that takes in records [a] to [b] of a pass gives the run that a file
    of records [a] to [b] - 1 gives: nothing outside is used, and the last record
    of the region is lost. *)
Theorem C139_region : forall o g fi a b, complete o fi -> g <> everywhere -> stretch g fi a b ->
  delivered o g fi = delivered o everywhere (cut a b fi) /\
  exists l, delivered o g fi = Ok l /\ length l = b - a.
Proof.
  intros o g fi a b C N S. split; [exact (stretch_delivered o g fi a b C N S)|].
  destruct (stretch_open o g fi a b C N S) as (d & E & Da & Db). exists (map (item_of o d fi) (seq a (b - a))).
  rewrite (delivered_is o g fi d C E), Da, Db. split; [reflexivity|]. now rewrite map_length, seq_length.
Qed.
Print Assumptions C139_region.

(** No value is made up: when one of the variables ends before record [i], within
    the chunk that holds it, the reading ends with an error at record [i] at the latest. *)
Lemma collect_err : forall vs l k e, length l = length vs -> nth_error l k = Some (Err e) -> exists e', collect vs l = Err e'.
Proof.
  induction vs as [|v vs IH]; intros [|x l] k e L N; try discriminate L; [destruct k; discriminate N|].
  cbn [collect]. destruct x as [c|e0]; [|eauto]. destruct k as [|k]; [discriminate N|].
  destruct (IH l k e ltac:(now injection L) N) as (e' & ->). eauto.
Qed.
Lemma get_item_short : forall o fi i v r, (0 < n_chunk o)%Z -> good _ _ (f_var fi) (n_chunk o) r -> In v names ->
  length (f_var fi v) <= i -> (Z.of_nat i - Z.of_nat i mod n_chunk o < Z.of_nat (length (f_var fi v)))%Z ->
  exists e r', get_item o fi i r = (Err e, r').
Proof.
  intros o fi i v r CH G V L C. unfold get_item. set (ops := map (fun v => (v, Z.of_nat i)) names).
  pose proof (reads_length _ _ (f_var fi) (n_chunk o) ops r) as RL.
  apply In_nth_error in V. destruct V as (k & K).
  assert (KO : nth_error ops k = Some (v, Z.of_nat i)) by (unfold ops; now rewrite nth_error_map, K).
  pose proof (reads_nth _ _ (f_var fi) (n_chunk o) ops r k v (Z.of_nat i) KO) as RN.
  rewrite (get_past_end _ _ (f_var fi) (n_chunk o) CH v (Z.of_nat i)) in RN;
    [|apply (reads_good _ _ (f_var fi) (n_chunk o) CH); exact G|lia|exact C|lia].
  destruct (reads (f_var fi) (n_chunk o) ops r) as [l r']. cbn [fst] in *.
  destruct (collect_err names l k EIndex) as (e & ->); [rewrite RL; apply map_length|exact RN|]. eauto.
Qed.
Lemma get_item_good : forall o fi i r x r', (0 < n_chunk o)%Z -> good _ _ (f_var fi) (n_chunk o) r -> get_item o fi i r = (x, r') ->
  good _ _ (f_var fi) (n_chunk o) r'.
Proof.
  intros o fi i r x r' CH G E.
  assert (H : snd (get_item o fi i r) = snd (reads (f_var fi) (n_chunk o) (map (fun v => (v, Z.of_nat i)) names) r)).
  { unfold get_item. destruct (reads _ _ _ r) as [l r1]. reflexivity. }
  rewrite E in H. cbn [snd] in H. rewrite H. apply (reads_good _ _ (f_var fi) (n_chunk o) CH). exact G.
Qed.
Theorem C139_short : forall o fi v i l, (0 < n_chunk o)%Z -> In v names -> length (f_var fi v) <= i ->
  (Z.of_nat i - Z.of_nat i mod n_chunk o < Z.of_nat (length (f_var fi v)))%Z -> delivered o everywhere fi = Ok l ->
  length l <= S i /\ forall it, nth_error l i = Some it -> it = WFail.
Proof.
  intros o fi v i l CH V L C D. unfold delivered, open_dataset in D. change (roi_enabled everywhere) with false in D.
  cbv iota in D. injection D as <-.
  match goal with |- context [packets _ _ _ ?d _] => set (d0 := d) end.
  assert (K : forall n d r, good _ _ (f_var fi) (n_chunk o) r -> d_filter d = None -> d_last d <= i ->
    length (packets n o fi d r) <= S (i - d_last d) /\ forall it, nth_error (packets n o fi d r) (i - d_last d) = Some it -> it = WFail).
  { induction n as [|n IH]; intros d r G F LE; cbn [packets].
    - split; [cbn; lia|]. intros it N. destruct (i - d_last d); discriminate N.
    - unfold next_packet. destruct (d_final d <=? d_last d).
      + split; [cbn; lia|]. intros it N. destruct (i - d_last d); discriminate N.
      + unfold check_roi. rewrite F. cbn [negb].
        destruct (get_item o fi (d_last d) r) as [[c|e] r'] eqn:GI.
        * assert (NE : d_last d <> i).
          { intros E. destruct (get_item_short o fi i v r CH G V L C) as (e & r1 & GE). rewrite E in GI. congruence. }
          pose proof (get_item_good o fi _ r _ r' CH G GI) as G'.
          destruct (IH (moved d) r' G' F ltac:(cbn; lia)) as (I1 & I2). cbn [moved d_last] in I1, I2.
          replace (i - d_last d) with (S (i - S (d_last d))) by lia.
          destruct (is_valid _); cbn [length nth_error]; (split; [lia|exact I2]).
        * split; [cbn; lia|]. intros it N. destruct (i - d_last d) as [|k]; cbn in N; [now injection N as <-|destruct k; discriminate N]. }
  destruct (K (f_size fi) d0 fresh (good_fresh _ _ _ _) eq_refl ltac:(cbn; lia)) as (K1 & K2).
  replace (i - d_last d0) with i in * by (cbn; lia). split; assumption.
Qed.
Print Assumptions C139_short.

(** Two regions of a file that begin at the same record: the products of the
    surfaces settled within the smaller one are the same. *)
Theorem C139_larger : forall u cancel o g g' fi a b b' l l', complete o fi -> g <> everywhere -> g' <> everywhere ->
  stretch g fi a b -> stretch g' fi a b' -> b <= b' -> delivered o g fi = Ok l -> delivered o g' fi = Ok l' -> fuel_enough u l' ->
  let m := settled (c_min (u_cf u)) (x_s (wfinal (whole u cancel l))) in
  firstn (length l) l' = l /\
  first_products m (x_out (wfinal (whole u cancel l'))) = first_products m (x_out (wfinal (whole u cancel l))).
Proof.
  intros u cancel o g g' fi a b b' l l' C N N' S S' B D D' F m.
  assert (X : exists ys, l' = l ++ ys).
  { pose proof S as ((A1 & A2) & K). pose proof S' as ((A1' & A2') & K').
    destruct (stretch_open o g fi a b C N S) as (d & E & Da & Db). destruct (stretch_open o g' fi a b' C N' S') as (d' & E' & Da' & Db').
    rewrite (delivered_is o g fi d C E), Da, Db in D. rewrite (delivered_is o g' fi d' C E'), Da', Db' in D'. injection D as <-. injection D' as <-.
    exists (map (item_of o d' fi) (seq b (b' - b))). replace (b' - a) with ((b - a) + (b' - b)) by lia. rewrite seq_app, map_app.
    replace (a + (b - a)) with b by lia. f_equal. apply map_ext_in. intros i I. apply in_seq in I. unfold item_of.
    rewrite (proj2 (check_roi_at o g fi d i C E ltac:(lia)) (proj2 (K i ltac:(lia)) ltac:(lia))).
    rewrite (proj2 (check_roi_at o g' fi d' i C E' ltac:(lia)) (proj2 (K' i ltac:(lia)) ltac:(lia))). reflexivity. }
  destruct X as (ys & ->). split; [rewrite firstn_app, firstn_all, Nat.sub_diag, firstn_O; apply app_nil_r|].
  exact (proj2 (C132_products u cancel l ys F)).
Qed.
Print Assumptions C139_larger.

(** A calibration table that the file does not hold is noticed at the first
    record: the run fails without a product. *)
Theorem C139_no_table : forall o fi, (forall v, In v names -> length (f_var fi v) = f_size fi) -> 0 < f_size fi -> (0 < n_chunk o)%Z ->
  length (table (at_ fi 0 "gprw_meas_ku")) <= n_cal2 o ->
  delivered o everywhere fi = Ok [WFail] /\
  forall u, exists e w, whole u no_cancel [WFail] = WRaise e w /\ x_out w = [].
Proof.
  intros o fi L P CH T. split.
  - assert (RD : forall r, good _ _ (f_var fi) (n_chunk o) r -> exists r', get_item o fi 0 r = (Err EIndex, r')).
    { intros r G. unfold get_item. destruct (reads_all fi (n_chunk o) names 0 r CH G) as (r' & -> & G'); [intros v V; rewrite (L v V); exact P|].
      rewrite collect_ok, value_of_map by (vm_compute; tauto). change (cell_at fi 0 v_gprw) with (at_ fi 0 "gprw_meas_ku").
      rewrite (proj2 (Nat.ltb_ge _ _) T). eauto. }
    unfold delivered, open_dataset. change (roi_enabled everywhere) with false.
    assert (PL : length (positions fi) = f_size fi).
    { unfold positions. change pos with (Q * Q)%type. rewrite combine_length, !map_length, !L by (vm_compute; tauto). lia. }
    rewrite PL. destruct (f_size fi) as [|n] eqn:SZ; [lia|]. cbn [packets]. unfold next_packet. cbn [d_final d_last Nat.leb check_roi d_filter negb].
    destruct (RD fresh (good_fresh _ _ _ _)) as (r' & ->). reflexivity.
  - intros u. eexists. eexists. split; reflexivity.
Qed.
Print Assumptions C139_no_table.

(** A file of a pass on a circle above the equator: every record is used, and a
    run that ends has the products of C138. *)
Definition all_records (o : opener) (fi : file) : list witem := map (fun i => WValid (record_at o fi i)) (seq 0 (f_size fi)).
Theorem C139_circle : forall u g K m o fi cancel, complete o fi -> ring_pass u g K m (all_records o fi) ->
  delivered o everywhere fi = Ok (all_records o fi) /\
  (2 * m < K * c_N (u_cf u) -> forall w, whole u cancel (all_records o fi) = WEnd w false ->
   map (fun p => (pr_number p, LaidSpec.records_in p)) (x_out w) =
   map (fun s => (s, window (f_size fi) K m s))
     (filter (fun s => c_looks (u_cf u) / 2 <=? length (window (f_size fi) K m s)) (seq 0 (ring_count (f_size fi) K)))).
Proof.
  intros u g K m o fi cancel C P. assert (LA : length (all_records o fi) = f_size fi) by (unfold all_records; now rewrite map_length, seq_length). split.
  - destruct (open_dataset everywhere (positions fi)) as [d|e] eqn:E; [|discriminate E]. rewrite (delivered_is o everywhere fi d C E).
    destruct (opened _ _ _ _ C E) as (_ & _ & H & _). destruct (H eq_refl) as (-> & ->). rewrite Nat.sub_0_r. f_equal. apply map_ext_in.
    intros i I. apply in_seq in I. apply (item_of_for o everywhere fi d i C E); [lia|]. split; [apply in_everywhere|].
    destruct (p_rec _ _ _ _ _ P i (WValid (record_at o fi i))) as (r & [= <-] & R & _).
    { unfold all_records. rewrite nth_error_map, (nth_error_nth' (seq 0 (f_size fi)) 0) by (rewrite seq_length; lia). rewrite seq_nth by lia. reflexivity. }
    destruct (p_place _ _ _ _ _ P i ltac:(rewrite LA; lia)) as (_ & NZ). cbn [record_at w_geo SurfModel.b_lla] in R. injection R as _ R _.
    intros (_ & Z0). apply NZ. rewrite <- R. cbn [place snd] in Z0.
    destruct C as (L & X & _). assert (EX : is_exact (at_ fi i "lon")).
    { assert (IV : In v_lon [v_lat; v_lon; v_time]) by (right; left; reflexivity). specialize (X v_lon IV). rewrite Forall_forall in X. apply X.
      unfold at_. apply nth_In. change (("lon" ++ "_l1a_echo_sar_ku")%string) with v_lon. rewrite L by (vm_compute; tauto). lia. }
    destruct EX as (q & EQ). unfold number_at. rewrite EQ in *. cbn [exact num] in *. apply Qeq_eqR in Z0. rewrite Z0. unfold degrees, Q2R. cbn. lra.
  - intros W w EN. rewrite <- LA. exact (C138_output u g K m (all_records o fi) cancel w P W EN).
Qed.
Print Assumptions C139_circle.

(** Non-vacuity: the pass of C138 as a file, and a region of it. *)
Definition f_aux : PktModel.aux := {| PktModel.a_c := 1; PktModel.a_chd := fun _ => 1%R |}.
Definition f_o : opener := mk_opener f_aux 1 0 40.
Definition f_lon (p : nat) : R := (PI / 2 + INR p * (PI / 24))%R.
Definition f_cell (v : string) (p : nat) : cell :=
  if (v =? v_lat)%string then CExact 0
  else if (v =? v_lon)%string then CExact (90 + inject_Z (Z.of_nat p) * (15 # 2))
  else if (v =? v_time)%string then CExact (inject_Z (Z.of_nat p))
  else if (v =? "alt_l1a_echo_sar_ku")%string then CNum 1
  else if (v =? "range_ku_l1a_echo_sar_ku")%string then CNum 1
  else if (v =? "x_vel_l1a_echo_sar_ku")%string then CNum (- (1 * sin (f_lon p)))
  else if (v =? "y_vel_l1a_echo_sar_ku")%string then CNum (1 * cos (f_lon p))
  else if (v =? v_gprw)%string then CTable [[]]
  else if (v =? v_i)%string then CTable []
  else if (v =? v_q)%string then CTable []
  else CNum 0.
Definition f_file : file := mk_file 6 (fun v => map (f_cell v) (seq 0 6)).
Definition f_region : region := {| min_lat := None; max_lat := None; min_lon := Some 97%Q; max_lon := None |}.
Lemma f_complete : complete f_o f_file.
Proof.
  split; [|split; [|split]].
  - intros v _. reflexivity.
  - intros v [<-|[<-|[<-|[]]]]; repeat constructor; eexists; reflexivity.
  - repeat constructor; (exists [[]]; split; [reflexivity|cbn; lia]).
  - reflexivity.
Qed.
Lemma f_at : forall p x, p < 6 -> at_ f_file p x = f_cell (x ++ "_l1a_echo_sar_ku")%string p.
Proof.
  intros p x L. unfold at_, f_file. cbn [f_var]. rewrite (nth_indep _ _ (f_cell (x ++ "_l1a_echo_sar_ku")%string 0)) by (rewrite map_length, seq_length; exact L).
  rewrite map_nth, seq_nth by exact L. reflexivity.
Qed.
Lemma f_pass : ring_pass c_u c_ring 1 1 (all_records f_o f_file).
Proof.
  destruct c_pass. constructor; auto.
  - intros p i N. unfold all_records in N. rewrite nth_error_map in N. change (f_size f_file) with 6 in N.
    destruct (nth_error (seq 0 6) p) as [q|] eqn:E; [|discriminate]. injection N as <-.
    assert (L : p < 6) by (rewrite <- (seq_length 6 0); apply nth_error_Some; congruence).
    assert (q = p). { rewrite (nth_error_nth' _ 0) in E by (rewrite seq_length; exact L). rewrite seq_nth in E by exact L. now injection E as <-. } subst q.
    exists (record_at f_o f_file p). split; [reflexivity|]. unfold on_ring, record_at, delay_at, number_at. rewrite !f_at by exact L.
    cbn [w_geo SurfModel.b_lla SurfModel.b_wd SurfModel.b_vel]. split; [|split].
    + unfold lon, degrees. cbn. f_equal; [unfold Q2R; cbn; lra| |lra]. rewrite Q2R_plus, Q2R_mult. unfold Q2R. cbn.
      rewrite <- INR_IZR_INZ. field.
    + cbn. lra.
    + unfold along, lon. cbn. unfold f_lon. reflexivity.
Qed.
Example C139_example : complete f_o f_file /\ ring_pass c_u c_ring 1 1 (all_records f_o f_file) /\
  stretch f_region f_file 1 5 /\
  (exists l, delivered f_o f_region f_file = Ok l /\ length l = 4) /\
  (exists w, whole c_u no_cancel (all_records f_o f_file) = WEnd w false /\
     map (fun p => (pr_number p, LaidSpec.records_in p)) (x_out w)
     = [(0, [0; 1]); (1, [0; 1; 2]); (2, [1; 2; 3]); (3, [2; 3; 4]); (4, [3; 4; 5]); (5, [4; 5])]).
Proof.
  assert (S : stretch f_region f_file 1 5).
  { split; [cbn; lia|]. intros i I. change (f_size f_file) with 6 in I. unfold in_region, place. rewrite !f_at by exact I.
    do 6 (destruct i as [|i]; [vm_compute; intuition (try discriminate; try lia)|]). lia. }
  split; [exact f_complete|]. split; [exact f_pass|]. split; [exact S|].
  split; [apply (C139_region f_o f_region f_file 1 5 f_complete ltac:(discriminate) S)|].
  destruct (C138_ends c_u c_ring 1 1 _ f_pass ltac:(cbn; lia) eq_refl ltac:(intros x; repeat split) ltac:(cbn; lia)) as (w & E).
  exists w. split; [exact E|]. rewrite (proj2 (C139_circle c_u c_ring 1 1 f_o f_file no_cancel f_complete f_pass) ltac:(cbn; lia) w E). reflexivity.
Qed.
(** Non-vacuity of C139_short: the same file with three values of one variable. *)
Example C139_short_example :
  let fi := mk_file 6 (fun v => if (v =? v_power)%string then firstn 3 (f_var f_file v) else f_var f_file v) in
  exists l, delivered f_o everywhere fi = Ok l /\ length l <= 4 /\ forall it, nth_error l 3 = Some it -> it = WFail.
Proof.
  intros fi. exists (packets 6 f_o fi {| d_pos := positions fi; d_filter := None; ReaderModel.d_start := 0; d_final := length (positions fi); d_last := 0 |} fresh).
  split; [reflexivity|]. apply (C139_short f_o fi v_power 3).
  - reflexivity.
  - vm_compute. tauto.
  - change (f_var fi v_power) with (firstn 3 (f_var f_file v_power)). rewrite firstn_length. lia.
  - change (f_var fi v_power) with (firstn 3 (f_var f_file v_power)). rewrite firstn_length.
    change (length (f_var f_file v_power)) with 6. reflexivity.
  - reflexivity.
Qed.
