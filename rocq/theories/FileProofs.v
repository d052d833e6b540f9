(** Reading the records of a complete file. *)
From Coq Require Import String List ZArith QArith Qreals Reals Bool Lia Arith.
From Verif Require Import Common Cplx GeoModel ReaderModel ReaderSpec ReaderProofs ReaderProps WholeModel FileModel FileSpec.
From Verif Require PktModel PktProofs SurfModel PointModel LinModel.
Import ListNotations.
Local Open Scope string_scope.
Local Open Scope list_scope.
Local Open Scope nat_scope.

(** * Values *)
Definition cell_at (fi : file) (i : nat) (v : string) : cell := nth i (f_var fi v) (CNum 0).

Lemma reads_all : forall fi size vs i r, (0 < size)%Z -> good _ _ (f_var fi) size r ->
  (forall v, In v vs -> i < length (f_var fi v)) ->
  exists r', reads (f_var fi) size (map (fun v => (v, Z.of_nat i)) vs) r = (map (fun v => Ok (cell_at fi i v)) vs, r') /\
             good _ _ (f_var fi) size r'.
Proof.
  intros fi size vs i. induction vs as [|v vs IH]; intros r P G H; cbn [map reads]; [eauto|].
  destruct (get_in_range _ _ (f_var fi) size P v (Z.of_nat i) r G) as (a & A1 & A2); [specialize (H v (or_introl eq_refl)); lia|].
  pose proof (good_get _ _ (f_var fi) size P v (Z.of_nat i) r G) as G1.
  destruct (get_value (f_var fi) size v (Z.of_nat i) r) as [x r1]. cbn [fst snd] in *. subst x.
  destruct (IH r1 P G1 ltac:(intros w I; apply H; now right)) as (r' & -> & G'). exists r'. split; [|exact G'].
  rewrite Nat2Z.id in A1. unfold cell_at at 2. rewrite (nth_error_nth _ _ _ A1). reflexivity.
Qed.
Lemma collect_ok : forall (f : string -> cell) vs, collect vs (map (fun v => Ok (f v)) vs) = Ok (map (fun v => (v, f v)) vs).
Proof. intros f vs. induction vs as [|v vs IH]; [reflexivity|]. cbn [map collect]. now rewrite IH. Qed.
Lemma value_of_map : forall (f : string -> cell) vs v, In v vs -> value_of (map (fun v => (v, f v)) vs) v = f v.
Proof.
  intros f vs v. unfold value_of. induction vs as [|w vs IH]; intros I; [destruct I|]. cbn [map find fst].
  destruct (String.eqb_spec w v) as [->|N]; [reflexivity|]. apply IH. destruct I as [I|I]; [congruence|exact I].
Qed.

(** * Bursts *)
Definition needs : list string := ["agc_ku_l1a_echo_sar_ku"; v_i; v_q; v_power; v_phase; v_gprw; v_time].
Lemma names_needs : incl needs names.
Proof. intros v I. cbn [needs In] in I. repeat (destruct I as [<-|I]; [vm_compute; tauto|]). destruct I. Qed.
Lemma names_args : forall a, In a PktModel.attributes -> incl (PktProofs.reads (snd a)) names.
Proof.
  assert (G : forallb (fun a => forallb (fun v => existsb (String.eqb v) names) (PktProofs.reads (snd a))) PktModel.attributes = true) by (vm_compute; reflexivity).
  intros a I v J. rewrite forallb_forall in G. specialize (G a I). rewrite forallb_forall in G. specialize (G v J).
  apply existsb_exists in G as (w & W & E). apply String.eqb_eq in E. now subst w.
Qed.
Lemma arg_same : forall o c c' f, (forall v, In v names -> c v = c' v) -> arg o c f = arg o c' f.
Proof.
  intros o c c' f H. unfold arg, PktModel.attribute. destruct (find _ PktModel.attributes) as [a|] eqn:E; [|reflexivity].
  apply find_some in E as [E _]. apply PktProofs.aeval_reads. intros v I. cbn [scalars PktModel.l_var].
  rewrite (H v); [reflexivity|]. exact (names_args a E v I).
Qed.
Lemma make_same : forall o c c', (forall v, In v names -> c v = c' v) -> make o c = make o c'.
Proof.
  intros o c c' H. pose proof names_needs as N. assert (NE : forall v, In v needs -> c v = c' v) by (intros v I; apply H, N, I).
  unfold make, waveform, PktModel.agc_scale. cbn [scalars PktModel.l_var].
  rewrite !(arg_same o c c') by exact H. rewrite !NE by (cbn [needs In]; tauto). reflexivity.
Qed.
Lemma make_record : forall o fi i, make o (cell_at fi i) = record_at o fi i.
Proof. reflexivity. Qed.
Lemma get_item_ok : forall o fi i r, complete o fi -> i < f_size fi -> good _ _ (f_var fi) (n_chunk o) r ->
  exists c r', get_item o fi i r = (Ok c, r') /\ good _ _ (f_var fi) (n_chunk o) r' /\ make o c = record_at o fi i /\
    exact (c v_lat) = fst (place fi i) /\ exact (c v_lon) = snd (place fi i).
Proof.
  intros o fi i r (L & _ & T & P) I G. unfold get_item.
  destruct (reads_all fi (n_chunk o) names i r P G) as (r' & -> & G'); [intros v V; rewrite (L v V); exact I|].
  rewrite collect_ok. set (c := value_of (map (fun v => (v, cell_at fi i v)) names)).
  assert (C : forall v, In v names -> c v = cell_at fi i v) by (intros v V; apply value_of_map; exact V).
  assert (IG : In v_gprw names) by (vm_compute; tauto).
  assert (X : n_cal2 o < length (table (c v_gprw))).
  { rewrite (C _ IG). rewrite Forall_forall in T.
    destruct (T (cell_at fi i v_gprw)) as (l & -> & B); [|exact B]. unfold cell_at. apply nth_In. rewrite (L _ IG). exact I. }
  apply Nat.ltb_lt in X. rewrite X. exists c, r'. split; [reflexivity|]. split; [exact G'|]. split.
  - rewrite <- make_record. apply make_same. exact C.
  - rewrite !C by (vm_compute; tauto). split; reflexivity.
Qed.

(** * The data set *)
Definition item_of (o : opener) (d : dataset) (fi : file) (i : nat) : witem :=
  if check_roi d i && is_valid (place fi i) then WValid (record_at o fi i) else WNothing.
Lemma packets_all : forall o fi n d r, complete o fi -> good _ _ (f_var fi) (n_chunk o) r -> d_last d <= d_final d -> d_final d <= f_size fi ->
  d_final d - d_last d <= n ->
  packets n o fi d r = map (item_of o d fi) (seq (d_last d) (d_final d - d_last d)).
Proof.
  intros o fi. induction n as [|n IH]; intros d r C G L F N.
  { replace (d_final d - d_last d) with 0 by lia. reflexivity. }
  cbn [packets]. unfold next_packet. destruct (Nat.leb_spec (d_final d) (d_last d)) as [A|A].
  { replace (d_final d - d_last d) with 0 by lia. reflexivity. }
  assert (E : d_final d - d_last d = S (d_final d - S (d_last d))) by lia. rewrite E. cbn [seq map].
  assert (R : forall r, good _ _ (f_var fi) (n_chunk o) r -> packets n o fi (moved d) r = map (item_of o d fi) (seq (S (d_last d)) (d_final d - S (d_last d)))).
  { intros r' G'. rewrite (IH (moved d) r' C G'); cbn [moved d_last d_final]; try lia. reflexivity. }
  unfold item_of at 1. destruct (check_roi d (d_last d)) eqn:K; cbn [negb andb].
  - destruct (get_item_ok o fi (d_last d) r C ltac:(lia) G) as (c & r' & -> & G' & M & E1 & E2). rewrite E1, E2.
    replace (fst (place fi (d_last d)), snd (place fi (d_last d))) with (place fi (d_last d)) by reflexivity.
    rewrite M. destruct (is_valid (place fi (d_last d))); (rewrite R by exact G'; reflexivity).
  - rewrite R by exact G. reflexivity.
Qed.

Lemma positions_nth : forall o fi i, complete o fi -> i < f_size fi -> nth_error (positions fi) i = Some (place fi i).
Proof.
  intros o fi i (L & _) I. assert (L1 : length (f_var fi v_lat) = f_size fi) by (apply L; vm_compute; tauto).
  assert (L2 : length (f_var fi v_lon) = f_size fi) by (apply L; vm_compute; tauto).
  assert (LP : i < length (positions fi)) by (unfold positions; change pos with (Q * Q)%type; rewrite combine_length, !map_length; lia).
  rewrite (nth_error_nth' (positions fi) (exact (CNum 0), exact (CNum 0)) LP). f_equal. unfold positions. change pos with (Q * Q)%type.
  rewrite combine_nth by (rewrite !map_length; lia). rewrite !map_nth. reflexivity.
Qed.
Lemma positions_length : forall o fi, complete o fi -> length (positions fi) = f_size fi.
Proof.
  intros o fi (L & _). unfold positions. change pos with (Q * Q)%type. rewrite combine_length, !map_length, !L by (vm_compute; tauto). lia.
Qed.
Lemma check_roi_at : forall o g fi d i, complete o fi -> open_dataset g (positions fi) = Ok d -> i < f_size fi ->
  (check_roi d i = true <-> in_region g fi i).
Proof.
  intros o g fi d i C E I. pose proof (positions_nth o fi i C I) as PN. pose proof (positions_length o fi C) as PL.
  unfold open_dataset in E. unfold in_region. rewrite <- (roi_pass_spec g (place fi i)).
  destruct (roi_enabled g) eqn:RE.
  - destruct (argwhere_from 0 (map (roi_pass g) (positions fi))) as [|j rest]; [discriminate|]. injection E as <-. cbn [check_roi d_filter].
    rewrite (nth_indep _ false (roi_pass g (0, 0)%Q)) by (rewrite map_length; lia). rewrite map_nth, (nth_error_nth _ _ _ PN). reflexivity.
  - injection E as <-. cbn [check_roi d_filter]. split; [intros _|reflexivity].
    unfold roi_enabled in RE. destruct g as [[a|] [b|] [c|] [e|]]; try discriminate RE. reflexivity.
Qed.
Lemma everywhere_off : forall g, roi_enabled g = false <-> g = everywhere.
Proof. intros g. split; [|intros ->; reflexivity]. destruct g as [[a|] [b|] [c|] [e|]]; try discriminate. reflexivity. Qed.
Lemma in_everywhere : forall fi i, in_region everywhere fi i.
Proof. intros fi i. repeat split; cbn; auto. Qed.

(** Opening. *)
Lemma inside_pos : forall o g fi i, complete o fi -> (rec_inside g (positions fi) i <-> i < f_size fi /\ in_region g fi i).
Proof.
  intros o g fi i C. unfold rec_inside, in_region. split.
  - intros (p & N & W). assert (I : i < f_size fi) by (rewrite <- (positions_length o fi C); apply nth_error_Some; congruence).
    split; [exact I|]. rewrite (positions_nth o fi i C I) in N. injection N as <-. exact W.
  - intros (I & W). exists (place fi i). split; [exact (positions_nth o fi i C I)|exact W].
Qed.
Lemma opened : forall o g fi d, complete o fi -> open_dataset g (positions fi) = Ok d ->
  d_last d = d_start d /\ d_start d <= d_final d <= f_size fi /\
  (g = everywhere -> d_start d = 0 /\ d_final d = f_size fi) /\
  (g <> everywhere -> (forall i, i < f_size fi -> in_region g fi i -> d_start d <= i <= d_final d) /\
     in_region g fi (d_start d) /\ d_final d < f_size fi /\ in_region g fi (d_final d)).
Proof.
  intros o g fi d C E. pose proof (positions_length o fi C) as PL. pose proof (inside_argwhere g (positions fi)) as IA. unfold open_dataset in E.
  destruct (roi_enabled g) eqn:RE.
  - assert (NG : g <> everywhere) by (intros ->; discriminate RE).
    destruct (argwhere_from 0 (map (roi_pass g) (positions fi))) as [|j rest]; [discriminate|]. injection E as <-. cbn [d_last d_start d_final].
    destruct (list_min_spec rest j) as [M1 M2]. destruct (list_max_spec rest j) as [X1 X2].
    pose proof (proj1 (inside_pos o g fi _ C) (proj1 (IA _) M1)) as (I1 & I2).
    pose proof (proj1 (inside_pos o g fi _ C) (proj1 (IA _) X1)) as (J1 & J2).
    split; [reflexivity|]. split; [split; [apply X2; exact M1|lia]|]. split; [intros ->; now elim NG|]. intros _.
    split; [|auto]. intros i I W. assert (K : In i (j :: rest)) by (apply IA; apply (inside_pos o g fi i C); auto). split; [apply M2|apply X2]; exact K.
  - apply everywhere_off in RE. subst g. injection E as <-. cbn [d_last d_start d_final]. rewrite PL. split; [reflexivity|]. split; [lia|].
    split; [auto|]. intros N. now elim N.
Qed.
Lemma delivered_is : forall o g fi d, complete o fi -> open_dataset g (positions fi) = Ok d ->
  delivered o g fi = Ok (map (item_of o d fi) (seq (d_start d) (d_final d - d_start d))).
Proof.
  intros o g fi d C E. unfold delivered. rewrite E. destruct (opened o g fi d C E) as (A & B & _). f_equal.
  rewrite (packets_all o fi _ d fresh C (good_fresh _ _ _ _)), A by lia. reflexivity.
Qed.
Lemma item_of_for : forall o g fi d i, complete o fi -> open_dataset g (positions fi) = Ok d -> i < f_size fi ->
  item_for o g fi i (item_of o d fi i).
Proof.
  intros o g fi d i C E I. pose proof (check_roi_at o g fi d i C E I) as R. pose proof (is_valid_spec (place fi i)) as W. unfold item_of, item_for.
  destruct (check_roi d i); destruct (is_valid (place fi i)); cbn [andb]; split; intros H; try reflexivity; exfalso.
  - apply H. split; [now apply R|now apply W].
  - destruct H as (_ & H). apply W in H. discriminate.
  - destruct H as (H & _). apply R in H. discriminate.
  - destruct H as (H & _). apply R in H. discriminate.
Qed.

(** * A stretch of a file *)
Lemma nth_cut : forall (l : list cell) a b j, j < b - a -> nth j (firstn (b - a) (skipn a l)) (CNum 0) = nth (a + j) l (CNum 0).
Proof.
  intros l a b j L. transitivity (nth j (skipn a l) (CNum 0)).
  - destruct (Nat.lt_ge_cases j (length (skipn a l))) as [H|H].
    + rewrite <- (firstn_skipn (b - a) (skipn a l)) at 2. rewrite app_nth1; [reflexivity|]. rewrite firstn_length. lia.
    + rewrite !nth_overflow; [reflexivity|lia|rewrite firstn_length; lia].
  - clear. revert l. induction a as [|a IH]; intros l; [reflexivity|]. destruct l; [destruct j; reflexivity|]. cbn. apply IH.
Qed.
Lemma cut_at : forall fi a b j x, j < b - a -> at_ (cut a b fi) j x = at_ fi (a + j) x.
Proof. intros. unfold at_, cut. cbn [f_var]. now apply nth_cut. Qed.
Lemma cut_record : forall o fi a b j, j < b - a -> record_at o (cut a b fi) j = record_at o fi (a + j).
Proof. intros o fi a b j L. unfold record_at, delay_at, number_at. now rewrite !(cut_at fi a b j) by exact L. Qed.
Lemma cut_place : forall fi a b j, j < b - a -> place (cut a b fi) j = place fi (a + j).
Proof. intros fi a b j L. unfold place. now rewrite !(cut_at fi a b j) by exact L. Qed.
Lemma Forall_cut : forall A (Q : A -> Prop) n a l, Forall Q l -> Forall Q (firstn n (skipn a l)).
Proof.
  intros A Q n a l F. apply Forall_forall. intros x I. rewrite Forall_forall in F. apply F.
  rewrite <- (firstn_skipn a l). apply in_app_iff. right. rewrite <- (firstn_skipn n (skipn a l)). apply in_app_iff. now left.
Qed.
Lemma cut_complete : forall o fi a b, complete o fi -> b <= f_size fi -> complete o (cut a b fi).
Proof.
  intros o fi a b (L & X & T & P) B. unfold complete, cut. cbn [f_var f_size]. split; [|split; [|split; [|exact P]]].
  - intros v I. rewrite firstn_length, skipn_length, (L v I). lia.
  - intros v I. apply Forall_cut. now apply X.
  - apply Forall_cut. exact T.
Qed.
Lemma seq_map_ext : forall A (f g : nat -> A) n a, (forall j, j < n -> f (a + j) = g j) -> map f (seq a n) = map g (seq 0 n).
Proof.
  intros A f g n a H. assert (G : forall m c, (forall j, j < m -> f (a + (c + j)) = g (c + j)) -> map f (seq (a + c) m) = map g (seq c m)).
  { intros m. induction m as [|m IH]; intros c K; [reflexivity|]. cbn [seq map]. f_equal.
    - specialize (K 0 ltac:(lia)). now rewrite Nat.add_0_r in K.
    - rewrite <- Nat.add_succ_r. apply IH. intros j J. specialize (K (S j) ltac:(lia)). now rewrite Nat.add_succ_r in K. }
  specialize (G n 0). rewrite Nat.add_0_r in G. apply G. exact H.
Qed.
Lemma stretch_open : forall o g fi a b, complete o fi -> g <> everywhere -> stretch g fi a b ->
  exists d, open_dataset g (positions fi) = Ok d /\ d_start d = a /\ d_final d = b.
Proof.
  intros o g fi a b C N ((L1 & L2) & S).
  destruct (open_dataset g (positions fi)) as [d|e] eqn:E.
  - exists d. split; [reflexivity|]. destruct (opened o g fi d C E) as (_ & _ & _ & H). destruct (H N) as (H1 & H2 & H3 & H4).
    pose proof (proj2 (S a ltac:(lia)) ltac:(lia)) as IA. pose proof (proj2 (S b ltac:(lia)) ltac:(lia)) as IB.
    pose proof (H1 a ltac:(lia) IA). pose proof (H1 b ltac:(lia) IB). apply (S _ H3) in H4. apply (S (d_start d) ltac:(lia)) in H2. lia.
  - exfalso. unfold open_dataset in E. pose proof (inside_argwhere g (positions fi) a) as IA.
    destruct (roi_enabled g); [|discriminate]. destruct (argwhere_from 0 (map (roi_pass g) (positions fi))); [|discriminate].
    apply IA. apply (inside_pos o g fi a C). split; [lia|]. apply S; lia.
Qed.
Lemma stretch_delivered : forall o g fi a b, complete o fi -> g <> everywhere -> stretch g fi a b ->
  delivered o g fi = delivered o everywhere (cut a b fi).
Proof.
  intros o g fi a b C N S. pose proof S as ((L1 & L2) & _). destruct (stretch_open o g fi a b C N S) as (d & E & Da & Db).
  rewrite (delivered_is o g fi d C E), Da, Db.
  assert (Cc : complete o (cut a b fi)) by (apply cut_complete; [exact C|lia]).
  destruct (open_dataset everywhere (positions (cut a b fi))) as [d'|e] eqn:E'; [|discriminate E'].
  rewrite (delivered_is o everywhere (cut a b fi) d' Cc E'). destruct (opened _ _ _ _ Cc E') as (_ & _ & H & _).
  destruct (H eq_refl) as (-> & ->). cbn [cut f_size]. rewrite Nat.sub_0_r. f_equal. apply seq_map_ext. intros j J.
  unfold item_of. rewrite cut_record, cut_place by exact J.
  assert (R1 : check_roi d (a + j) = true) by (apply (check_roi_at o g fi d _ C E); [lia|]; apply (proj2 S); lia).
  assert (R2 : check_roi d' j = true) by (apply (check_roi_at o everywhere _ d' _ Cc E'); [cbn; lia|apply in_everywhere]).
  now rewrite R1, R2.
Qed.
