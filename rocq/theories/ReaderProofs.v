From Coq Require Import List ZArith QArith Bool Lia Arith ZifyBool.
From Verif Require Import Common ReaderModel ReaderSpec.
Import ListNotations.

Lemma nth_error_firstn_lt : forall A (l : list A) n i, (i < n)%nat ->
  nth_error (firstn n l) i = nth_error l i.
Proof. induction l; intros [|n] [|i] H; cbn; auto; try lia. apply IHl. lia. Qed.
Lemma nth_error_skipn_add : forall A (l : list A) n i,
  nth_error (skipn n l) i = nth_error l (n + i).
Proof. induction l; intros [|n] i; cbn; auto. destruct i; auto. Qed.

Section Proofs.
  Variable V A : Type.
  Variable data : V -> list A.
  Variable size : Z.
  Hypothesis Hsize : (0 < size)%Z.

  (** A non-negative loaded chunk holds the file's data for every variable that
      reaches it. *)
  Definition good (r : reader V A) : Prop :=
    forall c v, chunk r = Some c -> (0 <= c)%Z -> (c < Z.of_nat (length (data v)))%Z ->
      cache r v = Some (firstn (Z.to_nat size) (skipn (Z.to_nat c) (data v))).

  Lemma good_fresh : good fresh.
  Proof. intros c v H. discriminate. Qed.

  Lemma good_load : forall s r, good (load_chunk data size s r).
  Proof.
    intros s r c v Hc H0 H1. cbn in Hc. inversion Hc; subst c. unfold load_chunk. cbn [cache].
    destruct (Z.leb_spec (Z.of_nat (length (data v))) s); [lia|]. f_equal.
    unfold py_slice, py_clip.
    replace (0 <=? s)%Z with true by lia.
    replace (0 <=? Z.min (Z.of_nat (length (data v))) (s + size))%Z with true by lia.
    set (L := length (data v)) in *.
    assert (E1 : Nat.min L (Z.to_nat s) = Z.to_nat s) by lia. rewrite E1.
    assert (E2 : Nat.min L (Z.to_nat (Z.min (Z.of_nat L) (s + size))) = Nat.min L (Z.to_nat s + Z.to_nat size)) by lia.
    rewrite E2.
    destruct (Nat.le_gt_cases (Z.to_nat s + Z.to_nat size) L) as [Hle|Hgt].
    - f_equal. lia.
    - rewrite !firstn_all2; auto; rewrite skipn_length; fold L; lia.
  Qed.

  Lemma good_get : forall v i r, good r -> good (snd (get_value data size v i r)).
  Proof.
    intros v i r G. unfold get_value. cbn [snd].
    destruct (chunk r) as [c|]; [destruct (Z.eqb_spec c (i - i mod size)); auto|]; apply good_load.
  Qed.

  Lemma get_in_range : forall v i r, good r -> (0 <= i < Z.of_nat (length (data v)))%Z ->
    exists a, nth_error (data v) (Z.to_nat i) = Some a /\ fst (get_value data size v i r) = Ok a.
  Proof.
    intros v i r G Hi. pose proof (Z.mod_pos_bound i size Hsize) as Hm.
    assert (Hs0 : (0 <= i - i mod size)%Z) by (pose proof (Z.mod_le i size); lia).
    set (m := (i mod size)%Z) in *.
    set (r' := match chunk r with
              | Some c => if (c =? i - m)%Z then r else load_chunk data size (i - m) r
              | None => load_chunk data size (i - m) r end).
    assert (G' : good r').
    { unfold r'. destruct (chunk r) as [c|]; [destruct (Z.eqb_spec c (i - m)); auto|]; apply good_load. }
    assert (C' : chunk r' = Some (i - m)%Z).
    { unfold r'. destruct (chunk r) as [c|] eqn:E; [|reflexivity].
      destruct (Z.eqb_spec c (i - m)); [subst; auto|reflexivity]. }
    destruct (nth_error (data v) (Z.to_nat i)) as [a|] eqn:E.
    2:{ apply nth_error_None in E. lia. }
    exists a. split; auto. unfold get_value. fold m. cbn [fst]. fold r'.
    rewrite (G' (i - m)%Z v C' Hs0 ltac:(lia)). unfold py_get, py_pos.
    set (l := firstn (Z.to_nat size) (skipn (Z.to_nat (i - m)) (data v))).
    assert (Ll : length l = Nat.min (Z.to_nat size) (length (data v) - Z.to_nat (i - m))).
    { unfold l. rewrite firstn_length, skipn_length. auto. }
    replace (0 <=? m)%Z with true by lia.
    replace (m <? Z.of_nat (length l))%Z with true by (rewrite Ll; lia).
    unfold l. rewrite nth_error_firstn_lt by lia. rewrite nth_error_skipn_add.
    replace (Z.to_nat (i - m) + Z.to_nat m)%nat with (Z.to_nat i) by lia. rewrite E. auto.
  Qed.

  Lemma reads_good : forall ops r, good r -> good (snd (reads data size ops r)).
  Proof.
    induction ops as [|[v i] ops IH]; intros r G; cbn [reads]; auto.
    pose proof (good_get v i r G) as G1. destruct (get_value data size v i r) as [x r1].
    cbn [snd] in G1. specialize (IH r1 G1). destruct (reads data size ops r1) as [xs r2]. auto.
  Qed.

  Lemma reads_length : forall ops r, length (fst (reads data size ops r)) = length ops.
  Proof.
    induction ops as [|[v i] ops IH]; intros r; cbn [reads]; auto.
    destruct (get_value data size v i r) as [x r1]. specialize (IH r1).
    destruct (reads data size ops r1) as [xs r2]. cbn in *. auto.
  Qed.

  Lemma reads_nth : forall ops r k v i, nth_error ops k = Some (v, i) ->
    nth_error (fst (reads data size ops r)) k
    = Some (fst (get_value data size v i (snd (reads data size (firstn k ops) r)))).
  Proof.
    induction ops as [|[v0 i0] ops IH]; intros r k v i H; [destruct k; discriminate|].
    cbn [reads]. destruct k.
    - cbn in H. inversion H; subst. cbn [firstn reads snd].
      destruct (get_value data size v i r) as [x r1] eqn:E. cbn [snd] in *.
      destruct (reads data size ops r1). cbn. auto.
    - cbn in H. cbn [firstn reads].
      destruct (get_value data size v0 i0 r) as [x r1] eqn:E.
      specialize (IH r1 k v i H).
      destruct (reads data size ops r1) as [xs r2]. cbn [fst nth_error] in *. rewrite IH.
      destruct (reads data size (firstn k ops) r1); auto.
  Qed.

  (** A chunk that still overlaps the variable never serves an index beyond its end. *)
  Lemma get_past_end : forall v i r, good r ->
    (Z.of_nat (length (data v)) <= i)%Z -> (i - i mod size < Z.of_nat (length (data v)))%Z -> (0 <= i)%Z ->
    fst (get_value data size v i r) = Err EIndex.
  Proof.
    intros v i r G H1 H2 H0. pose proof (Z.mod_pos_bound i size Hsize) as Hm.
    assert (Hs0 : (0 <= i - i mod size)%Z) by (pose proof (Z.mod_le i size); lia).
    set (m := (i mod size)%Z) in *.
    set (r' := match chunk r with
              | Some c => if (c =? i - m)%Z then r else load_chunk data size (i - m) r
              | None => load_chunk data size (i - m) r end).
    assert (G' : good r').
    { unfold r'. destruct (chunk r) as [c|]; [destruct (Z.eqb_spec c (i - m)); auto|]; apply good_load. }
    assert (C' : chunk r' = Some (i - m)%Z).
    { unfold r'. destruct (chunk r) as [c|] eqn:E; [|reflexivity].
      destruct (Z.eqb_spec c (i - m)); [subst; auto|reflexivity]. }
    unfold get_value. fold m. cbn [fst]. fold r'.
    rewrite (G' (i - m)%Z v C' Hs0 ltac:(lia)). unfold py_get, py_pos.
    set (l := firstn (Z.to_nat size) (skipn (Z.to_nat (i - m)) (data v))).
    assert (Ll : length l = Nat.min (Z.to_nat size) (length (data v) - Z.to_nat (i - m))).
    { unfold l. rewrite firstn_length, skipn_length. auto. }
    replace (0 <=? m)%Z with true by lia.
    replace (m <? Z.of_nat (length l))%Z with false by (rewrite Ll; lia). auto.
  Qed.
End Proofs.

(* ------------------------------------------------------------------ *)

Lemma argwhere_spec : forall l s i, In i (argwhere_from s l) <-> (s <= i)%nat /\ nth (i - s) l false = true /\ (i - s < length l)%nat.
Proof.
  induction l as [|b l IH]; intros s i; cbn [argwhere_from].
  - cbn. split; [tauto|]. intros (_ & H & _). destruct (i - s)%nat; discriminate.
  - assert (T : In i (argwhere_from (S s) l) <-> (s <= i)%nat /\ i <> s /\ nth (i - s) (b :: l) false = true /\ (i - s < length (b :: l))%nat).
    { rewrite IH. split.
      - intros (H1 & H2 & H3). replace (i - s)%nat with (S (i - S s)) by lia. cbn. repeat split; auto; lia.
      - intros (H1 & H2 & H3 & H4). replace (i - s)%nat with (S (i - S s)) in H3, H4 by lia. cbn in H3, H4.
        repeat split; auto; lia. }
    destruct b.
    + cbn [In]. rewrite T. split.
      * intros [->|(H1 & H2 & H3 & H4)]; [rewrite Nat.sub_diag; cbn; repeat split; auto; lia|auto].
      * intros (H1 & H2 & H3). destruct (Nat.eq_dec s i); [left; auto|right; repeat split; auto].
    + rewrite T. split; [tauto|]. intros (H1 & H2 & H3). repeat split; auto. intro E. subst.
      rewrite Nat.sub_diag in H2. cbn in H2. discriminate.
Qed.

Lemma list_min_spec : forall l d, In (list_min d l) (d :: l) /\ forall x, In x (d :: l) -> (list_min d l <= x)%nat.
Proof.
  induction l as [|a l IH]; intros d; cbn [list_min].
  - split; [left; auto|]. intros x [->|[]]; auto.
  - destruct (IH (Nat.min d a)) as [H1 H2]. split.
    + destruct H1 as [H1|H1]; [|right; right; auto].
      rewrite <- H1. destruct (Nat.min_spec d a) as [[_ ->]|[_ ->]]; [left|right; left]; auto.
    + intros x [->|[->|Hx]].
      * specialize (H2 (Nat.min x a) (or_introl eq_refl)). lia.
      * specialize (H2 (Nat.min d x) (or_introl eq_refl)). lia.
      * apply H2. right. auto.
Qed.
Lemma list_max_spec : forall l d, In (list_max d l) (d :: l) /\ forall x, In x (d :: l) -> (x <= list_max d l)%nat.
Proof.
  induction l as [|a l IH]; intros d; cbn [list_max].
  - split; [left; auto|]. intros x [->|[]]; auto.
  - destruct (IH (Nat.max d a)) as [H1 H2]. split.
    + destruct H1 as [H1|H1]; [|right; right; auto].
      rewrite <- H1. destruct (Nat.max_spec d a) as [[_ ->]|[_ ->]]; [right; left|left]; auto.
    + intros x [->|[->|Hx]].
      * specialize (H2 (Nat.max x a) (or_introl eq_refl)). lia.
      * specialize (H2 (Nat.max d x) (or_introl eq_refl)). lia.
      * apply H2. right. auto.
Qed.

Lemma roi_pass_spec : forall g p, roi_pass g p = true <->
  within (min_lat g) (max_lat g) (fst p) /\ within (min_lon g) (max_lon g) (snd p).
Proof.
  intros [a b c d] [x y]. unfold roi_pass, within. cbn [min_lat max_lat min_lon max_lon fst snd].
  destruct a, b, c, d; cbn [andb]; rewrite ?andb_true_iff, ?Qle_bool_iff; tauto.
Qed.

Lemma is_valid_spec : forall p, is_valid p = true <-> usable p.
Proof.
  intros p. unfold is_valid, usable. rewrite negb_true_iff.
  rewrite <- not_true_iff_false, andb_true_iff, !Qeq_bool_iff. tauto.
Qed.

Lemma next_item_eq : forall d, (d_last d < d_final d)%nat ->
  next_item d = (Ok (item_at d (d_last d)),
    {| d_pos := d_pos d; d_filter := d_filter d; d_start := d_start d;
       d_final := d_final d; d_last := S (d_last d) |}).
Proof.
  intros d H. unfold next_item, item_at. destruct (Nat.leb_spec (d_final d) (d_last d)); [lia|].
  destruct (check_roi d (d_last d)); cbn [negb andb]; auto.
  destruct (is_valid (nth (d_last d) (d_pos d) (0%Q, 0%Q))); cbn [negb]; auto.
Qed.

Lemma next_n_all : forall n d, (n + d_last d = d_final d)%nat ->
  exists d', next_n n d = (map (item_at d) (seq (d_last d) n), false, d') /\
    d_last d' = d_final d' /\ d_pos d' = d_pos d /\ d_filter d' = d_filter d /\
    d_start d' = d_start d /\ d_final d' = d_final d.
Proof.
  induction n; intros d H; cbn [next_n seq map].
  - exists d. repeat split; auto.
  - rewrite next_item_eq by lia.
    set (d1 := {| d_pos := d_pos d; d_filter := d_filter d; d_start := d_start d;
       d_final := d_final d; d_last := S (d_last d) |}).
    destruct (IHn d1) as (d' & E & R); [cbn; lia|]. rewrite E. exists d'. split; auto.
Qed.

Lemma somes_app : forall A (a b : list (option A)), somes (a ++ b) = somes a ++ somes b.
Proof. induction a as [|[x|] a IH]; cbn; intros; auto. rewrite IH. auto. Qed.

Lemma somes_map_seq : forall (f : nat -> bool) n s,
  somes (map (fun i => if f i then Some i else None) (seq s n)) = filter f (seq s n).
Proof. induction n; intros s; cbn; auto. destruct (f s); rewrite IHn; auto. Qed.

Lemma filter_seq_increasing : forall (f : nat -> bool) n s, strictly_increasing (filter f (seq s n)).
Proof.
  induction n; intros s; cbn; auto. destruct (f s); auto. cbn. split; auto.
  apply Forall_forall. intros x Hx. apply filter_In in Hx. destruct Hx as [Hx _]. apply in_seq in Hx. lia.
Qed.
