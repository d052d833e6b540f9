(** Proofs for C22-C25. *)
From Coq Require Import List ZArith QArith Qround Bool Lia Lqa.
From Verif Require Import Common MlookModel MlookSpec.
Import ListNotations.
Local Open Scope nat_scope.

(* ---------- vectors ---------- *)
Lemma vzip_ok : forall f a b, length a = length b -> exists r, vzip f a b = Ok r.
Proof.
  induction a as [|x a IH]; intros [|y b] H; cbn in *; try discriminate; eauto.
  destruct (IH b) as [r ->]; eauto. cbn. eauto.
Qed.

Lemma vzip_spec : forall f a b r, vzip f a b = Ok r ->
  length r = length a /\ length r = length b /\
  forall j, j < length r -> nth j r 0%Q = f (nth j a 0%Q) (nth j b 0%Q).
Proof.
  induction a as [|x a IH]; intros [|y b] r H; cbn in H; try discriminate.
  - inversion H; subst. cbn. repeat split; auto. intros; lia.
  - destruct (vzip f a b) as [r'|] eqn:E; cbn in H; [|discriminate].
    inversion H; subst. destruct (IH b r' E) as (H1 & H2 & H3). cbn.
    repeat split; try lia. intros [|j] Hj; auto. apply H3. lia.
Qed.

Lemma nth_repeat0 : forall n j, nth j (repeat 0%Q n) 0%Q = 0%Q.
Proof. induction n; intros [|j]; cbn; auto. Qed.

Lemma map_const_ones : forall (l : list Q) j, j < length l -> nth j (map (fun _ => 1%Q) l) 0%Q = 1%Q.
Proof. induction l; intros [|j] H; cbn in *; try lia; auto. apply IHl. lia. Qed.

Lemma sumQ_app : forall a b, (sumQ (a ++ b) == sumQ a + sumQ b)%Q.
Proof.
  induction a as [|x a IH]; intros; unfold sumQ in *; cbn [app fold_right]; [ring|].
  rewrite IH. ring.
Qed.

Lemma contrib_app : forall av j a b,
  contributions av j (a ++ b) = contributions av j a ++ contributions av j b.
Proof.
  intros. unfold contributions. rewrite filter_app, map_app. reflexivity.
Qed.

Lemma countQ_app : forall a b, (countQ (a ++ b) == countQ a + countQ b)%Q.
Proof.
  intros. unfold countQ. rewrite app_length, Nat2Z.inj_add, inject_Z_plus. reflexivity.
Qed.

(* ---------- the loop ---------- *)
Definition start_ok (P : list mbeam) (o : option nat) : Prop :=
  match o with
  | None => forall b, In b P -> keptb b = false
  | Some s => first_kept P s
  end.
Definition stop_ok (P : list mbeam) (o : option nat) : Prop :=
  match o with
  | None => forall b, In b P -> keptb b = false
  | Some s => last_kept P s
  end.

Record inv (avoid : bool) (nsamp : nat) (P : list mbeam) (a : acc) : Prop := {
  i_sum : length (c_sum a) = nsamp;
  i_cnt : length (c_cnt a) = nsamp;
  i_vsum : forall j, j < nsamp -> (nth j (c_sum a) 0 == sumQ (contributions avoid j P))%Q;
  i_vcnt : forall j, j < nsamp -> (nth j (c_cnt a) 0 == countQ (contributions avoid j P))%Q;
  i_n : c_n a = length (filter keptb P);
  i_start : start_ok P (c_start a);
  i_stop : stop_ok P (c_stop a)
}.

Lemma kept_false : forall b, keptb b = false <-> Qeq_bool (m_vec b) 0 = true.
Proof. intro b. unfold keptb. destruct (Qeq_bool (m_vec b) 0); cbn; intuition congruence. Qed.

Lemma contrib_masked : forall av j b, keptb b = false -> contributions av j [b] = [].
Proof. intros av j b H. unfold contributions. cbn. rewrite H. reflexivity. Qed.

Lemma nth_snoc : forall (P : list mbeam) b i c, nth_error (P ++ [b]) i = Some c ->
  nth_error P i = Some c \/ (i = length P /\ c = b).
Proof.
  intros P b i c H. destruct (lt_dec i (length P)).
  - rewrite nth_error_app1 in H by auto. auto.
  - rewrite nth_error_app2 in H by lia.
    destruct (i - length P) as [|k] eqn:E; cbn in H.
    + inversion H. right. split; auto. lia.
    + destruct k; discriminate.
Qed.

Lemma first_kept_grow : forall P b s, first_kept P s -> first_kept (P ++ [b]) s.
Proof.
  intros P b s (c & H1 & H2 & H3). exists c.
  assert (s < length P) by (apply nth_error_Some; congruence).
  repeat split; auto. { rewrite nth_error_app1; auto. }
  intros i d Hi Hd. apply nth_snoc in Hd. destruct Hd as [Hd|[-> _]]; [eauto|lia].
Qed.

Lemma step_inv : forall avoid nsamp P b a a',
  inv avoid nsamp P a -> well_formed nsamp b ->
  mlook_step avoid (length P) b a = Ok a' -> inv avoid nsamp (P ++ [b]) a'.
Proof.
  intros avoid nsamp P b a a' I W H. destruct I as [I1 I2 I3 I4 I5 I6 I7].
  destruct W as (W1 & W2 & W3). unfold mlook_step in H.
  destruct (Qeq_bool (m_vec b) 0) eqn:EV.
  - assert (K : keptb b = false) by (apply kept_false; auto).
    inversion H; subst a'. constructor; auto.
    + intros j Hj. rewrite contrib_app, contrib_masked, app_nil_r by auto. auto.
    + intros j Hj. rewrite contrib_app, contrib_masked, app_nil_r by auto. auto.
    + rewrite filter_app. cbn. rewrite K, app_nil_r. auto.
    + destruct (c_start a) as [s|]; cbn in *.
      * apply first_kept_grow; auto.
      * intros c Hc. apply in_app_or in Hc. destruct Hc as [Hc|[<-|[]]]; auto.
    + destruct (c_stop a) as [t|]; cbn in *.
      * destruct I7 as (c & H1 & H2 & H3). exists c.
        assert (t < length P) by (apply nth_error_Some; congruence).
        repeat split; auto. { rewrite nth_error_app1; auto. }
        intros i d Hi Hd. apply nth_snoc in Hd. destruct Hd as [Hd|[-> ->]]; eauto.
      * intros c Hc. apply in_app_or in Hc. destruct Hc as [Hc|[<-|[]]]; auto.
  - assert (K : keptb b = true) by (unfold keptb; rewrite EV; reflexivity).
    set (mask := if avoid then m_mask b else map (fun _ => 1%Q) (c_sum a)) in *.
    destruct (vzip Qmult (m_row b) mask) as [prod|] eqn:E1; cbn [bind] in H; [|discriminate].
    destruct (vzip Qplus (c_sum a) prod) as [s|] eqn:E2; cbn [bind] in H; [|discriminate].
    destruct (vzip Qplus (c_cnt a) mask) as [c|] eqn:E3; cbn [bind] in H; [|discriminate].
    inversion H; subst a'; clear H. cbn [c_n c_start c_stop c_sum c_cnt].
    apply vzip_spec in E1, E2, E3.
    destruct E1 as (A1 & A2 & A3), E2 as (B1 & B2 & B3), E3 as (C1 & C2 & C3).
    assert (M : forall j, j < nsamp ->
       contributions avoid j [b] = (if avoid then
          if Qeq_bool (nth j (m_mask b) 0%Q) 0 then [] else [nth j (m_row b) 0] else [nth j (m_row b) 0])%Q
       /\ (nth j mask 0 == countQ (contributions avoid j [b]))%Q
       /\ (nth j (m_row b) 0 * nth j mask 0 == sumQ (contributions avoid j [b]))%Q).
    { intros j Hj. unfold contributions. cbn [filter map]. rewrite K. unfold mask.
      destruct avoid; cbn [negb andb orb].
      - destruct (Qeq_bool (nth j (m_mask b) 0%Q) 0) eqn:EM; cbn [negb map filter].
        + apply Qeq_bool_iff in EM. split; auto. split; cbn; rewrite EM; reflexivity || ring.
        + destruct (W3 (nth j (m_mask b) 0%Q)) as [HX|HX]. { apply nth_In. lia. }
          * apply Qeq_bool_iff in HX. congruence.
          * split; auto. split; cbn; rewrite HX; reflexivity || ring.
      - rewrite map_const_ones by lia. split; auto. split; cbn; reflexivity || ring. }
    constructor; cbn [c_n c_start c_stop c_sum c_cnt]; try lia.
    + intros j Hj. rewrite B3 by lia. rewrite A3 by lia.
      rewrite contrib_app, sumQ_app, I3 by auto.
      destruct (M j Hj) as (_ & _ & ->). reflexivity.
    + intros j Hj. rewrite C3 by lia.
      rewrite contrib_app, countQ_app, I4 by auto.
      destruct (M j Hj) as (_ & -> & _). reflexivity.
    + rewrite filter_app, app_length. cbn. rewrite K. cbn. lia.
    + destruct (c_start a) as [s0|]; cbn in *.
      * apply first_kept_grow; auto.
      * exists b. rewrite nth_error_app2, Nat.sub_diag by lia. repeat split; auto.
        intros i d Hi Hd. rewrite nth_error_app1 in Hd by lia.
        apply I6. apply nth_error_In in Hd. auto.
    + cbn. exists b. rewrite nth_error_app2, Nat.sub_diag by lia. repeat split; auto.
      intros i d Hi Hd. assert (i < length (P ++ [b])) by (apply nth_error_Some; congruence).
      rewrite app_length in *. cbn in *. lia.
Qed.

Lemma loop_inv : forall avoid nsamp beams P a a',
  inv avoid nsamp P a -> Forall (well_formed nsamp) beams ->
  mlook_loop avoid (length P) beams a = Ok a' -> inv avoid nsamp (P ++ beams) a'.
Proof.
  induction beams as [|b r IH]; intros P a a' I W H.
  - cbn in H. inversion H; subst. rewrite app_nil_r. auto.
  - cbn in H. destruct (mlook_step avoid (length P) b a) as [a1|] eqn:E; cbn in H; [|discriminate].
    inversion W; subst. replace (P ++ b :: r) with ((P ++ [b]) ++ r) by (rewrite <- app_assoc; auto).
    apply IH with a1; auto.
    + eapply step_inv; eauto.
    + rewrite app_length. cbn. rewrite Nat.add_1_r. auto.
Qed.

Definition acc0 (nsamp : nat) : acc :=
  {| c_n := 0; c_start := None; c_stop := None;
     c_sum := repeat 0%Q nsamp; c_cnt := repeat 0%Q nsamp |}.

Lemma inv0 : forall avoid nsamp, inv avoid nsamp [] (acc0 nsamp).
Proof.
  intros. constructor; cbn; rewrite ?repeat_length; auto.
  - intros. rewrite nth_repeat0. reflexivity.
  - intros. rewrite nth_repeat0. reflexivity.
  - intros b [].
  - intros b [].
Qed.

Lemma step_ok : forall avoid nsamp i b a, well_formed nsamp b ->
  length (c_sum a) = nsamp -> length (c_cnt a) = nsamp ->
  exists a', mlook_step avoid i b a = Ok a' /\ length (c_sum a') = nsamp /\ length (c_cnt a') = nsamp.
Proof.
  intros avoid nsamp i b a (W1 & W2 & W3) L1 L2. unfold mlook_step.
  destruct (Qeq_bool (m_vec b) 0); [eauto|].
  set (mask := if avoid then m_mask b else map (fun _ => 1%Q) (c_sum a)).
  assert (LM : length mask = nsamp) by (unfold mask; destruct avoid; rewrite ?map_length; auto).
  destruct (vzip_ok Qmult (m_row b) mask) as [p E1]; [lia|]. rewrite E1. cbn [bind].
  pose proof (vzip_spec _ _ _ _ E1) as (A1 & _).
  destruct (vzip_ok Qplus (c_sum a) p) as [s E2]; [lia|]. rewrite E2. cbn [bind].
  pose proof (vzip_spec _ _ _ _ E2) as (A2 & _).
  destruct (vzip_ok Qplus (c_cnt a) mask) as [c E3]; [lia|]. rewrite E3. cbn [bind].
  pose proof (vzip_spec _ _ _ _ E3) as (A3 & _).
  eexists. split; [reflexivity|]. cbn. split; lia.
Qed.

Lemma loop_ok : forall avoid nsamp beams i a, Forall (well_formed nsamp) beams ->
  length (c_sum a) = nsamp -> length (c_cnt a) = nsamp ->
  exists a', mlook_loop avoid i beams a = Ok a'.
Proof.
  induction beams as [|b r IH]; intros i a W L1 L2; cbn; eauto.
  inversion W; subst. destruct (step_ok avoid (length (c_sum a)) i b a) as (a1 & E & A1 & A2); auto.
  rewrite E. cbn. apply IH; auto; congruence.
Qed.

(** the accumulated state of a well-formed stack *)
Lemma multilook_acc : forall avoid nlooks nsamp size beams,
  Nat.min nlooks size <= length beams ->
  Forall (well_formed nsamp) (firstn (Nat.min nlooks size) beams) ->
  exists a, mlook_loop avoid 0 (firstn (Nat.min nlooks size) beams) (acc0 nsamp) = Ok a /\
    inv avoid nsamp (firstn (Nat.min nlooks size) beams) a.
Proof.
  intros avoid nlooks nsamp size beams HL W.
  destruct (loop_ok avoid nsamp (firstn (Nat.min nlooks size) beams) 0 (acc0 nsamp)) as [a E]; auto.
  { apply repeat_length. } { apply repeat_length. }
  exists a. split; auto.
  change (firstn (Nat.min nlooks size) beams) with ([] ++ firstn (Nat.min nlooks size) beams).
  apply loop_inv with (acc0 nsamp); auto. apply inv0.
Qed.

Lemma divide_nth : forall s c j, j < length s -> length s = length c ->
  nth_error (divide s c) j
  = Some (if Qeq_bool (nth j c 0%Q) 0 then None else Some (nth j s 0 / nth j c 0))%Q.
Proof.
  intros s c j Hj HL. unfold divide. rewrite nth_error_map.
  replace (nth_error (combine s c) j) with (Some (nth j s 0, nth j c 0)%Q). { reflexivity. }
  symmetry. rewrite nth_error_nth' with (d := (0, 0)%Q) by (rewrite combine_length; lia).
  rewrite combine_nth by auto. reflexivity.
Qed.

Lemma countQ_zero : forall l, Qeq_bool (countQ l) 0 = true <-> l = [].
Proof.
  intro l. rewrite Qeq_bool_iff. unfold countQ. split.
  - intro H. destruct l; auto. exfalso. unfold Qeq in H. cbn in H. lia.
  - intros ->. reflexivity.
Qed.

Lemma first_unique : forall P s s', first_kept P s -> first_kept P s' -> s = s'.
Proof.
  intros P s s' (b & H1 & H2 & H3) (b' & H1' & H2' & H3').
  destruct (lt_eq_lt_dec s s') as [[L|E]|L]; auto; exfalso.
  - specialize (H3' s b L H1). congruence.
  - specialize (H3 s' b' L H1'). congruence.
Qed.
Lemma last_unique : forall P s s', last_kept P s -> last_kept P s' -> s = s'.
Proof.
  intros P s s' (b & H1 & H2 & H3) (b' & H1' & H2' & H3').
  destruct (lt_eq_lt_dec s s') as [[L|E]|L]; auto; exfalso.
  - specialize (H3 s' b' L H1'). congruence.
  - specialize (H3' s b L H1). congruence.
Qed.

Lemma nth_error_firstn : forall A (l : list A) k i, i < k -> nth_error (firstn k l) i = nth_error l i.
Proof. induction l; intros [|k] [|i] H; cbn; auto; try lia. apply IHl. lia. Qed.

Lemma kept_start_stop : forall P s t, first_kept P s -> last_kept P t -> s <= t.
Proof.
  intros P s t (b & H1 & H2 & H3) (c & H1' & H2' & H3').
  destruct (le_lt_dec s t); auto. specialize (H3 t c l H1'). congruence.
Qed.

Lemma filter_none : forall A (f : A -> bool) l, (forall x, In x l -> f x = false) -> filter f l = [].
Proof.
  induction l; cbn; intros H; auto. rewrite H by auto. apply IHl. auto.
Qed.

Lemma kept_count : forall P s t, first_kept P s -> last_kept P t ->
  length (filter keptb P) <= S t - s.
Proof.
  intros P s t F L.
  pose proof (kept_start_stop _ _ _ F L) as ST.
  destruct F as (b & H1 & H2 & H3), L as (c & H1' & H2' & H3').
  assert (Ht : t < length P) by (apply nth_error_Some; congruence).
  rewrite <- (firstn_skipn s P) at 1. rewrite filter_app.
  rewrite (filter_none _ keptb (firstn s P)).
  2:{ intros x Hx. apply In_nth_error in Hx. destruct Hx as [i Hi].
      assert (i < length (firstn s P)) by (apply nth_error_Some; congruence).
      rewrite firstn_length in *.
      rewrite nth_error_firstn in Hi by lia. apply (H3 i); auto. lia. }
  cbn [app]. rewrite <- (firstn_skipn (S t - s) (skipn s P)) at 1. rewrite filter_app.
  rewrite (filter_none _ keptb (skipn (S t - s) (skipn s P))).
  2:{ intros x Hx. apply In_nth_error in Hx. destruct Hx as [i Hi].
      assert (SK : forall (l : list mbeam) k q, nth_error (skipn k l) q = nth_error l (k + q)).
      { clear. induction l; intros [|k] q; cbn; auto. destruct q; auto. }
      rewrite !SK in Hi. apply (H3' (s + (S t - s + i))); auto. lia. }
  rewrite app_nil_r.
  assert (FL : forall (l : list mbeam), length (filter keptb l) <= length l).
  { clear. induction l; cbn; auto. destruct (keptb a); cbn; lia. }
  specialize (FL (firstn (S t - s) (skipn s P))). rewrite firstn_length in FL. lia.
Qed.

(* ---------- antenna weights ---------- *)
Lemma get_w_nat : forall l i, i < length l -> get_w l (Z.of_nat i) = Ok (nth i l 0%Q).
Proof.
  intros l i H. unfold get_w, py_get. rewrite py_pos_nonneg by auto.
  rewrite nth_error_nth' with (d := 0%Q) by auto. reflexivity.
Qed.

Lemma get_w_last : forall l, 0 < length l -> get_w l (-1) = Ok (nth (length l - 1) l 0%Q).
Proof.
  intros l H. unfold get_w, py_get, py_pos.
  replace (0 <=? -1)%Z with false by reflexivity.
  replace (- Z.of_nat (length l) <=? -1)%Z with true by lia.
  replace (Z.to_nat (Z.of_nat (length l) + -1)) with (length l - 1) by lia.
  rewrite nth_error_nth' with (d := 0%Q) by lia. reflexivity.
Qed.

Lemma get_w_first : forall l, 0 < length l -> get_w l 0 = Ok (nth 0 l 0%Q).
Proof. intros. apply (get_w_nat l 0). auto. Qed.

(** truncation of a non-negative rational is its floor *)
Lemma trunc_floor : forall q, (0 <= q)%Q -> q_trunc q = Qfloor q.
Proof.
  intros [n d] H. unfold q_trunc, Qfloor. cbn. unfold Qle in H. cbn in H.
  apply Z.quot_div_nonneg; lia.
Qed.

Section Table.
Variable t : antenna.
Hypothesis HT : regular_table t.
Let n := length (a_angles t).
Let h := a_spacing t.
Let a0 := nth 0 (a_angles t) 0%Q.

Lemma inside_index : forall x, (a0 < x)%Q -> (x < nth (n - 1) (a_angles t) 0)%Q ->
  exists i, S i < n /\ q_trunc ((x - a0) / h) = Z.of_nat i /\
    (nth i (a_angles t) 0 <= x)%Q /\ (x < nth (S i) (a_angles t) 0)%Q.
Proof.
  intros x H1 H2. destruct HT as (Hh & Hn & _ & HA). fold n in Hn, HA. fold h in Hh, HA. fold a0 in HA.
  assert (Hq : (0 <= (x - a0) / h)%Q).
  { apply Qle_shift_div_l; auto. lra. }
  pose proof (Qfloor_le ((x - a0) / h)) as F1.
  pose proof (Qlt_floor ((x - a0) / h)) as F2.
  assert (F0 : (0 <= Qfloor ((x - a0) / h))%Z).
  { change 0%Z with (Qfloor 0). apply Qfloor_resp_le. auto. }
  set (f := Qfloor ((x - a0) / h)) in *.
  exists (Z.to_nat f).
  assert (Ef : Z.of_nat (Z.to_nat f) = f) by lia.
  assert (U1 : (inject_Z f * h <= x - a0)%Q).
  { apply (Qmult_le_r _ _ h Hh) in F1.
    setoid_replace ((x - a0) / h * h)%Q with (x - a0)%Q in F1 by (field; lra). auto. }
  assert (U2 : (x - a0 < inject_Z (f + 1) * h)%Q).
  { apply (Qmult_lt_r _ _ h Hh) in F2.
    setoid_replace ((x - a0) / h * h)%Q with (x - a0)%Q in F2 by (field; lra). auto. }
  assert (Hlast : (nth (n - 1) (a_angles t) 0 == a0 + inject_Z (Z.of_nat (n - 1)) * h)%Q)
    by (apply HA; lia).
  assert (HB : S (Z.to_nat f) < n).
  { assert (HZ : (inject_Z f * h < inject_Z (Z.of_nat (n - 1)) * h)%Q) by lra.
    apply (proj1 (Qmult_lt_r _ _ h Hh)) in HZ. rewrite <- Zlt_Qlt in HZ. lia. }
  split; auto. split. { rewrite Ef. apply trunc_floor. auto. }
  split.
  - rewrite HA by lia. rewrite Ef. lra.
  - rewrite HA by lia. rewrite Nat2Z.inj_succ, Ef. unfold Z.succ. lra.
Qed.

Lemma select_inside : forall x, (a0 < x)%Q -> (x < nth (n - 1) (a_angles t) 0)%Q ->
  exists i w, S i < n /\ (nth i (a_angles t) 0 <= x)%Q /\ (x < nth (S i) (a_angles t) 0)%Q /\
    select_weight t x = Ok w /\
    w = (nth i (a_weights t) 0 + (x - nth i (a_weights t) 0) / h
          * (nth (S i) (a_weights t) 0 - nth i (a_weights t) 0))%Q.
Proof.
  intros x H1 H2. destruct (inside_index x H1 H2) as (i & Hi & Et & Hl & Hr).
  destruct HT as (Hh & Hn & HW & HA). fold n in Hn, HW, HA. fold h in Hh, HA. fold a0 in HA.
  eexists i, _. split; auto. split; auto. split; auto. split; [|reflexivity].
  unfold select_weight. rewrite get_w_first by (fold n; lia). cbn [bind]. fold a0 h.
  destruct (Qle_bool x a0) eqn:E1. { apply Qle_bool_iff in E1. lra. }
  rewrite get_w_last by (fold n; lia). cbn [bind]. fold n.
  destruct (Qle_bool (nth (n - 1) (a_angles t) 0%Q) x) eqn:E2. { apply Qle_bool_iff in E2. lra. }
  rewrite Et. rewrite get_w_nat by lia. cbn [bind].
  replace (Z.of_nat i + 1)%Z with (Z.of_nat (S i)) by lia.
  rewrite get_w_nat by lia. cbn [bind]. reflexivity.
Qed.
End Table.
