(** Completeness of stacks on passes with records without a position. *)
From Coq Require Import List ZArith QArith Bool Lia Arith Sorted.
From Coq Require Import ZifyBool ZifyNat.
From Verif Require Import Common BeamModel BeamSpec BeamProofs ChainModel ChainSpec ChainAux ChainProofs ChainInv
  ChainMain ChainFacts FullSpec FullProofs HeldSpec HoleSpec.
Import ListNotations.
Local Open Scope nat_scope.

Section Ranks.
Variable items : list item.
Notation rk := (rank items).
Notation ok := (valid_record items).

Lemma rk_S : forall n, rk (S n) = rk n + (if ok n then 1 else 0).
Proof. intros n. unfold rank, valid_numbers. rewrite seq_S, filter_app, app_length. cbn [filter plus]. destruct (ok n); reflexivity. Qed.
Lemma rk_mono : forall a b, a <= b -> rk a <= rk b.
Proof. intros a b H. induction H; [lia|]. rewrite rk_S. lia. Qed.
Lemma rk_lt : forall a b, a < b -> ok a = true -> rk a < rk b.
Proof. intros a b H V. pose proof (rk_S a) as E. rewrite V in E. pose proof (rk_mono (S a) b H). lia. Qed.
Lemma rk_inj : forall a b, ok a = true -> ok b = true -> rk a = rk b -> a = b.
Proof. intros a b A B E. destruct (Nat.lt_trichotomy a b) as [L|[L|L]]; [|exact L|]; [pose proof (rk_lt a b L A)|pose proof (rk_lt b a L B)]; lia. Qed.
Lemma rk_lt_inv : forall a b, rk a < rk b -> a < b.
Proof. intros a b H. destruct (Nat.lt_ge_cases a b) as [L|L]; [exact L|]. pose proof (rk_mono b a L). lia. Qed.
Lemma ok_nth : forall n t, nth_error items n = Some (Valid t) -> ok n = true.
Proof. intros n t H. unfold valid_record. rewrite H. reflexivity. Qed.
Lemma ok_len : forall n, ok n = true -> n < length items.
Proof. intros n H. apply nth_error_Some. unfold valid_record in H. destruct (nth_error items n); discriminate. Qed.
Lemma rk_total : forall n, ok n = true -> rk n < valid_count items.
Proof. intros n H. apply rk_lt; [apply ok_len; exact H|exact H]. Qed.
Lemma rk_at : forall n r, r < rk n -> exists u, u < n /\ ok u = true /\ rk u = r.
Proof.
  induction n as [|n IH]; intros r H; [unfold rank, valid_numbers in H; cbn in H; lia|]. rewrite rk_S in H.
  destruct (Nat.lt_ge_cases r (rk n)) as [L|L].
  - destruct (IH r L) as (u & U1 & U2 & U3). exists u. auto.
  - exists n. destruct (ok n) eqn:V; [|lia]. split; [lia|]. split; [reflexivity|]. lia.
Qed.
End Ranks.

Section Hole.
Variable cf : cfg.
Variables o o' : oracle.
Variable items : list item.
Variables lo hi : nat -> nat.
Hypothesis REG : regular cf o' lo hi.
Hypothesis AS : counted_as items o o'.
Hypothesis HCN : c_N cf + 2 + holes items <= c_min cf.
Hypothesis FIRST : forall it l, items = it :: l -> it <> Nothing.
Hypothesis GAP : gapless cf items.

Notation vis := (o_vis o').
Notation rk := (rank items).
Notation ok := (valid_record items).
Notation pr := (fun p => rk (p_uid p)).
Notation ar := (fun a => rk (a_uid a)).

Lemma HM : c_N cf + 2 <= c_min cf.
Proof. lia. Qed.
Lemma vis_rank : forall s p, ok p = true -> o_vis o s p = vis s (rk p).
Proof. exact (proj1 AS). Qed.
Lemma vis_conv : forall p, ok p = true -> forall a b c, a <= b -> b <= c -> o_vis o a p = true -> o_vis o c p = true -> o_vis o b p = true.
Proof. intros p V a b c H1 H2. rewrite !vis_rank by exact V. apply (vis_convex cf o' lo hi REG HM (rk p) a b c); assumption. Qed.

Lemma ahead_h : forall k s p, p <= S (hi k) -> vis s p = true -> S s + holes items < k + c_min cf.
Proof.
  intros k s p L V. assert (VK : vis k (hi k) = true) by (apply (r_vis _ _ _ _ REG); pose proof (lo_hi cf o' lo hi REG HM k); lia).
  destruct (Nat.le_gt_cases s k) as [S1|S1]; [lia|].
  pose proof (proj1 (r_vis _ _ _ _ REG s p) V). pose proof (hi_mono cf o' lo hi REG HM k s S1).
  destruct (Nat.eq_dec p (S (hi k))) as [->|N].
  - assert (W : vis (S k) (S (hi k)) = true).
    { apply (r_vis _ _ _ _ REG). pose proof (r_join _ _ _ _ REG k). pose proof (r_hi _ _ _ _ REG k). lia. }
    pose proof (r_cap _ _ _ _ REG _ _ _ W V). lia.
  - assert (W : vis s (hi k) = true) by (apply (r_vis _ _ _ _ REG); lia).
    pose proof (r_cap _ _ _ _ REG _ _ _ VK W). lia.
Qed.

Definition CPh (q : que) : Prop := forall a s, In a (q_az q) -> s < q_next q -> vis s (ar a) = true -> In s (a_seen a).

Lemma beam_step_h : forall k n p q seen t surfs' wseen, ok (p_uid p) = true ->
  map s_uid (q_surfs q) = seq k n -> 0 < n -> (forall s, In s (q_surfs q) -> s_counter s = s_uid s) ->
  beam_step cf o k p q = (seen, t, surfs', wseen) ->
  map skey surfs' = map skey (q_surfs q) /\
  wseen = vis k (pr p) /\ (forall s, k <= s < k + n -> vis s (pr p) = true -> In s seen).
Proof.
  intros k n p q seen t surfs' wseen VP U NP CN BS.
  destruct (bs_seen cf o q k p seen t surfs' wseen BS) as (S1 & S2 & _ & S4).
  split; [rewrite S4; apply pair_loop_key|].
  assert (RI : forall x, In x (q_surfs q) -> o_vis o (s_uid x) (p_uid p) = true ->
     In x (first_run (fun s => o_vis o (s_uid s) (p_uid p)) (q_surfs q))).
  { intros x I V. apply (run_all (fun s => o_vis o s (p_uid p)) (vis_conv (p_uid p) VP) _ k n); auto. }
  assert (AT : forall s, k <= s < k + n -> exists x, In x (q_surfs q) /\ s_uid x = s).
  { intros s B. assert (I : In s (map s_uid (q_surfs q))) by (rewrite U; apply in_seq; lia).
    apply in_map_iff in I as (x & E & I). eauto. }
  split.
  - rewrite S2. cbv beta. rewrite <- (vis_rank k _ VP). destruct (o_vis o k (p_uid p)) eqn:V.
    + destruct (AT k ltac:(lia)) as (x & X1 & X2). apply existsb_exists. exists x. split; [|now apply Nat.eqb_eq].
      apply RI; auto. now rewrite X2.
    + destruct (existsb _ _) eqn:E; [|reflexivity]. apply existsb_exists in E as (x & X1 & X2).
      apply first_run_in in X1. apply Nat.eqb_eq in X2. congruence.
  - intros s B V. cbv beta in V. rewrite <- (vis_rank s _ VP) in V. destruct (AT s B) as (x & X1 & <-). rewrite <- (CN x X1).
    rewrite S1, last_n_all.
    + apply in_map. now apply RI.
    + apply (run_short (fun s => o_vis o s (p_uid p)) (vis_conv (p_uid p) VP) _ _ k n); auto.
      intros a b A C. rewrite vis_rank in A, C by exact VP. exact (r_cap _ _ _ _ REG _ _ _ A C).
Qed.

Lemma undone_h : forall k n todo P visited q q', (forall p, In p todo -> ok (p_uid p) = true) ->
  map s_uid (q_surfs q) = seq k n -> 0 < n -> q_next q = k + n -> (forall s, In s (q_surfs q) -> s_counter s = s_uid s) ->
  map pr todo = seq P (length todo) -> (forall p, In p todo -> p_done p = false) ->
  (todo = [] \/ lo k <= P) -> P <= S (hi k) -> (forall s, s < k -> todo = [] \/ hi s < P) ->
  map ar (q_az q) = seq 0 P -> CPh q ->
  burst_loop cf o k visited todo q = (None, q') ->
  let P' := Nat.min (S (S (hi k))) (P + length todo) in
  map ar (q_az q') = seq 0 P' /\ CPh q' /\
  exists todo', q_packs q' = visited ++ todo' /\ map pkey todo' = map pkey todo /\
    forall p, In p todo' -> p_done p = (pr p <? P').
Proof.
  intros k n. induction todo as [|p rest IH]; intros P visited q q' VT U NP NX CN PU PD LO HI DN AZ C H P'; cbn [burst_loop] in H.
  - inversion H; subst; clear H. cbn [q_az]. unfold P'. cbn [length]. replace (Nat.min _ _) with P by lia.
    split; [exact AZ|]. split; [exact C|]. exists []. cbn [q_packs]. rewrite app_nil_r. split; [reflexivity|]. split; [reflexivity|]. intros x [].
  - rewrite (PD p (or_introl eq_refl)) in H.
    cbn [map length seq] in PU. injection PU as PU1 PU2. pose proof (VT p (or_introl eq_refl)) as VP.
    destruct LO as [LO|LO]; [discriminate|].
    destruct (beam_step cf o k p q) as [[[seen t] surfs'] wseen] eqn:BS.
    destruct (beam_step_h k n p q seen t surfs' wseen VP U NP CN BS) as (KEY & WS & SEEN). cbv beta in WS, SEEN.
    destruct (azimuth_fails cf o p seen t); [discriminate|].
    assert (AZ' : map ar (q_az q ++ [mk_beamed (p_uid p) seen t]) = seq 0 (S P)).
    { rewrite map_app, AZ, seq_S. cbn [map a_uid plus]. rewrite PU1. reflexivity. }
    set (p' := mk_packet (p_uid p) (p_counter p) (p_time p) true) in *.
    assert (KU : map s_uid surfs' = map s_uid (q_surfs q)).
    { assert (X : map (fun t => fst (fst t)) (map skey surfs') = map (fun t => fst (fst t)) (map skey (q_surfs q))) by now rewrite KEY.
      rewrite !map_map in X. exact X. }
    assert (CN' : forall s, In s surfs' -> s_counter s = s_uid s).
    { intros s I. assert (J : In (skey s) (map skey (q_surfs q))) by (rewrite <- KEY; now apply in_map).
      apply in_map_iff in J as (s0 & E & J). specialize (CN _ J). unfold skey in E. inversion E. congruence. }
    assert (C' : forall q2, q_az q2 = q_az q ++ [mk_beamed (p_uid p) seen t] -> q_next q2 = q_next q -> CPh q2).
    { intros q2 E1 E2 a s I B V. rewrite E1 in I. rewrite E2 in B. apply in_app_or in I as [I|[<-|[]]]; [now apply (C a s)|].
      cbn [a_seen a_uid] in *. destruct (Nat.lt_ge_cases s k) as [L|L].
      - exfalso. destruct (DN s L) as [X|X]; [discriminate|]. apply (r_vis _ _ _ _ REG) in V. lia.
      - apply SEEN; auto. lia. }
    rewrite WS in H. rewrite PU1 in H.
    destruct (vis k P) eqn:VK.
    + apply (r_vis _ _ _ _ REG) in VK.
      match type of H with burst_loop _ _ _ _ _ ?q2 = _ => set (qn := q2) in * end.
      assert (A1 : map s_uid (q_surfs qn) = seq k n) by (cbn [qn q_surfs]; rewrite KU; exact U).
      assert (A2 : forall s, s < k -> rest = [] \/ hi s < S P).
      { intros s L. destruct (DN s L); [discriminate|right; lia]. }
      assert (A3 : map ar (q_az qn) = seq 0 (S P)) by exact AZ'.
      assert (A4 : CPh qn) by (apply C'; reflexivity).
      assert (A5 : rest = [] \/ lo k <= S P) by (right; lia).
      assert (A6 : S P <= S (hi k)) by lia.
      destruct (IH (S P) (visited ++ [p']) qn q' (fun x I => VT x (or_intror I)) A1 NP NX CN' PU2 (fun x I => PD x (or_intror I)) A5 A6 A2 A3 A4 H)
        as (I1 & I2 & todo' & I3 & I4 & I5).
      unfold P'. cbn [length]. replace (P + S (length rest)) with (S P + length rest) by lia.
      split; [exact I1|]. split; [exact I2|]. exists (p' :: todo'). split; [rewrite I3, <- app_assoc; reflexivity|].
      split; [cbn [map]; rewrite I4; reflexivity|]. intros x [<-|I]; [|now apply I5].
      unfold p'. cbn [p_done p_uid]. rewrite PU1. symmetry. apply Nat.ltb_lt. lia.
    + assert (HK : P = S (hi k)).
      { destruct (Nat.le_gt_cases P (hi k)) as [L|L]; [|lia].
        assert (vis k P = true) by (apply (r_vis _ _ _ _ REG); lia). congruence. }
      inversion H; subst q'; clear H. cbn [q_az q_packs].
      assert (EP : P' = S P) by (unfold P'; cbn [length]; lia). rewrite EP.
      split; [exact AZ'|]. split.
      { apply C'; reflexivity. }
      exists (p' :: rest). split; [reflexivity|]. split; [reflexivity|]. intros x [<-|I].
      * unfold p'. cbn [p_done p_uid]. rewrite PU1. symmetry. apply Nat.ltb_lt. lia.
      * rewrite (PD x (or_intror I)). symmetry. apply Nat.ltb_ge.
        assert (J : In (pr x) (map pr rest)) by (apply (in_map pr); exact I). rewrite PU2 in J. apply in_seq in J. lia.
Qed.

Definition QIh (k B : nat) (q : que) : Prop := exists P f,
  map ar (q_az q) = seq 0 P /\ P <= B /\ map pr (q_packs q) = seq f (B - f) /\ (f < B \/ B = 0) /\
  f <= P /\ f <= lo k /\ (forall p, In p (q_packs q) -> p_done p = (pr p <? P)) /\
  (k = 0 -> P = 0) /\
  (forall j, k = S j -> P <= S (S (hi j)) /\ (P = S (S (hi j)) \/ (P = B /\ B = valid_count items))).

Definition complete_h (s : surface) : Prop :=
  forall x, In x (bursts_of s) <-> ok x = true /\ o_vis o (s_uid s) x = true.

Definition LVh (l : list surface) : Prop := forall s, In s l -> ok (s_loc s) = true /\ vis (s_uid s) (rk (s_loc s)) = true.

Lemma LVh_key : forall l l', map skey l = map skey l' -> LVh l -> LVh l'.
Proof.
  intros l l' E H s I. assert (J : In (skey s) (map skey l)) by (rewrite E; now apply in_map).
  apply in_map_iff in J as (s0 & K & J). specialize (H _ J). unfold skey in K. injection K as K1 K2 K3. rewrite <- K1, <- K3. exact H.
Qed.

Lemma drop_until_h : forall c l f n, map pr l = seq f n -> (forall p, In p l -> p_counter p = p_uid p /\ ok (p_uid p) = true) ->
  ok c = true -> f <= rk c < f + n -> map pr (drop_until c l) = seq (rk c) (f + n - rk c).
Proof.
  induction l as [|p l IH]; intros f n E C VC B; [destruct n; [lia|discriminate]|].
  destruct n as [|n]; [lia|]. cbn in E. injection E as E1 E2. cbn [drop_until].
  destruct (C p (or_introl eq_refl)) as (C1 & C2). rewrite C1. destruct (Nat.eqb_spec (p_uid p) c) as [<-|N].
  - cbn [map]. rewrite E2, E1. replace (f + S n - f) with (S n) by lia. reflexivity.
  - assert (rk c <> f) by (intros X; apply N; apply (rk_inj items); congruence).
    rewrite (IH (S f) n); auto; [f_equal; lia| |lia]. intros x I. apply C. now right.
Qed.

Lemma phase_h : forall n q w q' w', let B := rk n in
  KI cf o items (decided w) q -> PI cf items n q -> OI cf w -> 0 < B -> B <= valid_count items ->
  QIh (length (decided w)) B q -> CPh q -> (S (S (hi (length (decided w)))) <= B \/ B = valid_count items) ->
  surface_phase cf o q w = (None, q', w') ->
  QIh (S (length (decided w))) B q' /\ CPh q' /\
  exists s1, decided w' = decided w ++ [s1] /\ complete_h s1 /\
    map skey (decided w' ++ q_surfs q') = map skey (decided w ++ q_surfs q).
Proof.
  intros n q w q' w' B HK HP HO NB BL (P & f & AZ & PB & PU & FB & FP & FL & PD & K0 & KS) C EN H.
  set (k := length (decided w)) in *.
  assert (VQ : forall p, In p (q_packs q) -> ok (p_uid p) = true).
  { intros p I. apply (ok_nth items _ (p_time p)). apply (pi_val _ _ _ _ HP). exact I. }
  assert (UU : map s_uid (decided w) = seq 0 k /\ map s_uid (q_surfs q) = seq k (length (q_surfs q))).
  { pose proof (k_uid _ _ _ _ _ HK) as U. apply seq_split_eq in U. exact U. }
  destruct UU as [_ U].
  assert (NX : q_next q = k + length (q_surfs q)).
  { pose proof (k_uid _ _ _ _ _ HK) as X. apply (f_equal (@length nat)) in X. rewrite seq_length, map_length, app_length in X. unfold k. lia. }
  assert (CN : forall s, In s (q_surfs q) -> s_counter s = s_uid s).
  { intros s I. apply (k_cnt _ _ _ _ _ HK). apply in_or_app. now right. }
  unfold surface_phase in H. destruct (q_surfs q) as [|s0 sr] eqn:ES; [discriminate|].
  assert (U0 : s_uid s0 = k) by (cbn in U; now injection U).
  destruct (burst_loop cf o (s_uid s0) [] (q_packs q) q) as [e1 q1] eqn:BL1.
  destruct e1 as [e1|]; [discriminate|].
  (* split the queue *)
  assert (SP : exists d u, q_packs q = d ++ u /\ (forall p, In p d -> p_done p = true) /\
     (forall p, In p u -> p_done p = false) /\ map pr u = seq P (length u) /\ length u = B - P /\
     map pr d = seq f (P - f)).
  { exists (firstn (P - f) (q_packs q)), (skipn (P - f) (q_packs q)).
    assert (LP : length (q_packs q) = B - f) by (rewrite <- (map_length pr), PU; apply seq_length).
    assert (LD : length (firstn (P - f) (q_packs q)) = P - f) by (rewrite firstn_length; lia).
    assert (EQ : q_packs q = firstn (P - f) (q_packs q) ++ skipn (P - f) (q_packs q)) by (symmetry; apply firstn_skipn).
    pose proof PU as PU'. rewrite EQ in PU'. apply seq_split_eq in PU' as [X1 X2]. rewrite LD in X1, X2.
    replace (f + (P - f)) with P in X2 by lia.
    split; [exact EQ|]. split; [|split; [|split; [exact X2|split; [rewrite skipn_length; lia|exact X1]]]].
    - intros p I. rewrite PD by (rewrite EQ; apply in_or_app; now left). apply Nat.ltb_lt.
      assert (J : In (pr p) (seq f (P - f))) by (rewrite <- X1; apply (in_map pr); exact I). apply in_seq in J. lia.
    - intros p I. rewrite PD by (rewrite EQ; apply in_or_app; now right). apply Nat.ltb_ge.
      assert (J : In (pr p) (seq P (length (skipn (P - f) (q_packs q))))) by (rewrite <- X2; apply (in_map pr); exact I).
      apply in_seq in J. lia. }
  destruct SP as (d & u & EPK & DD & UD & UU & LU & DU).
  pose proof BL1 as BL2. rewrite EPK, U0, skip_done in BL2 by exact DD. cbn [app] in BL2.
  assert (PHI : P <= S (hi k)).
  { destruct k as [|j] eqn:EK; [rewrite K0 by reflexivity; lia|]. destruct (KS j eq_refl) as [X _].
    pose proof (r_hi _ _ _ _ REG j). lia. }
  assert (UE : P = B -> u = []) by (intro E; destruct u; [reflexivity|cbn in LU; lia]).
  assert (L1 : u = [] \/ lo k <= P).
  { destruct k as [|j] eqn:EK; [right; rewrite (lo0 cf o' lo hi REG HM); lia|]. destruct (KS j eq_refl) as [X [Y|[Y _]]]; [|left; now apply UE].
    right. pose proof (r_join _ _ _ _ REG j). lia. }
  assert (L2 : forall s, s < k -> u = [] \/ hi s < P).
  { intros s L. destruct k as [|j] eqn:EK; [lia|]. destruct (KS j eq_refl) as [X [Y|[Y _]]]; [|left; now apply UE].
    right. pose proof (hi_mono_le cf o' lo hi REG HM s j ltac:(lia)). lia. }
  assert (U1 : map s_uid (q_surfs q) = seq k (length (q_surfs q))) by (rewrite ES; exact U).
  assert (NX1 : q_next q = k + length (q_surfs q)) by (rewrite ES; exact NX).
  assert (CN1 : forall s, In s (q_surfs q) -> s_counter s = s_uid s) by (rewrite ES; exact CN).
  assert (VU : forall p, In p u -> ok (p_uid p) = true) by (intros p I; apply VQ; rewrite EPK; apply in_or_app; now right).
  destruct (undone_h k (length (q_surfs q)) u P d q q1 VU U1 ltac:(rewrite ES; cbn; lia) NX1 CN1
     UU UD L1 PHI L2 AZ C BL2) as (AZ1 & C1 & u' & PK1 & UK1 & UD1).
  set (P' := Nat.min (S (S (hi k))) (P + length u)) in *.
  assert (PE : P + length u = B) by lia.
  assert (PP : P <= P' /\ P' <= B) by lia.
  pose proof (burst_loop_keys _ _ _ _ _ _ _ _ BL1) as (KEY & KP & KC & KN).
  assert (I : KI cf o items (decided w) q1 /\ (None = @None err -> PI cf items n q1)).
  { eapply (burst_loop_inv cf o items (decided w) n (s_uid s0) (q_packs q) [] q None q1); [| | |exact BL1].
    - cbn. apply KI_packs; auto.
    - cbn. destruct HP; constructor; auto.
    - cbn. tauto. }
  destruct I as (HK1 & HP1). specialize (HP1 eq_refl).
  assert (PU1 : map pr (q_packs q1) = seq f (B - f)).
  { rewrite <- PU. cbn [app] in KP. assert (X : map (fun t => rk (fst (fst t))) (map pkey (q_packs q1)) = map (fun t => rk (fst (fst t))) (map pkey (q_packs q))) by now rewrite KP.
    rewrite !map_map in X. exact X. }
  assert (PD1 : forall p, In p (q_packs q1) -> p_done p = (pr p <? P')).
  { intros p Ip. rewrite PK1 in Ip. apply in_app_or in Ip as [Ip|Ip]; [|now apply UD1].
    rewrite (DD p Ip). symmetry. apply Nat.ltb_lt.
    assert (J : In (pr p) (seq f (P - f))) by (rewrite <- DU; apply (in_map pr); exact Ip). apply in_seq in J. lia. }
  destruct (q_surfs q1) as [|s1 rest] eqn:E1; [discriminate|].
  assert (SK : skey s1 = skey s0 /\ map skey rest = map skey sr).
  { rewrite ES in KEY. cbn [map] in KEY. injection KEY as X1 X2 X3 X4. split; [unfold skey; congruence|exact X4]. }
  destruct SK as [SK SKR].
  assert (S1U : s_uid s1 = k) by (unfold skey in SK; injection SK as X1 X2 X3; congruence).
  (* the stack of the surface *)
  assert (ST : stack_ok cf o (q_az q1) s1).
  { apply (k_stack _ _ _ _ _ HK1). apply in_or_app. right. rewrite E1. now left. }
  destruct ST as (ST1 & ST2 & ST3).
  assert (VA : forall a, In a (q_az q1) -> ok (a_uid a) = true).
  { intros a Ia. destruct (pi_az _ _ _ _ HP1 a Ia) as (_ & t & T). exact (ok_nth items _ t T). }
  assert (MEM : forall x, In x (bursts_of s1) <-> ok x = true /\ rk x < P' /\ vis k (rk x) = true).
  { intro x. split.
    - intro Ix. unfold bursts_of in Ix. apply in_map_iff in Ix as (en & <- & Ie). destruct (ST2 en Ie) as (_ & V & a & A1 & A2 & _).
      rewrite S1U in V. rewrite <- A2 in *. split; [now apply VA|]. rewrite <- vis_rank by now apply VA. split; [|exact V].
      assert (J : In (ar a) (map ar (q_az q1))) by (apply (in_map ar); exact A1).
      rewrite AZ1 in J. apply in_seq in J. lia.
    - intros (VX & X & V). assert (J : In (rk x) (map ar (q_az q1))) by (rewrite AZ1; apply in_seq; lia).
      apply in_map_iff in J as (a & EA & Ia). apply (rk_inj items) in EA; [|now apply VA|exact VX]. subst x. apply ST3; [exact Ia|].
      rewrite (k_cnt _ _ _ _ _ HK1) by (apply in_or_app; right; rewrite E1; now left). rewrite S1U.
      apply C1; [exact Ia| |exact V]. rewrite KN, NX. cbn. lia. }
  assert (PL : P' = S (S (hi k)) \/ (P' = B /\ B = valid_count items)).
  { destruct EN as [EN|EN]; [left; lia|]. destruct (Nat.le_gt_cases (S (S (hi k))) B); [left; lia|right; lia]. }
  assert (CO : complete_h s1).
  { intro x. rewrite MEM, S1U. split.
    - intros (VX & X & V). split; [exact VX|]. rewrite vis_rank by exact VX. exact V.
    - intros (VX & V). rewrite vis_rank in V by exact VX. split; [exact VX|]. split; [|exact V].
      apply (r_vis _ _ _ _ REG) in V. pose proof (rk_total items x VX). destruct PL as [PL|[PL PL2]]; lia. }
  assert (QN : forall ps f', map pr ps = seq f' (B - f') -> f' < B -> f' <= P' -> f' <= lo (S k) ->
     (forall p, In p ps -> In p (q_packs q1)) -> QIh (S k) B (set_packs_surfs q1 ps rest)).
  { intros ps f' X1 X2 X3 X4 X5. exists P', f'. cbn [q_az q_packs set_packs_surfs].
    split; [exact AZ1|]. split; [lia|]. split; [exact X1|]. split; [now left|]. split; [exact X3|]. split; [exact X4|].
    split; [intros p Ip; now apply PD1, X5|]. split; [discriminate|].
    intros j Ej. injection Ej as <-. split; [lia|exact PL]. }
  pose proof (r_lo _ _ _ _ REG k) as LK.
  assert (DEC : forall b ps l1 l2, let w2 := mk_out l1 l2 (w_done w ++ [(s1, b)]) in
     decided w2 = decided w ++ [s1] /\
     map skey (decided w2 ++ q_surfs (set_packs_surfs q1 ps rest)) = map skey (decided w ++ s0 :: sr)).
  { intros b ps l1 l2 w2. unfold decided, w2. cbn [w_done q_surfs set_packs_surfs]. rewrite map_app. cbn [map fst].
    split; [reflexivity|]. rewrite <- app_assoc, !map_app. cbn [app map]. now rewrite SK, SKR. }
  assert (CPS : forall ps, CPh (set_packs_surfs q1 ps rest)) by (intro ps; exact C1).
  assert (FBB : f < B) by lia.
  destruct (stack_size cf s1 <? c_looks cf / 2).
  { inversion H; subst q' w'; clear H. split; [apply (QN _ f); auto; lia|]. split; [apply CPS|].
    exists s1. destruct (DEC false (q_packs q1) (w_l1b w) (w_l1bs w)) as [X Y]. split; [exact X|]. split; [exact CO|exact Y]. }
  destruct (o_corr_fail o (s_uid s1)); [discriminate|].
  destruct (o_w1_fail o (s_uid s1)); [discriminate|].
  destruct (c_l1bs cf && o_w2_fail o (s_uid s1)); [discriminate|].
  destruct (q_packs q1) as [|p0 ps] eqn:EP.
  { exfalso. cbn in PU1. destruct (B - f) eqn:Z; [lia|discriminate]. }
  destruct (s_stack s1) as [|e0 er] eqn:EST; [discriminate|].
  inversion H; subst q' w'; clear H.
  assert (B0 : In (e_uid e0) (bursts_of s1)) by (unfold bursts_of; rewrite EST; now left).
  apply MEM in B0 as (B0 & B1 & B2). pose proof (proj1 (r_vis _ _ _ _ REG _ _) B2) as B3.
  assert (X0 : e_counter e0 = e_uid e0) by (destruct (ST2 e0) as (X & _); [now left|exact X]).
  assert (E0 : rk (e_uid e0) = lo k).
  { assert (LT : lo k < rk n) by (fold B; lia). destruct (rk_at items n (lo k) LT) as (z & Z1 & Z2 & Z3).
    assert (BL0 : In z (bursts_of s1)).
    { apply MEM. split; [exact Z2|]. rewrite Z3. split; [lia|]. apply (r_vis _ _ _ _ REG). pose proof (lo_hi cf o' lo hi REG HM k). lia. }
    unfold bursts_of in BL0, ST1. rewrite EST in BL0, ST1. cbn [map] in BL0, ST1.
    inversion ST1 as [|? ? Q1 Q2]; subst. rewrite Forall_forall in Q2.
    destruct BL0 as [<-|BL0]; [exact Z3|]. specialize (Q2 _ BL0). pose proof (rk_lt items _ _ Q2 B0). lia. }
  split.
  - apply (QN (drop_until (e_counter e0) (p0 :: ps)) (lo k)); try lia.
    + rewrite X0, <- E0. rewrite (drop_until_h (e_uid e0) (p0 :: ps) f (B - f)); [f_equal; lia| exact PU1| |exact B0|lia].
      intros p Ip. split; [apply (pi_cnt _ _ _ _ HP1); rewrite EP; exact Ip|]. apply (ok_nth items _ (p_time p)). apply (pi_val _ _ _ _ HP1). rewrite EP. exact Ip.
    + intros p Ip. exact (subseq_in _ _ (drop_until_subseq _ _) _ Ip).
  - split; [apply CPS|]. exists s1. destruct (DEC true (drop_until (e_counter e0) (p0 :: ps)) (w_l1b w ++ [s1]) (if c_l1bs cf then w_l1bs w ++ [s1] else w_l1bs w)) as [X Y].
    split; [exact X|]. split; [exact CO|exact Y].
Qed.

(** holes among the records still to be read *)
Notation left := (fun i : inp => holes (i_rest i)).

Record FIh (s : st) : Prop := mk_FIh {
  h_inv : Inv cf o items s;
  h_gap : i_gap (s_in s) = false;
  h_res : i_resume (s_in s) = false;
  h_q : QIh (length (decided (s_out s))) (rk (i_n (s_in s))) (s_q s);
  h_cp : CPh (s_q s);
  h_lv : LVh (decided (s_out s) ++ q_surfs (s_q s));
  h_done : forall x, In x (decided (s_out s)) -> complete_h x;
  h_sp0 : i_sp (s_in s) = false -> decided (s_out s) = [];
  h_sp1 : i_sp (s_in s) = true -> c_min cf + left (s_in s) <= S (length (q_surfs (s_q s))) + holes items \/ rk (i_n (s_in s)) = valid_count items;
  h_first : i_n (s_in s) <> 0 -> q_surfs (s_q s) <> [] }.

Definition hole_ok (r : step_res) : Prop :=
  match r with
  | BCont s => FIh s
  | BEnd s => rk (i_n (s_in s)) = valid_count items /\ forall x, In x (decided (s_out s)) -> complete_h x
  | BRaise e s => e <> EPrevBurst /\ forall x, In x (decided (s_out s)) -> complete_h x
  end.

Lemma rank_end : forall n, n <= length items -> skipn n items = [] -> rk n = valid_count items.
Proof.
  intros n L E. apply (f_equal (@length item)) in E. rewrite skipn_length in E. cbn in E. unfold valid_count. f_equal. lia.
Qed.
Lemma rank_le : forall n, n <= length items -> rk n <= valid_count items.
Proof. intros n L. apply rk_mono. exact L. Qed.

Lemma post_h : forall i q w m,
  KI cf o items (decided w) q -> PI cf items (i_n i) q -> OI cf w -> i_n i <= length items ->
  i_gap i = false -> i_resume i = false -> 0 < rk (i_n i) ->
  QIh (length (decided w)) (rk (i_n i)) q -> CPh q -> LVh (decided w ++ q_surfs q) ->
  (forall x, In x (decided w) -> complete_h x) ->
  (i_sp i = false -> decided w = []) ->
  q_surfs q <> [] ->
  (i_sp i || (c_min cf <=? length (q_surfs q)) = true ->
     rk (i_n i) = valid_count items \/
     (c_min cf + left i <= length (q_surfs q) + holes items /\ S (S (hi (length (decided w)))) <= rk (i_n i))) ->
  step_ok cf o items (post cf o i q w m) -> hole_ok (post cf o i q w m).
Proof.
  intros i q w m HK HP HO HN G R NB HQ HC HL HD S0 NE EN OK. unfold post in *. rewrite G in *. rewrite orb_false_r in *.
  destruct (i_sp i || (c_min cf <=? length (q_surfs q))) eqn:PR.
  - specialize (EN eq_refl).
    destruct (surface_phase cf o q w) as [[e q1] w1] eqn:SP.
    pose proof (surface_phase_inv cf o items _ _ _ _ _ _ HK HP HO SP) as RR.
    destruct e as [e|].
    + destruct RR as (R1 & R2 & R3). cbn. split.
      * exact (phase_not_prev _ _ _ _ _ _ _ SP).
      * intros x I. apply HD. unfold decided in *. destruct R2 as (E & _). rewrite E in I. exact I.
    + assert (EN' : S (S (hi (length (decided w)))) <= rk (i_n i) \/ rk (i_n i) = valid_count items).
      { destruct EN as [EN|[_ EN]]; auto. }
      destruct (phase_h (i_n i) q w q1 w1 HK HP HO NB (rank_le _ HN) HQ HC EN' SP)
        as (Q1 & C1 & s1 & D1 & CO & KEY).
      assert (HD1 : forall x, In x (decided w1) -> complete_h x).
      { intros x I. rewrite D1 in I. apply in_app_or in I as [I|[<-|[]]]; auto. }
      pose proof (surface_phase_len _ _ _ _ _ _ SP) as SL.
      unfold end_phase in *. destruct (q_surfs q1) as [|x r] eqn:ES.
      * cbn [i_gap]. rewrite ?G in *. cbn. split; [|exact HD1]. destruct EN as [EN|[EN _]]; [exact EN|]. cbn [length] in SL. lia.
      * cbn in OK |- *. constructor; cbn [s_in s_q s_out i_gap i_resume i_n i_sp i_rest]; auto.
        -- rewrite D1, app_length. cbn. replace (length (decided w) + 1) with (S (length (decided w))) by lia. exact Q1.
        -- rewrite ES. eapply LVh_key; [symmetry; exact KEY|exact HL].
        -- discriminate.
        -- intros _. rewrite ES. destruct EN as [EN|[EN _]]; [now right|left; lia].
        -- intros _. rewrite ES. discriminate.
  - unfold end_phase in *. destruct (q_surfs q) as [|x r] eqn:ES; [congruence|].
    cbn in OK |- *. apply orb_false_iff in PR as [P1 P2].
    constructor; cbn [s_in s_q s_out]; rewrite ?ES; auto. rewrite P1. discriminate.
Qed.

Lemma rest_next : forall n it r, skipn n items = it :: r -> skipn (S n) items = r.
Proof. intros n it r. generalize items as l. induction n as [|n IH]; intros [|y l] X; cbn in X |- *; try discriminate; [now injection X|now apply IH in X]. Qed.

Lemma body_h : forall s, FIh s -> hole_ok (body cf o 0 s).
Proof.
  intros s F. pose proof (body_ok cf o items s (h_inv _ F)) as OK.
  destruct F as [(II & LIVE & FEW) G R HQ HC HL HD S0 S1 SF].
  destruct s as [i q w m]. cbn [s_in s_q s_out s_mon] in *.
  assert (BD : bound i = i_n i) by (unfold bound; rewrite G, R; reflexivity).
  pose proof (ii_rest _ _ _ _ _ _ _ II) as IR. pose proof (ii_n _ _ _ _ _ _ _ II) as IN.
  pose proof (ii_K _ _ _ _ _ _ _ II) as IK. pose proof (ii_O _ _ _ _ _ _ _ II) as IO.
  pose proof (ii_P _ _ _ _ _ _ _ II) as HP. rewrite BD in HP.
  assert (SN : q_surfs q <> [] -> 0 < rk (i_n i)).
  { intro N. destruct (q_surfs q) as [|x r] eqn:ES; [congruence|].
    destruct HQ as (P & f & _ & _ & PU & FB & _). destruct FB as [FB|FB]; [lia|]. exfalso.
    pose proof (ii_loc _ _ _ _ _ _ _ II x) as X. rewrite BD in X. rewrite ES in X.
    assert (Y : In x (decided w ++ x :: r)) by (apply in_or_app; right; now left). specialize (X Y).
    destruct (HL x) as (Z & _); [exact Y|].
    pose proof (rk_lt items _ _ X Z). lia. }
  assert (NXT : q_next q = length (decided w) + length (q_surfs q)).
  { pose proof (k_uid _ _ _ _ _ IK) as X. apply (f_equal (@length nat)) in X.
    rewrite seq_length, map_length, app_length in X. lia. }
  unfold body, read_phase in OK |- *. cbn [s_in s_q s_out s_mon] in *. rewrite G, R in OK |- *.
  destruct (i_rest i) as [|it r] eqn:ER.
  - destruct (i_sp i) eqn:SPI.
    + unfold handle_packet in *. cbn [i_cur] in *.
      assert (NE : q_surfs q <> []) by (apply LIVE; auto).
      match goal with |- hole_ok ?X => change X with (post cf o (mk_inp [] (i_n i) None (i_pt i) false false true) q w m) end.
      match type of OK with step_ok _ _ _ ?X => change X with (post cf o (mk_inp [] (i_n i) None (i_pt i) false false true) q w m) in OK end.
      apply post_h; cbn [i_gap i_resume i_n i_sp i_rest]; auto.
      intros _. left. apply rank_end; [exact IN|]. symmetry. exact IR.
    + cbn. split; [discriminate|exact HD].
  - assert (IT : nth_error items (i_n i) = Some it).
    { apply (skipn_cons_nth (i_n i) items it r). symmetry. exact IR. }
    assert (NL : i_n i < length items) by (apply nth_error_Some; congruence).
    pose proof (rest_next _ _ _ (eq_sym IR)) as RN.
    assert (HH : holes (it :: r) = (if is_nothing it then 1 else 0) + holes r) by (unfold holes; cbn [filter]; destruct (is_nothing it); reflexivity).
    destruct it as [t| |].
    + cbn [is_nothing plus] in HH. unfold handle_packet in *. cbn [i_cur i_pt i_rest i_n i_gap i_resume i_sp p_uid p_time m_work m_sub m_cals] in *.
      pose proof (ok_nth items _ _ IT) as OKN. pose proof (rk_S items (i_n i)) as RS. rewrite OKN in RS.
      assert (RT : rk (i_n i) < valid_count items) by (apply rk_total; exact OKN).
      assert (PT : i_pt i = last_valid (firstn (i_n i) items)).
      { apply (ii_pt _ _ _ _ _ _ _ II). now rewrite G, R. }
      assert (NG : match i_pt i with None => true | Some t0 => lt_q (t - t0) (c_gap cf) end = true).
      { destruct (i_pt i) as [t0|] eqn:EPT; [|reflexivity]. apply lt_q_spec.
        destruct (Qlt_le_dec (t - t0) (c_gap cf)) as [L|L]; [exact L|]. exfalso. apply (GAP (i_n i)).
        exists t, t0. split; [exact IT|]. split; [now rewrite <- PT|]. now apply Qle_not_lt. }
      rewrite NG in OK |- *. rewrite ?R in *.
      set (p := mk_packet (0 + i_n i) (i_n i) t false) in *.
      destruct (locate o false p q) as [rr q1] eqn:LO.
      destruct (locate_inv cf o items (decided w) (i_n i) false p q rr q1 IK HP eq_refl eq_refl eq_refl IT) as (K1 & P1 & SQ).
      { intros x j _ J. now elim (GAP j). }
      { intros x I. rewrite <- BD. now apply (ii_loc _ _ _ _ _ _ _ II). }
      { exact LO. }
      assert (LF : q_az q1 = q_az q /\ q_packs q1 = q_packs q ++ [p] /\
         (rr = Some true -> q_next q1 = S (q_next q) /\ (q_surfs q = [] \/ exists x l, q_surfs q = x :: l /\ o_new o (s_uid (last l x)) (i_n i) = true)) /\
         (rr <> Some true -> q_next q1 = q_next q)).
      { clear - LO. unfold locate in LO. destruct (q_surfs q) as [|x l] eqn:ES.
        - inversion LO; subst; cbn. split; [reflexivity|]. split; [reflexivity|]. split; [auto|congruence].
        - destruct (q_packs q ++ [p]) as [|a1 [|a2 al]] eqn:EP.
          + inversion LO; subst; cbn. repeat split; auto; congruence.
          + inversion LO; subst; cbn. repeat split; auto; congruence.
          + destruct (o_new o (s_uid (last l x)) (p_uid p)) eqn:ON; inversion LO; subst; cbn;
              (split; [reflexivity|]); (split; [reflexivity|]); split; try congruence; intros _; split; auto. right. exists x, l. auto. }
      destruct LF as (LF1 & LF2 & LF3 & LF4).
      (* the queue of bursts with the new burst *)
      assert (HQ1 : QIh (length (decided w)) (rk (S (i_n i))) q1).
      { rewrite RS. destruct HQ as (P & f & AZ & PB & PU & FB & FP & FL & PD & K0 & KS). exists P, f.
        split; [now rewrite LF1|]. split; [lia|]. split.
        { rewrite LF2, map_app, PU. cbn [map]. replace (rk (i_n i) + 1 - f) with (S (rk (i_n i) - f)) by lia. rewrite seq_S.
          cbn [p p_uid plus]. f_equal. f_equal. lia. }
        split; [left; lia|]. split; [exact FP|]. split; [exact FL|]. split.
        { intros y I. rewrite LF2 in I. apply in_app_or in I as [I|[<-|[]]]; [now apply PD|]. cbn [p p_uid p_done plus]. symmetry. apply Nat.ltb_ge. lia. }
        split; [exact K0|]. intros j EJ. destruct (KS j EJ) as [X [Y|[Y Z]]]; [auto|lia]. }
      destruct rr as [[|]|].
      * (* a new surface *)
        destruct (LF3 eq_refl) as [NX1 NEW].
        assert (VN : vis (q_next q) (rk (i_n i)) = true).
        { destruct NEW as [E|(x & l & E & ON)].
          - assert (NZ : i_n i = 0) by (destruct (Nat.eq_dec (i_n i) 0) as [Z|Z]; [exact Z|]; elim (SF Z); exact E).
            destruct (i_sp i) eqn:SPI.
            { exfalso. apply LIVE; [auto|exact E]. }
            assert (NXZ : q_next q = 0) by (rewrite NXT, E, (S0 eq_refl); reflexivity).
            rewrite NXZ, NZ. apply (r_first _ _ _ _ REG).
          - rewrite (proj2 AS) in ON by exact OKN. apply (r_loc _ _ _ _ REG) in ON.
            assert (UL : S (s_uid (last l x)) = q_next q).
            { pose proof (k_uid _ _ _ _ _ IK) as X. rewrite E in X.
              assert (NE : x :: l <> []) by discriminate. destruct (exists_last NE) as (l' & z & Z).
              assert (LZ : last l x = z).
              { destruct l' as [|y l']; cbn in Z; injection Z as Z1 Z2; [subst; reflexivity|]. subst. apply last_snoc. }
              rewrite Z, app_assoc, map_app in X. rewrite LZ. cbn [map] in X.
              assert (LL : q_next q = S (length (decided w ++ l'))) by (rewrite NXT, E, Z, !app_length; cbn; lia).
              rewrite LL in X |- *. rewrite seq_S in X. apply app_inj_tail in X as [_ X]. cbn in X. lia. }
            rewrite UL in ON. exact ON. }
        assert (HR : holes r <= holes items).
        { rewrite <- (firstn_skipn (S (i_n i)) items), RN. unfold holes. rewrite filter_app, app_length. lia. }
        assert (NK : 0 < length (decided w) -> c_min cf <= S (length (q_surfs q)) + holes items).
        { intro KP. destruct (i_sp i) eqn:SPI.
          - destruct (S1 eq_refl) as [X|X]; lia.
          - rewrite (S0 eq_refl) in KP. cbn in KP. lia. }
        assert (HC1 : CPh q1).
        { intros a x IA BX VX. rewrite LF1 in IA. rewrite NX1 in BX.
          destruct (Nat.eq_dec x (q_next q)) as [->|NE]; [|apply HC; auto; lia]. exfalso.
          destruct HQ as (P & f & AZ & PB & PU & FB & FP & FL & PD & K0 & KS).
          assert (J : In (ar a) (map ar (q_az q))) by (apply (in_map ar); exact IA). rewrite AZ in J. apply in_seq in J.
          destruct (length (decided w)) as [|j] eqn:EK; [rewrite K0 in J by reflexivity; lia|].
          destruct (KS j eq_refl) as [X _]. cbv beta in *. pose proof (ahead_h j (q_next q) (rk (a_uid a)) ltac:(lia) VX) as Y.
          specialize (NK ltac:(lia)). lia. }
        assert (HL1 : LVh (decided w ++ q_surfs q1)).
        { rewrite SQ. intros x I. rewrite app_assoc in I. apply in_app_or in I as [I|[<-|[]]]; [now apply HL|]. split; [exact OKN|exact VN]. }
        match goal with |- hole_ok ?X => change X with (post cf o (mk_inp r (S (i_n i)) (Some p) (Some t) false false (i_sp i)) q1 w
           (mk_mon (m_work m + 1)%Q (m_sub m) (m_cals m ++ [0 + i_n i]))) end.
        match type of OK with step_ok _ _ _ ?X => change X with (post cf o (mk_inp r (S (i_n i)) (Some p) (Some t) false false (i_sp i)) q1 w
           (mk_mon (m_work m + 1)%Q (m_sub m) (m_cals m ++ [0 + i_n i]))) in OK end.
        apply post_h; cbn [i_gap i_resume i_n i_sp i_rest]; auto; try lia.
        -- rewrite SQ. now destruct (q_surfs q).
        -- intro PR. right. rewrite SQ, app_length in *. cbn [length] in *.
           assert (LQ : c_min cf + holes r <= S (length (q_surfs q)) + holes items).
           { destruct (i_sp i) eqn:SPI; [destruct (S1 eq_refl) as [X|X]; lia|].
             cbn [orb] in PR. apply Nat.leb_le in PR. lia. }
           split; [lia|]. destruct (Nat.le_gt_cases (rk (i_n i)) (S (hi (length (decided w))))) as [L|L]; [|lia].
           exfalso. pose proof (ahead_h _ _ _ L VN). lia.
      * (* no new surface *)
        cbn in OK |- *. constructor; cbn [s_in s_q s_out i_gap i_resume i_n i_sp i_rest]; auto.
        -- intros a x IA BX VX. rewrite LF1 in IA. rewrite LF4 in BX by discriminate. now apply HC.
        -- destruct SQ as (-> & _). exact HL.
        -- intro SPI. destruct SQ as (-> & _). destruct (S1 SPI) as [X|X]; [left; lia|lia].
        -- intros _. destruct SQ as (-> & NE & _). exact NE.
      * (* the burst before is missing: impossible *)
        exfalso. destruct SQ as (_ & NE & _). destruct (locate_none o _ _ _ _ LO) as [x X].
        destruct HQ as (P & f & AZ & PB & PU & FB & _). specialize (SN NE).
        rewrite LF2 in X. assert (Y : length (q_packs q) = rk (i_n i) - f) by (rewrite <- (map_length pr), PU; apply seq_length).
        apply (f_equal (@length packet)) in X. rewrite app_length in X. cbn in X. lia.
    + (* a record without position *)
      cbn [is_nothing] in HH. unfold handle_packet in *. cbn [i_cur] in *.
      assert (NZ : i_n i <> 0).
      { intros Z. rewrite Z in IT. apply (FIRST Nothing (tl items)); [|reflexivity]. destruct items as [|y l]; [discriminate|]. cbn in IT. inversion IT. reflexivity. }
      specialize (SF NZ). specialize (SN SF).
      assert (RS : rk (S (i_n i)) = rk (i_n i)).
      { rewrite rk_S. unfold valid_record. rewrite IT. lia. }
      match goal with |- hole_ok ?X => change X with (post cf o (mk_inp r (S (i_n i)) None (i_pt i) false false (i_sp i)) q w
         (mk_mon (m_work m + 1)%Q (m_sub m) (m_cals m))) end.
      match type of OK with step_ok _ _ _ ?X => change X with (post cf o (mk_inp r (S (i_n i)) None (i_pt i) false false (i_sp i)) q w
         (mk_mon (m_work m + 1)%Q (m_sub m) (m_cals m))) in OK end.
      apply post_h; cbn [i_gap i_resume i_n i_sp i_rest]; rewrite ?RS; auto; try lia.
      * apply (PI_weaken cf items (i_n i)); [lia|exact HP].
      * intro PR. destruct (i_sp i) eqn:SPI.
        -- destruct (S1 eq_refl) as [X|X]; [|left; exact X]. right. split; [lia|].
           (* the last surface located was seen after the surface to be worked on *)
           destruct (exists_last SF) as (l' & z & Z).
           destruct (HL z) as (Z1 & Z2); [rewrite Z; apply in_or_app; right; apply in_or_app; right; now left|].
           assert (UZ : s_uid z = length (decided w) + length l').
           { pose proof (k_uid _ _ _ _ _ IK) as U. rewrite Z, app_assoc, map_app in U. cbn [map] in U.
             assert (LL : q_next q = S (length (decided w ++ l'))) by (rewrite NXT, Z, !app_length; cbn; lia).
             rewrite LL, seq_S in U. apply app_inj_tail in U as [_ U]. cbn in U. rewrite U, app_length. reflexivity. }
           assert (ZB : rk (s_loc z) < rk (i_n i)).
           { apply rk_lt; [|exact Z1]. rewrite <- BD. apply (ii_loc _ _ _ _ _ _ _ II). rewrite Z. apply in_or_app; right; apply in_or_app; right; now left. }
           destruct (Nat.le_gt_cases (rk (s_loc z)) (S (hi (length (decided w))))) as [L|L]; [|lia].
           exfalso. pose proof (ahead_h _ _ _ L Z2) as Y. rewrite Z, app_length in X. cbn [length] in X. lia.
        -- exfalso. cbn [orb] in PR. apply Nat.leb_le in PR. destruct (FEW SPI) as [X|X]; [congruence|lia].
    + cbn. split; [discriminate|exact HD].
Qed.

Definition all_h (r : outcome) : Prop :=
  (forall s, r <> ORaise EPrevBurst s) /\
  (forall s, r = OEnd s false -> rk (i_n (s_in s)) = valid_count items) /\
  forall x, In x (decided (s_out (final r))) -> complete_h x.

Lemma loop_h : forall cancel fuel k s, FIh s -> all_h (loop cf o 0 cancel fuel k s).
Proof.
  intros cancel. induction fuel as [|f IH]; intros k s H; cbn [loop].
  - split; [discriminate|]. split; [discriminate|]. exact (h_done _ H).
  - pose proof (body_h s H) as B. destruct (body cf o 0 s) as [s1|s1|e s1]; cbn in B |- *.
    + destruct (cancel k); [|now apply IH]. split; [discriminate|]. split; [discriminate|]. exact (h_done _ B).
    + destruct B as [B1 B2]. split; [discriminate|]. split; [|exact B2]. intros s' E. inversion E; subst. exact B1.
    + destruct B as [B1 B2]. split; [intros s' E; inversion E; congruence|]. split; [discriminate|exact B2].
Qed.

Lemma init_h : FIh (init [] [] 0 items).
Proof.
  constructor; cbn [s_in s_q s_out init i_gap i_resume i_n i_sp i_rest decided w_done map q_surfs app q_az q_packs q_next]; auto; try discriminate; try tauto.
  - apply init_inv.
  - exists 0, 0. cbn. split; [reflexivity|]. split; [lia|]. split; [reflexivity|]. split; [now right|]. split; [lia|].
    split; [lia|]. split; [intros p []|]. split; [reflexivity|]. discriminate.
  - intros a s [].
  - intros x [].
  - intros x [].
Qed.

Lemma run_h : forall cancel, all_h (run cf o cancel items).
Proof. intro cancel. apply loop_h. apply init_h. Qed.

Lemma run_seeing_h : forall cancel x, In x (decided (s_out (final (run cf o cancel items)))) ->
  bursts_of x = seeing_valid o items x.
Proof.
  intros cancel x I. apply increasing_ext.
  - apply (stack_once cf o cancel items). unfold known_surfaces. apply in_or_app. now left.
  - apply filter_increasing. apply filter_increasing. apply seq_increasing.
  - intro b. destruct (run_h cancel) as (_ & _ & H). rewrite (H x I b). unfold seeing_valid, valid_numbers. rewrite !filter_In, in_seq.
    split; [intros [V ?]; pose proof (ok_len items b V); repeat split; auto; lia|tauto].
Qed.
End Hole.
