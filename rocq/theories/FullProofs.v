(** Proofs about the completeness of stacks. *)
From Coq Require Import List ZArith QArith Bool Lia Arith Sorted.
From Coq Require Import ZifyBool ZifyNat.
From Verif Require Import Common BeamModel BeamSpec BeamProofs ChainModel ChainSpec ChainAux ChainProofs ChainInv
  ChainMain ChainFacts FullSpec.
Import ListNotations.
Local Open Scope nat_scope.

Lemma increasing_ext : forall a b, increasing a -> increasing b -> (forall x, In x a <-> In x b) -> a = b.
Proof.
  induction a as [|x a IH]; intros [|y b] HA HB H.
  - reflexivity.
  - exfalso. apply (H y). now left.
  - exfalso. apply (H x). now left.
  - inversion HA as [|? ? A1 A2]; inversion HB as [|? ? B1 B2]; subst.
    rewrite Forall_forall in A2, B2.
    assert (E : x = y).
    { destruct (proj1 (H x) (or_introl eq_refl)) as [E|I]; [auto|].
      destruct (proj2 (H y) (or_introl eq_refl)) as [E|J]; [auto|].
      specialize (A2 _ J). specialize (B2 _ I). lia. }
    subst y. f_equal. apply IH; auto. intro z. split; intro Z.
    + destruct (proj1 (H z) (or_intror Z)) as [<-|I]; auto. specialize (A2 _ Z). lia.
    + destruct (proj2 (H z) (or_intror Z)) as [<-|I]; auto. specialize (B2 _ Z). lia.
Qed.

Lemma filter_increasing : forall f l, increasing l -> increasing (filter f l).
Proof. intros f l H. eapply increasing_subseq; [apply filter_subseq|exact H]. Qed.

Lemma take_while_prefix : forall {A} (v : A -> bool) l, exists r, l = take_while v l ++ r.
Proof.
  induction l as [|x l [r IH]]; cbn; [exists []; reflexivity|].
  destruct (v x); [exists r; cbn; congruence|exists (x :: l); reflexivity].
Qed.
Lemma take_while_in : forall {A} (v : A -> bool) l x, In x (take_while v l) -> v x = true.
Proof.
  induction l as [|y l IH]; cbn; [tauto|]. destruct (v y) eqn:V; cbn; [|tauto]. intros x [<-|H]; auto.
Qed.
Lemma first_run_in : forall {A} (v : A -> bool) l x, In x (first_run v l) -> v x = true.
Proof. intros. eapply take_while_in; eauto. Qed.

Lemma seq_split_eq : forall {A} (f : A -> nat) l1 l2 k n, map f (l1 ++ l2) = seq k n ->
  map f l1 = seq k (length l1) /\ map f l2 = seq (k + length l1) (length l2).
Proof.
  intros A f. induction l1 as [|x l1 IH]; intros l2 k n H; cbn in *.
  - split; auto. rewrite Nat.add_0_r. assert (length l2 = n). { rewrite <- (map_length f), H. apply seq_length. } now subst.
  - destruct n as [|n]; [discriminate|]. cbn in H. inversion H as [[H1 H2]]. destruct (IH _ _ _ H2) as [I1 I2].
    split; [now rewrite I1, H1|]. rewrite I2. f_equal. lia.
Qed.

Section Runs.
Variable v : nat -> bool.
Hypothesis CV : forall a b c, a <= b -> b <= c -> v a = true -> v c = true -> v b = true.
Let vs (s : surface) : bool := v (s_uid s).

Lemma take_all : forall l k n x, map s_uid l = seq k n -> In x l -> vs x = true ->
  (forall y l', l = y :: l' -> vs y = true) -> In x (take_while vs l).
Proof.
  induction l as [|y l IH]; intros k n x E I V H; [inversion I|].
  destruct n as [|n]; [discriminate|]. cbn in E. inversion E as [[E1 E2]]. subst k.
  pose proof (H y l eq_refl) as VY. cbn [take_while]. rewrite VY.
  destruct I as [<-|I]; [left; reflexivity|right]. apply (IH (S (s_uid y)) n); auto.
  intros z l' ->. destruct n as [|n]; [discriminate|]. cbn in E2. inversion E2 as [[E3 E4]].
  assert (B : S (s_uid y) <= s_uid x).
  { assert (J : In (s_uid x) (map s_uid (z :: l'))) by (apply in_map; exact I). cbn [map] in J. rewrite E4, E3 in J.
    destruct J as [J|J]; [lia|]. apply in_seq in J. lia. }
  unfold vs in *. apply (CV (s_uid y) (s_uid z) (s_uid x)); auto; lia.
Qed.

Lemma run_all : forall l k n x, map s_uid l = seq k n -> In x l -> vs x = true -> In x (first_run vs l).
Proof.
  unfold first_run. induction l as [|y l IH]; intros k n x E I V; [inversion I|].
  cbn [drop_while]. destruct (vs y) eqn:VY; cbn [negb].
  - apply (take_all _ k n); auto. intros z l' Z. inversion Z; subst. exact VY.
  - destruct I as [<-|I]; [congruence|]. destruct n as [|n]; [discriminate|]. cbn in E. inversion E as [[E1 E2]].
    apply (IH (S k) n); auto. congruence.
Qed.

Lemma run_short : forall N l k n, map s_uid l = seq k n ->
  (forall a b, v a = true -> v b = true -> b < a + N) -> length (first_run vs l) <= N.
Proof.
  intros N l k n E C.
  assert (G : exists k' n', map s_uid (drop_while (fun x => negb (vs x)) l) = seq k' n').
  { revert k n E. induction l as [|y l IH]; intros k n E; cbn [drop_while]; [exists 0, 0; reflexivity|].
    destruct (negb (vs y)); [|eauto]. destruct n as [|n]; [discriminate|]. cbn in E. inversion E as [[E1 E2]]. eauto. }
  destruct G as (k' & n' & G). unfold first_run. set (d := drop_while _ l) in *. clearbody d. clear E l k n.
  destruct (take_while_prefix vs d) as [r R]. rewrite R in G. apply seq_split_eq in G as [G _].
  set (t := take_while vs d) in *.
  destruct (length t) as [|m] eqn:L; [lia|].
  assert (F : In k' (map s_uid t)) by (rewrite G; apply in_seq; lia).
  assert (La : In (k' + m) (map s_uid t)) by (rewrite G; apply in_seq; lia).
  apply in_map_iff in F as (x & X1 & X2). apply in_map_iff in La as (y & Y1 & Y2).
  pose proof (take_while_in _ _ _ X2) as VX. pose proof (take_while_in _ _ _ Y2) as VY.
  unfold vs in VX, VY. specialize (C _ _ VX VY). lia.
Qed.
End Runs.

Section Full.
Variable cf : cfg.
Variable o : oracle.
Variable items : list item.
Variables lo hi : nat -> nat.
Hypothesis REG : regular cf o lo hi.
Hypothesis HCN : c_N cf + 2 <= c_min cf.
Hypothesis VAL : all_valid items.
Hypothesis GAP : gapless cf items.

Notation vis := (o_vis o).

Lemma CM : 2 <= c_min cf.
Proof. lia. Qed.

Lemma lo_mono : forall a b, a <= b -> lo a <= lo b.
Proof. intros a b H. induction H; auto. pose proof (r_lo _ _ _ _ REG m). lia. Qed.
Lemma hi_mono : forall a b, a < b -> hi a < hi b.
Proof. intros a b H. induction H; [apply (r_hi _ _ _ _ REG)|]. pose proof (r_hi _ _ _ _ REG m). lia. Qed.
Lemma hi_mono_le : forall a b, a <= b -> hi a <= hi b.
Proof. intros a b H. destruct (Nat.eq_dec a b) as [->|N]; auto. pose proof (hi_mono a b). lia. Qed.
Lemma lo0 : lo 0 = 0.
Proof. pose proof (proj1 (r_vis _ _ _ _ REG 0 0) (r_first _ _ _ _ REG)). lia. Qed.
Lemma lo_hi : forall s, lo s <= hi s.
Proof.
  destruct s; [rewrite lo0; lia|]. pose proof (r_join _ _ _ _ REG s). pose proof (r_hi _ _ _ _ REG s). lia.
Qed.
Lemma vis_convex : forall p a b c, a <= b -> b <= c -> vis a p = true -> vis c p = true -> vis b p = true.
Proof.
  intros p a b c H1 H2 A C. apply (r_vis _ _ _ _ REG) in A, C. apply (r_vis _ _ _ _ REG).
  pose proof (lo_mono b c H2). pose proof (hi_mono_le a b H1). lia.
Qed.
(** the surfaces seen up to one burst past the last sight of [k] are located in
    advance *)
Lemma ahead : forall k s p, p <= S (hi k) -> vis s p = true -> S s < k + c_min cf.
Proof.
  intros k s p L V. assert (VK : vis k (hi k) = true) by (apply (r_vis _ _ _ _ REG); pose proof (lo_hi k); lia).
  destruct (Nat.le_gt_cases s k) as [S1|S1]; [lia|].
  pose proof (proj1 (r_vis _ _ _ _ REG s p) V). pose proof (hi_mono k s S1).
  destruct (Nat.eq_dec p (S (hi k))) as [->|N].
  - assert (W : vis (S k) (S (hi k)) = true).
    { apply (r_vis _ _ _ _ REG). pose proof (r_join _ _ _ _ REG k). pose proof (r_hi _ _ _ _ REG k). lia. }
    pose proof (r_cap _ _ _ _ REG _ _ _ W V). lia.
  - assert (W : vis s (hi k) = true) by (apply (r_vis _ _ _ _ REG); lia).
    pose proof (r_cap _ _ _ _ REG _ _ _ VK W). lia.
Qed.

(** Bursts beam-formed so far know all the surfaces they see. *)
Definition CP (q : que) : Prop := forall a s, In a (q_az q) -> s < q_next q -> vis s (a_uid a) = true -> In s (a_seen a).

(** One burst. *)
Lemma beam_step_full : forall k n p q seen t surfs' wseen,
  map s_uid (q_surfs q) = seq k n -> 0 < n -> (forall s, In s (q_surfs q) -> s_counter s = s_uid s) ->
  beam_step cf o k p q = (seen, t, surfs', wseen) ->
  map skey surfs' = map skey (q_surfs q) /\
  wseen = vis k (p_uid p) /\ (forall s, k <= s < k + n -> vis s (p_uid p) = true -> In s seen).
Proof.
  intros k n p q seen t surfs' wseen U NP CN BS.
  destruct (bs_seen cf o q k p seen t surfs' wseen BS) as (S1 & S2 & _ & S4).
  split; [rewrite S4; apply pair_loop_key|].
  assert (RI : forall x, In x (q_surfs q) -> vis (s_uid x) (p_uid p) = true ->
     In x (first_run (fun s => vis (s_uid s) (p_uid p)) (q_surfs q))).
  { intros x I V. apply (run_all (fun s => vis s (p_uid p)) (vis_convex (p_uid p)) _ k n); auto. }
  assert (SUB : forall x, In x (first_run (fun s => vis (s_uid s) (p_uid p)) (q_surfs q)) -> In x (q_surfs q)).
  { intros x I. exact (subseq_in _ _ (subseq_first_run _ _) _ I). }
  assert (AT : forall s, k <= s < k + n -> exists x, In x (q_surfs q) /\ s_uid x = s).
  { intros s B. assert (I : In s (map s_uid (q_surfs q))) by (rewrite U; apply in_seq; lia).
    apply in_map_iff in I as (x & E & I). eauto. }
  split.
  - rewrite S2. destruct (vis k (p_uid p)) eqn:V.
    + destruct (AT k ltac:(lia)) as (x & X1 & X2). apply existsb_exists. exists x. split; [|now apply Nat.eqb_eq].
      apply RI; auto. now rewrite X2.
    + destruct (existsb _ _) eqn:E; [|reflexivity]. apply existsb_exists in E as (x & X1 & X2).
      apply first_run_in in X1. apply Nat.eqb_eq in X2. congruence.
  - intros s B V. destruct (AT s B) as (x & X1 & <-). rewrite <- (CN x X1).
    rewrite S1, last_n_all.
    + apply in_map. now apply RI.
    + apply (run_short (fun s => vis s (p_uid p)) (vis_convex (p_uid p)) _ _ k n); auto.
      intros a b A C. exact (r_cap _ _ _ _ REG _ _ _ A C).
Qed.

(** The bursts still to be beam-formed when surface [k] is worked on. *)
Lemma undone_loop : forall k n todo P visited q q',
  map s_uid (q_surfs q) = seq k n -> 0 < n -> q_next q = k + n -> (forall s, In s (q_surfs q) -> s_counter s = s_uid s) ->
  map p_uid todo = seq P (length todo) -> (forall p, In p todo -> p_done p = false) ->
  (todo = [] \/ lo k <= P) -> P <= S (hi k) -> (forall s, s < k -> todo = [] \/ hi s < P) ->
  map a_uid (q_az q) = seq 0 P -> CP q ->
  burst_loop cf o k visited todo q = (None, q') ->
  let P' := Nat.min (S (S (hi k))) (P + length todo) in
  map a_uid (q_az q') = seq 0 P' /\ CP q' /\
  exists todo', q_packs q' = visited ++ todo' /\ map pkey todo' = map pkey todo /\
    forall p, In p todo' -> p_done p = (p_uid p <? P').
Proof.
  intros k n. induction todo as [|p rest IH]; intros P visited q q' U NP NX CN PU PD LO HI DN AZ C H P'; cbn [burst_loop] in H.
  - inversion H; subst; clear H. cbn [q_az]. unfold P'. cbn [length]. replace (Nat.min _ _) with P by lia.
    split; [exact AZ|]. split; [exact C|]. exists []. cbn [q_packs]. rewrite app_nil_r. split; [reflexivity|]. split; [reflexivity|]. intros x [].
  - rewrite (PD p (or_introl eq_refl)) in H.
    cbn [map length seq] in PU. injection PU as PU1 PU2.
    destruct LO as [LO|LO]; [discriminate|].
    destruct (beam_step cf o k p q) as [[[seen t] surfs'] wseen] eqn:BS.
    destruct (beam_step_full k n p q seen t surfs' wseen U NP CN BS) as (KEY & WS & SEEN).
    destruct (azimuth_fails cf o p seen t); [discriminate|].
    assert (AZ' : map a_uid (q_az q ++ [mk_beamed (p_uid p) seen t]) = seq 0 (S P)).
    { rewrite map_app, AZ, seq_S. cbn. now rewrite PU1. }
    set (p' := mk_packet (p_uid p) (p_counter p) (p_time p) true) in *.
    assert (KU : map s_uid surfs' = map s_uid (q_surfs q)).
    { assert (X : map (fun t => fst (fst t)) (map skey surfs') = map (fun t => fst (fst t)) (map skey (q_surfs q))) by now rewrite KEY.
      rewrite !map_map in X. exact X. }
    assert (CN' : forall s, In s surfs' -> s_counter s = s_uid s).
    { intros s I. assert (J : In (skey s) (map skey (q_surfs q))) by (rewrite <- KEY; now apply in_map).
      apply in_map_iff in J as (s0 & E & J). specialize (CN _ J). unfold skey in E. inversion E. congruence. }
    assert (C' : forall az' q2, az' = q_az q ++ [mk_beamed (p_uid p) seen t] -> q_az q2 = az' -> q_next q2 = q_next q -> CP q2).
    { intros az' q2 -> E1 E2 a s I B V. rewrite E1 in I. rewrite E2 in B. apply in_app_or in I as [I|[<-|[]]]; [now apply (C a s)|].
      cbn [a_seen a_uid] in *. destruct (Nat.lt_ge_cases s k) as [L|L].
      - exfalso. destruct (DN s L) as [X|X]; [discriminate|]. apply (r_vis _ _ _ _ REG) in V. lia.
      - apply SEEN; auto. lia. }
    rewrite WS in H. rewrite PU1 in H.
    destruct (vis k P) eqn:VK.
    + apply (r_vis _ _ _ _ REG) in VK.
      match type of H with burst_loop _ _ _ _ _ ?q2 = _ => set (qn := q2) in * end.
      assert (A1 : map s_uid (q_surfs qn) = seq k n) by (cbn [qn q_surfs]; rewrite KU; exact U).
      assert (A2 : forall s, s < k -> rest = [] \/ hi s < S P).
      { intros s L. destruct (DN s L); [discriminate|right; lia]. }
      assert (A3 : map a_uid (q_az qn) = seq 0 (S P)) by (cbn [qn q_az]; rewrite <- PU1 at 1; exact AZ').
      assert (A4 : CP qn) by (eapply C'; [reflexivity|cbn [qn q_az]; now rewrite PU1|reflexivity]).
      assert (A5 : rest = [] \/ lo k <= S P) by (right; lia).
      assert (A6 : S P <= S (hi k)) by lia.
      destruct (IH (S P) (visited ++ [p']) qn q' A1 NP NX CN' PU2 (fun x I => PD x (or_intror I)) A5 A6 A2 A3 A4 H)
        as (I1 & I2 & todo' & I3 & I4 & I5).
      unfold P'. cbn [length]. replace (P + S (length rest)) with (S P + length rest) by lia.
      split; [exact I1|]. split; [exact I2|]. exists (p' :: todo'). split; [rewrite I3, <- app_assoc; reflexivity|].
      split; [cbn [map]; rewrite I4; reflexivity|]. intros x [<-|I]; [|now apply I5].
      unfold p'. cbn [p_done p_uid]. rewrite PU1. symmetry. apply Nat.ltb_lt. lia.
    + assert (HK : P = S (hi k)).
      { destruct (Nat.le_gt_cases P (hi k)) as [L|L]; [|lia].
        assert (vis k P = true) by (apply (r_vis _ _ _ _ REG); lia). congruence. }
      inversion H; subst q'; clear H. cbn [q_az q_packs].
      assert (EP : P' = S P) by (unfold P'; cbn [length]; lia). rewrite EP.
      split; [rewrite <- PU1 at 1; exact AZ'|]. split.
      { eapply C'; [reflexivity|cbn [q_az]; now rewrite PU1|reflexivity]. }
      exists (p' :: rest). split; [reflexivity|]. split; [reflexivity|]. intros x [<-|I].
      * unfold p'. cbn [p_done p_uid]. rewrite PU1. symmetry. apply Nat.ltb_lt. lia.
      * rewrite (PD x (or_intror I)). symmetry. apply Nat.ltb_ge.
        assert (J : In (p_uid x) (map p_uid rest)) by now apply in_map. rewrite PU2 in J. apply in_seq in J. lia.
Qed.

Lemma skip_done : forall k d visited u q, (forall p, In p d -> p_done p = true) ->
  burst_loop cf o k visited (d ++ u) q = burst_loop cf o k (visited ++ d) u q.
Proof.
  induction d as [|p d IH]; intros visited u q H; cbn [app burst_loop]; [now rewrite app_nil_r|].
  rewrite (H p (or_introl eq_refl)). rewrite IH; [now rewrite <- app_assoc|]. intros x I. apply H. now right.
Qed.

(** The queues when surface [k] is the next to be worked on and [B] bursts have
    been read: [P] bursts are beam-formed, the bursts from [f] on are queued. *)
Definition QI (k B : nat) (q : que) : Prop := exists P f,
  map a_uid (q_az q) = seq 0 P /\ P <= B /\ map p_uid (q_packs q) = seq f (B - f) /\ (f < B \/ B = 0) /\
  f <= P /\ f <= lo k /\ (forall p, In p (q_packs q) -> p_done p = (p_uid p <? P)) /\
  (k = 0 -> P = 0) /\
  (forall j, k = S j -> P <= S (S (hi j)) /\ (P = S (S (hi j)) \/ (P = B /\ B = length items))).

(** A surface has all the bursts of the file that see it. *)
Definition complete (s : surface) : Prop :=
  forall x, In x (bursts_of s) <-> x < length items /\ vis (s_uid s) x = true.

Definition LV (l : list surface) : Prop := forall s, In s l -> vis (s_uid s) (s_loc s) = true.

Lemma LV_key : forall l l', map skey l = map skey l' -> LV l -> LV l'.
Proof.
  intros l l' E H s I. assert (J : In (skey s) (map skey l)) by (rewrite E; now apply in_map).
  apply in_map_iff in J as (s0 & K & J). specialize (H _ J). unfold skey in K. inversion K. congruence.
Qed.

Lemma drop_until_seq : forall c l f n, map p_uid l = seq f n -> (forall p, In p l -> p_counter p = p_uid p) ->
  f <= c < f + n -> map p_uid (drop_until c l) = seq c (f + n - c).
Proof.
  induction l as [|p l IH]; intros f n E C B; [destruct n; [lia|discriminate]|].
  destruct n as [|n]; [lia|]. cbn in E. injection E as E1 E2. cbn [drop_until].
  rewrite (C p (or_introl eq_refl)), E1. destruct (Nat.eqb_spec f c) as [->|N].
  - cbn [map]. rewrite E1, E2. replace (c + S n - c) with (S n) by lia. reflexivity.
  - rewrite (IH (S f) n); auto; [f_equal; lia| |lia]. intros x I. apply C. now right.
Qed.

Lemma phase_full : forall B q w q' w',
  KI cf o items (decided w) q -> PI cf items B q -> OI cf w -> 0 < B -> B <= length items ->
  QI (length (decided w)) B q -> CP q -> (S (S (hi (length (decided w)))) <= B \/ B = length items) ->
  surface_phase cf o q w = (None, q', w') ->
  QI (S (length (decided w))) B q' /\ CP q' /\
  exists s1, decided w' = decided w ++ [s1] /\ complete s1 /\
    map skey (decided w' ++ q_surfs q') = map skey (decided w ++ q_surfs q).
Proof.
  intros B q w q' w' HK HP HO NB BL (P & f & AZ & PB & PU & FB & FP & FL & PD & K0 & KS) C EN H.
  set (k := length (decided w)) in *.
  assert (UU : map s_uid (decided w) = seq 0 k /\ map s_uid (q_surfs q) = seq k (length (q_surfs q))).
  { pose proof (k_uid _ _ _ _ _ HK) as U. apply seq_split_eq in U. exact U. }
  destruct UU as [_ U].
  assert (NX : q_next q = k + length (q_surfs q)).
  { pose proof (k_uid _ _ _ _ _ HK) as X. apply (f_equal (@length nat)) in X. rewrite seq_length, map_length, app_length in X. unfold k. lia. }
  assert (CN : forall s, In s (q_surfs q) -> s_counter s = s_uid s).
  { intros s I. apply (k_cnt _ _ _ _ _ HK). apply in_or_app. now right. }
  unfold surface_phase in H. destruct (q_surfs q) as [|s0 sr] eqn:ES; [discriminate|].
  assert (U0 : s_uid s0 = k) by (cbn in U; now injection U).
  destruct (burst_loop cf o (s_uid s0) [] (q_packs q) q) as [e1 q1] eqn:BL1.
  destruct e1 as [e1|]; [discriminate|].
  (* split the queue *)
  assert (SP : exists d u, q_packs q = d ++ u /\ (forall p, In p d -> p_done p = true) /\
     (forall p, In p u -> p_done p = false) /\ map p_uid u = seq P (length u) /\ length u = B - P /\
     map p_uid d = seq f (P - f)).
  { exists (firstn (P - f) (q_packs q)), (skipn (P - f) (q_packs q)).
    assert (LP : length (q_packs q) = B - f) by (rewrite <- (map_length p_uid), PU; apply seq_length).
    assert (LD : length (firstn (P - f) (q_packs q)) = P - f) by (rewrite firstn_length; lia).
    assert (EQ : q_packs q = firstn (P - f) (q_packs q) ++ skipn (P - f) (q_packs q)) by (symmetry; apply firstn_skipn).
    pose proof PU as PU'. rewrite EQ in PU'. apply seq_split_eq in PU' as [X1 X2]. rewrite LD in X1, X2.
    replace (f + (P - f)) with P in X2 by lia.
    split; [exact EQ|]. split; [|split; [|split; [exact X2|split; [rewrite skipn_length; lia|exact X1]]]].
    - intros p I. rewrite PD by (rewrite EQ; apply in_or_app; now left). apply Nat.ltb_lt.
      assert (J : In (p_uid p) (seq f (P - f))) by (rewrite <- X1; now apply in_map). apply in_seq in J. lia.
    - intros p I. rewrite PD by (rewrite EQ; apply in_or_app; now right). apply Nat.ltb_ge.
      assert (J : In (p_uid p) (seq P (length (skipn (P - f) (q_packs q))))) by (rewrite <- X2; now apply in_map).
      apply in_seq in J. lia. }
  destruct SP as (d & u & EPK & DD & UD & UU & LU & DU).
  pose proof BL1 as BL2. rewrite EPK, U0, skip_done in BL2 by exact DD. cbn [app] in BL2.
  assert (PHI : P <= S (hi k)).
  { destruct k as [|j] eqn:EK; [rewrite K0 by reflexivity; lia|]. destruct (KS j eq_refl) as [X _].
    pose proof (r_hi _ _ _ _ REG j). lia. }
  assert (UE : P = B -> u = []) by (intro E; destruct u; [reflexivity|cbn in LU; lia]).
  assert (L1 : u = [] \/ lo k <= P).
  { destruct k as [|j] eqn:EK; [right; rewrite lo0; lia|]. destruct (KS j eq_refl) as [X [Y|[Y _]]]; [|left; now apply UE].
    right. pose proof (r_join _ _ _ _ REG j). lia. }
  assert (L2 : forall s, s < k -> u = [] \/ hi s < P).
  { intros s L. destruct k as [|j] eqn:EK; [lia|]. destruct (KS j eq_refl) as [X [Y|[Y _]]]; [|left; now apply UE].
    right. pose proof (hi_mono_le s j ltac:(lia)). lia. }
  assert (U1 : map s_uid (q_surfs q) = seq k (length (q_surfs q))) by (rewrite ES; exact U).
  assert (NX1 : q_next q = k + length (q_surfs q)) by (rewrite ES; exact NX).
  assert (CN1 : forall s, In s (q_surfs q) -> s_counter s = s_uid s) by (rewrite ES; exact CN).
  destruct (undone_loop k (length (q_surfs q)) u P d q q1 U1 ltac:(rewrite ES; cbn; lia) NX1 CN1
     UU UD L1 PHI L2 AZ C BL2) as (AZ1 & C1 & u' & PK1 & UK1 & UD1).
  set (P' := Nat.min (S (S (hi k))) (P + length u)) in *.
  assert (PE : P + length u = B) by lia. 
  assert (PP : P <= P' /\ P' <= B) by lia.
  pose proof (burst_loop_keys _ _ _ _ _ _ _ _ BL1) as (KEY & KP & KC & KN).
  assert (I : KI cf o items (decided w) q1 /\ (None = @None err -> PI cf items B q1)).
  { eapply (burst_loop_inv cf o items (decided w) B (s_uid s0) (q_packs q) [] q None q1); [| | |exact BL1].
    - cbn. apply KI_packs; auto.
    - cbn. destruct HP; constructor; auto.
    - cbn. tauto. }
  destruct I as (HK1 & HP1). specialize (HP1 eq_refl).
  assert (PU1 : map p_uid (q_packs q1) = seq f (B - f)).
  { rewrite <- PU. cbn [app] in KP. assert (X : map (fun t => fst (fst t)) (map pkey (q_packs q1)) = map (fun t => fst (fst t)) (map pkey (q_packs q))) by now rewrite KP.
    rewrite !map_map in X. exact X. }
  assert (PD1 : forall p, In p (q_packs q1) -> p_done p = (p_uid p <? P')).
  { intros p Ip. rewrite PK1 in Ip. apply in_app_or in Ip as [Ip|Ip]; [|now apply UD1].
    rewrite (DD p Ip). symmetry. apply Nat.ltb_lt.
    assert (J : In (p_uid p) (seq f (P - f))) by (rewrite <- DU; now apply in_map). apply in_seq in J. lia. }
  destruct (q_surfs q1) as [|s1 rest] eqn:E1; [discriminate|].
  assert (SK : skey s1 = skey s0 /\ map skey rest = map skey sr).
  { rewrite ES in KEY. cbn [map] in KEY. injection KEY as X1 X2 X3 X4. split; [unfold skey; congruence|exact X4]. }
  destruct SK as [SK SKR].
  assert (S1U : s_uid s1 = k) by (unfold skey in SK; injection SK as X1 X2 X3; congruence).
  (* the stack of the surface *)
  assert (ST : stack_ok cf o (q_az q1) s1).
  { apply (k_stack _ _ _ _ _ HK1). apply in_or_app. right. rewrite E1. now left. }
  destruct ST as (ST1 & ST2 & ST3).
  assert (MEM : forall x, In x (bursts_of s1) <-> x < P' /\ vis k x = true).
  { intro x. split.
    - intro Ix. unfold bursts_of in Ix. apply in_map_iff in Ix as (en & <- & Ie). destruct (ST2 en Ie) as (_ & V & a & A1 & A2 & _).
      rewrite S1U in V. split; [|exact V]. assert (J : In (a_uid a) (map a_uid (q_az q1))) by now apply in_map.
      rewrite AZ1 in J. apply in_seq in J. lia.
    - intros [X V]. assert (J : In x (map a_uid (q_az q1))) by (rewrite AZ1; apply in_seq; lia).
      apply in_map_iff in J as (a & <- & Ia). apply ST3; [exact Ia|].
      rewrite (k_cnt _ _ _ _ _ HK1) by (apply in_or_app; right; rewrite E1; now left). rewrite S1U.
      apply C1; [exact Ia| |exact V]. rewrite KN, NX. cbn. lia. }
  assert (PL : P' = S (S (hi k)) \/ (P' = B /\ B = length items)).
  { destruct EN as [EN|EN]; [left; lia|]. destruct (Nat.le_gt_cases (S (S (hi k))) B); [left; lia|right; lia]. }
  assert (CO : complete s1).
  { intro x. rewrite MEM, S1U. split; intros [X V]; (split; [|exact V]); [lia|].
    apply (r_vis _ _ _ _ REG) in V. destruct PL as [PL|[PL PL2]]; lia. }
  assert (QN : forall ps f', map p_uid ps = seq f' (B - f') -> f' < B -> f' <= P' -> f' <= lo (S k) ->
     (forall p, In p ps -> In p (q_packs q1)) -> QI (S k) B (set_packs_surfs q1 ps rest)).
  { intros ps f' X1 X2 X3 X4 X5. exists P', f'. cbn [q_az q_packs set_packs_surfs].
    split; [exact AZ1|]. split; [lia|]. split; [exact X1|]. split; [now left|]. split; [exact X3|]. split; [exact X4|].
    split; [intros p Ip; now apply PD1, X5|]. split; [discriminate|].
    intros j Ej. injection Ej as <-. split; [lia|exact PL]. }
  pose proof (r_lo _ _ _ _ REG k) as LK.
  assert (DEC : forall b ps l1 l2, let w2 := mk_out l1 l2 (w_done w ++ [(s1, b)]) in
     decided w2 = decided w ++ [s1] /\
     map skey (decided w2 ++ q_surfs (set_packs_surfs q1 ps rest)) = map skey (decided w ++ s0 :: sr)).
  { intros b ps l1 l2 w2. unfold decided, w2. cbn [w_done q_surfs set_packs_surfs]. rewrite map_app. cbn [map fst].
    split; [reflexivity|]. rewrite <- app_assoc, !map_app. cbn [app map]. now rewrite SK, SKR. }
  assert (CPS : forall ps, CP (set_packs_surfs q1 ps rest)) by (intro ps; exact C1).
  assert (FBB : f < B) by lia.
  destruct (stack_size cf s1 <? c_looks cf / 2).
  { inversion H; subst q' w'; clear H. split; [apply (QN _ f); auto; lia|]. split; [apply CPS|].
    exists s1. destruct (DEC false (q_packs q1) (w_l1b w) (w_l1bs w)) as [X Y]. split; [exact X|]. split; [exact CO|exact Y]. }
  destruct (o_corr_fail o (s_uid s1)); [discriminate|].
  destruct (o_w1_fail o (s_uid s1)); [discriminate|].
  destruct (c_l1bs cf && o_w2_fail o (s_uid s1)); [discriminate|].
  destruct (q_packs q1) as [|p0 ps] eqn:EP.
  { exfalso. cbn in PU1. destruct (B - f) eqn:Z; [lia|discriminate]. }
  destruct (s_stack s1) as [|e0 er] eqn:EST; [discriminate|].
  inversion H; subst q' w'; clear H.
  assert (E0 : e_counter e0 = lo k).
  { destruct (ST2 e0) as (X & V & _); [now left|]. rewrite X. rewrite S1U in V.
    apply (r_vis _ _ _ _ REG) in V.
    assert (B0 : In (e_uid e0) (bursts_of s1)) by (unfold bursts_of; rewrite EST; now left).
    apply MEM in B0 as [B0 _].
    assert (BL0 : In (lo k) (bursts_of s1)).
    { apply MEM. split; [lia|]. apply (r_vis _ _ _ _ REG). pose proof (lo_hi k). lia. }
    unfold bursts_of in BL0, ST1. rewrite EST in BL0, ST1. cbn [map] in BL0, ST1.
    inversion ST1 as [|? ? Q1 Q2]; subst. rewrite Forall_forall in Q2.
    destruct BL0 as [BL0|BL0]; [exact BL0|]. specialize (Q2 _ BL0). lia. }
  assert (LP : lo k < P').
  { assert (B0 : In (e_uid e0) (bursts_of s1)) by (unfold bursts_of; rewrite EST; now left).
    apply MEM in B0 as [B0 V]. apply (r_vis _ _ _ _ REG) in V. lia. }
  split.
  - apply (QN (drop_until (e_counter e0) (p0 :: ps)) (lo k)); try lia.
    + rewrite E0. rewrite (drop_until_seq (lo k) (p0 :: ps) f (B - f)); [f_equal; lia| exact PU1| |lia].
      intros p Ip. apply (pi_cnt _ _ _ _ HP1). rewrite EP. exact Ip.
    + intros p Ip. exact (subseq_in _ _ (drop_until_subseq _ _) _ Ip).
  - split; [apply CPS|]. exists s1. destruct (DEC true (drop_until (e_counter e0) (p0 :: ps)) (w_l1b w ++ [s1]) (if c_l1bs cf then w_l1bs w ++ [s1] else w_l1bs w)) as [X Y].
    split; [exact X|]. split; [exact CO|exact Y].
Qed.

Record FI (s : st) : Prop := mk_FI {
  f_inv : Inv cf o items s;
  f_gap : i_gap (s_in s) = false;
  f_res : i_resume (s_in s) = false;
  f_q : QI (length (decided (s_out s))) (i_n (s_in s)) (s_q s);
  f_cp : CP (s_q s);
  f_lv : LV (decided (s_out s) ++ q_surfs (s_q s));
  f_done : forall x, In x (decided (s_out s)) -> complete x;
  f_sp0 : i_sp (s_in s) = false -> decided (s_out s) = [];
  f_sp1 : i_sp (s_in s) = true -> S (length (q_surfs (s_q s))) = c_min cf \/ i_rest (s_in s) = [] }.

Definition full_ok (r : step_res) : Prop :=
  match r with
  | BCont s => FI s
  | BEnd s => forall x, In x (decided (s_out s)) -> complete x
  | BRaise e s => e <> EPrevBurst /\ forall x, In x (decided (s_out s)) -> complete x
  end.

Lemma last_valid_some : forall l, all_valid l -> l <> [] -> last_valid l <> None.
Proof.
  assert (G : forall l t, last_valid_from (Some t) l <> None).
  { induction l as [|[x| |] l IH]; intros t; cbn; auto; discriminate. }
  intros [|[t| |] l] H N; [congruence| | |]; cbn.
  - apply G.
  - inversion H as [|? ? [x X] ?]; discriminate.
  - inversion H as [|? ? [x X] ?]; discriminate.
Qed.

Lemma phase_not_prev : forall q w e q' w', surface_phase cf o q w = (Some e, q', w') -> e <> EPrevBurst.
Proof.
  intros q w e q' w' H. unfold surface_phase in H. destruct (q_surfs q) as [|s0 sr]; [inversion H; discriminate|].
  destruct (burst_loop cf o (s_uid s0) [] (q_packs q) q) as [e1 q1] eqn:BL. destruct e1 as [e1|].
  { inversion H; subst. apply burst_loop_why in BL. destruct BL as (-> & _). discriminate. }
  destruct (q_surfs q1) as [|s r]; [inversion H; discriminate|].
  destruct (stack_size cf s <? c_looks cf / 2); [discriminate|].
  destruct (o_corr_fail o (s_uid s)); [inversion H; discriminate|].
  destruct (o_w1_fail o (s_uid s)); [inversion H; discriminate|].
  destruct (c_l1bs cf && o_w2_fail o (s_uid s)); [inversion H; discriminate|].
  destruct (q_packs q1); destruct (s_stack s); inversion H; discriminate.
Qed.

(** second half of an iteration *)
Lemma post_full : forall i q w m,
  KI cf o items (decided w) q -> PI cf items (i_n i) q -> OI cf w -> i_n i <= length items -> i_rest i = skipn (i_n i) items ->
  i_gap i = false -> i_resume i = false -> 0 < i_n i ->
  QI (length (decided w)) (i_n i) q -> CP q -> LV (decided w ++ q_surfs q) ->
  (forall x, In x (decided w) -> complete x) ->
  (i_sp i = false -> decided w = []) ->
  q_surfs q <> [] ->
  (i_sp i || (c_min cf <=? length (q_surfs q)) = true ->
     i_rest i = [] \/ (length (q_surfs q) = c_min cf /\ S (S (hi (length (decided w)))) <= i_n i)) ->
  step_ok cf o items (post cf o i q w m) -> full_ok (post cf o i q w m).
Proof.
  intros i q w m HK HP HO HN HR G R NB HQ HC HL HD S0 NE EN OK. unfold post in *. rewrite G in *. rewrite orb_false_r in *.
  assert (LEN : i_rest i = [] -> i_n i = length items).
  { intro E. pose proof HR as X. rewrite E in X.
    assert (Y : length (skipn (i_n i) items) = 0) by (rewrite <- X; reflexivity). rewrite skipn_length in Y. lia. }
  destruct (i_sp i || (c_min cf <=? length (q_surfs q))) eqn:PR.
  - specialize (EN eq_refl).
    destruct (surface_phase cf o q w) as [[e q1] w1] eqn:SP.
    pose proof (surface_phase_inv cf o items _ _ _ _ _ _ HK HP HO SP) as RR.
    destruct e as [e|].
    + destruct RR as (R1 & R2 & R3). cbn. split.
      * exact (phase_not_prev _ _ _ _ _ SP).
      * intros x I. apply HD. unfold decided in *. destruct R2 as (E & _). rewrite E in I. exact I.
    + assert (EN' : S (S (hi (length (decided w)))) <= i_n i \/ i_n i = length items).
      { destruct EN as [EN|[_ EN]]; auto. }
      destruct (phase_full (i_n i) q w q1 w1 HK HP HO NB HN HQ HC EN' SP)
        as (Q1 & C1 & s1 & D1 & CO & KEY).
      assert (HD1 : forall x, In x (decided w1) -> complete x).
      { intros x I. rewrite D1 in I. apply in_app_or in I as [I|[<-|[]]]; auto. }
      unfold end_phase in *. destruct (q_surfs q1) as [|x r] eqn:ES.
      * cbn [i_gap]. rewrite ?G in *. cbn. exact HD1.
      * cbn in OK |- *. constructor; cbn [s_in s_q s_out i_gap i_resume i_n i_sp i_rest]; auto.
        -- rewrite D1, app_length. cbn. replace (length (decided w) + 1) with (S (length (decided w))) by lia. exact Q1.
        -- rewrite ES. eapply LV_key; [symmetry; exact KEY|exact HL].
        -- discriminate.
        -- intros _. pose proof (surface_phase_len _ _ _ _ _ _ SP). destruct EN as [EN|[EN _]]; [now right|left; lia].
  - unfold end_phase in *. destruct (q_surfs q) as [|x r] eqn:ES; [congruence|].
    cbn in OK |- *. apply orb_false_iff in PR as [P1 P2].
    constructor; cbn [s_in s_q s_out]; rewrite ?ES; auto. rewrite P1. discriminate.
Qed.

Lemma body_full : forall s, FI s -> full_ok (body cf o 0 s).
Proof.
  intros s F. pose proof (body_ok cf o items s (f_inv _ F)) as OK.
  destruct F as [(II & LIVE & FEW) G R HQ HC HL HD S0 S1].
  destruct s as [i q w m]. cbn [s_in s_q s_out s_mon] in *.
  assert (BD : bound i = i_n i) by (unfold bound; rewrite G, R; reflexivity).
  assert (LEN : i_rest i = [] -> i_n i = length items).
  { intro E. pose proof (ii_rest _ _ _ _ _ _ _ II) as X. rewrite E in X. pose proof (ii_n _ _ _ _ _ _ _ II).
    assert (Y : length (skipn (i_n i) items) = 0) by (rewrite <- X; reflexivity). rewrite skipn_length in Y. lia. }
  assert (SN : q_surfs q <> [] -> 0 < i_n i).
  { intro N. destruct (q_surfs q) as [|x r] eqn:ES; [congruence|].
    pose proof (ii_loc _ _ _ _ _ _ _ II x) as X. rewrite BD in X. rewrite ES in X.
    assert (Y : In x (decided w ++ x :: r)) by (apply in_or_app; right; now left). specialize (X Y). lia. }
  assert (NXT : q_next q = length (decided w) + length (q_surfs q)).
  { pose proof (k_uid _ _ _ _ _ (ii_K _ _ _ _ _ _ _ II)) as X. apply (f_equal (@length nat)) in X.
    rewrite seq_length, map_length, app_length in X. lia. }
  unfold body, read_phase in OK |- *. cbn [s_in s_q s_out s_mon] in *. rewrite G, R in OK |- *.
  destruct (i_rest i) as [|it r] eqn:ER.
  - destruct (i_sp i) eqn:SPI.
    + unfold handle_packet in *. cbn [i_cur] in *.
      assert (NE : q_surfs q <> []) by (apply LIVE; auto).
      match goal with |- full_ok ?X => change X with (post cf o (mk_inp [] (i_n i) None (i_pt i) false false true) q w m) end.
      match type of OK with step_ok _ _ _ ?X => change X with (post cf o (mk_inp [] (i_n i) None (i_pt i) false false true) q w m) in OK end.
      apply post_full; cbn [i_gap i_resume i_n i_sp i_rest]; auto.
      * apply (ii_K _ _ _ _ _ _ _ II).
      * pose proof (ii_P _ _ _ _ _ _ _ II) as X. now rewrite BD in X.
      * apply (ii_O _ _ _ _ _ _ _ II).
      * apply (ii_n _ _ _ _ _ _ _ II).
      * rewrite <- ER. apply (ii_rest _ _ _ _ _ _ _ II).
    + cbn. split; [discriminate|exact HD].
  - assert (IT : nth_error items (i_n i) = Some it).
    { apply (skipn_cons_nth (i_n i) items it r). rewrite <- (ii_rest _ _ _ _ _ _ _ II). exact ER. }
    assert (V : exists t, it = Valid t).
    { unfold all_valid in VAL. rewrite Forall_forall in VAL. apply VAL. eapply nth_error_In; eauto. }
    destruct V as [t ->]. unfold handle_packet in *. cbn [i_cur i_pt i_rest i_n i_gap i_resume i_sp p_uid p_time m_work m_sub m_cals] in *.
    assert (NL : i_n i < length items) by (apply nth_error_Some; congruence).
    assert (PT : i_pt i = last_valid (firstn (i_n i) items)).
    { apply (ii_pt _ _ _ _ _ _ _ II). now rewrite G, R. }
    assert (NG : match i_pt i with None => true | Some t0 => lt_q (t - t0) (c_gap cf) end = true).
    { destruct (i_pt i) as [t0|] eqn:EPT; [|reflexivity]. apply lt_q_spec.
      destruct (Qlt_le_dec (t - t0) (c_gap cf)) as [L|L]; [exact L|]. exfalso. apply (GAP (i_n i)).
      exists t, t0. split; [exact IT|]. split; [now rewrite <- PT|]. now apply Qle_not_lt. }
    rewrite NG in OK |- *. rewrite ?R in *.
    set (p := mk_packet (0 + i_n i) (i_n i) t false) in *.
    destruct (locate o false p q) as [rr q1] eqn:LO.
    pose proof (ii_P _ _ _ _ _ _ _ II) as HP. rewrite BD in HP.
    destruct (locate_inv cf o items (decided w) (i_n i) false p q rr q1 (ii_K _ _ _ _ _ _ _ II) HP eq_refl eq_refl eq_refl IT) as (K1 & P1 & SQ).
    { intros x j _ J. now elim (GAP j). }
    { intros x I. rewrite <- BD. now apply (ii_loc _ _ _ _ _ _ _ II). }
    { exact LO. }
    assert (LF : q_az q1 = q_az q /\ q_packs q1 = q_packs q ++ [p] /\
       (rr = Some true -> q_next q1 = S (q_next q) /\ (q_surfs q = [] \/ exists x l, q_surfs q = x :: l /\ o_new o (s_uid (last l x)) (i_n i) = true)) /\
       (rr <> Some true -> q_next q1 = q_next q)).
    { clear - LO. unfold locate in LO. destruct (q_surfs q) as [|x l] eqn:ES.
      - inversion LO; subst; cbn. split; [reflexivity|]. split; [reflexivity|]. split; [auto|congruence].
      - destruct (q_packs q ++ [p]) as [|a1 [|a2 al]] eqn:EP.
        + inversion LO; subst; cbn. repeat split; auto; congruence.
        + inversion LO; subst; cbn. repeat split; auto; congruence.
        + destruct (o_new o (s_uid (last l x)) (p_uid p)) eqn:ON; inversion LO; subst; cbn;
            (split; [reflexivity|]); (split; [reflexivity|]); split; try congruence; intros _; split; auto. right. exists x, l. auto. }
    destruct LF as (LF1 & LF2 & LF3 & LF4).
    (* the queue of bursts with the new burst *)
    assert (HQ1 : QI (length (decided w)) (S (i_n i)) q1).
    { destruct HQ as (P & f & AZ & PB & PU & FB & FP & FL & PD & K0 & KS). exists P, f.
      split; [now rewrite LF1|]. split; [lia|]. split.
      { rewrite LF2, map_app, PU. cbn [map]. replace (S (i_n i) - f) with (S (i_n i - f)) by lia. rewrite seq_S.
        cbn [p p_uid]. f_equal. f_equal. lia. }
      split; [left; lia|]. split; [exact FP|]. split; [exact FL|]. split.
      { intros y I. rewrite LF2 in I. apply in_app_or in I as [I|[<-|[]]]; [now apply PD|]. cbn. symmetry. apply Nat.ltb_ge. lia. }
      split; [exact K0|]. intros j EJ. destruct (KS j EJ) as [X [Y|[Y Z]]]; [auto|lia]. }
    destruct rr as [[|]|].
    + (* a new surface *)
      destruct (LF3 eq_refl) as [NX1 NEW].
      assert (VN : vis (q_next q) (i_n i) = true).
      { destruct NEW as [E|(x & l & E & ON)].
        - destruct (i_sp i) eqn:SPI.
          { exfalso. destruct (S1 eq_refl) as [X|X]; [|discriminate]. rewrite E in X. cbn in X. lia. }
          assert (NXZ : q_next q = 0) by (rewrite NXT, E, (S0 eq_refl); reflexivity).
          assert (NZ : i_n i = 0).
          { destruct (i_n i) eqn:EN; [reflexivity|]. exfalso. apply LIVE; [|exact E]. left. rewrite PT.
            apply last_valid_some.
            - unfold all_valid in *. rewrite Forall_forall in *. intros y Y. apply VAL. rewrite <- (firstn_skipn (S n) items). apply in_or_app. now left.
            - destruct items; [cbn in NL; lia|discriminate]. }
          rewrite NXZ, NZ. apply (r_first _ _ _ _ REG).
        - apply (r_loc _ _ _ _ REG) in ON.
          assert (UL : S (s_uid (last l x)) = q_next q).
          { pose proof (k_uid _ _ _ _ _ (ii_K _ _ _ _ _ _ _ II)) as X. rewrite E in X.
            assert (NE : x :: l <> []) by discriminate. destruct (exists_last NE) as (l' & z & Z).
            assert (LZ : last l x = z).
            { destruct l' as [|y l']; cbn in Z; injection Z as Z1 Z2; [subst; reflexivity|]. subst. apply last_snoc. }
            rewrite Z, app_assoc, map_app in X. rewrite LZ. cbn [map] in X.
            assert (LL : q_next q = S (length (decided w ++ l'))) by (rewrite NXT, E, Z, !app_length; cbn; lia).
            rewrite LL in X |- *. rewrite seq_S in X. apply app_inj_tail in X as [_ X]. cbn in X. lia. }
          rewrite UL in ON. exact ON. }
      assert (NK : 0 < length (decided w) -> length (q_surfs q) = c_min cf - 1).
      { intro KP. destruct (i_sp i) eqn:SPI.
        - destruct (S1 eq_refl) as [X|X]; [lia|discriminate].
        - rewrite (S0 eq_refl) in KP. cbn in KP. lia. }
      assert (HC1 : CP q1).
      { intros a x IA BX VX. rewrite LF1 in IA. rewrite NX1 in BX.
        destruct (Nat.eq_dec x (q_next q)) as [->|NE]; [|apply HC; auto; lia]. exfalso.
        destruct HQ as (P & f & AZ & PB & PU & FB & FP & FL & PD & K0 & KS).
        assert (J : In (a_uid a) (map a_uid (q_az q))) by now apply in_map. rewrite AZ in J. apply in_seq in J.
        destruct (length (decided w)) as [|j] eqn:EK; [rewrite K0 in J by reflexivity; lia|].
        destruct (KS j eq_refl) as [X _]. pose proof (ahead j (q_next q) (a_uid a) ltac:(lia) VX) as Y.
        specialize (NK ltac:(lia)). lia. }
      assert (HL1 : LV (decided w ++ q_surfs q1)).
      { rewrite SQ. intros x I. rewrite app_assoc in I. apply in_app_or in I as [I|[<-|[]]]; [now apply HL|]. exact VN. }
      match goal with |- full_ok ?X => change X with (post cf o (mk_inp r (S (i_n i)) (Some p) (Some t) false false (i_sp i)) q1 w
         (mk_mon (m_work m + 1)%Q (m_sub m) (m_cals m ++ [0 + i_n i]))) end.
      match type of OK with step_ok _ _ _ ?X => change X with (post cf o (mk_inp r (S (i_n i)) (Some p) (Some t) false false (i_sp i)) q1 w
         (mk_mon (m_work m + 1)%Q (m_sub m) (m_cals m ++ [0 + i_n i]))) in OK end.
      apply post_full; cbn [i_gap i_resume i_n i_sp i_rest]; auto; try lia.
      * apply (ii_O _ _ _ _ _ _ _ II).
      * pose proof (ii_rest _ _ _ _ _ _ _ II) as X. rewrite ER in X. clear - X. revert X. generalize (i_n i). intros n X.
        symmetry in X. revert items X. induction n as [|n IH]; intros [|y l] X; cbn in X |- *; try discriminate.
        -- now injection X.
        -- now apply IH in X.
      * rewrite SQ. now destruct (q_surfs q).
      * intro PR. right. rewrite SQ, app_length in *. cbn [length] in *.
        assert (LQ : length (q_surfs q) = c_min cf - 1).
        { destruct (i_sp i) eqn:SPI; [destruct (S1 eq_refl) as [X|X]; [lia|discriminate]|].
          cbn in PR. apply Nat.leb_le in PR. destruct (FEW SPI) as [X|X]; [rewrite X in *; cbn in *|]; lia. }
        split; [lia|]. destruct (Nat.le_gt_cases (i_n i) (S (hi (length (decided w))))) as [L|L]; [|lia].
        exfalso. pose proof (ahead _ _ _ L VN). lia.
    + (* no new surface *)
      cbn in OK |- *. constructor; cbn [s_in s_q s_out i_gap i_resume i_n i_sp i_rest]; auto.
      * intros a x IA BX VX. rewrite LF1 in IA. rewrite LF4 in BX by discriminate. now apply HC.
      * destruct SQ as (-> & _). exact HL.
      * intro SPI. destruct SQ as (-> & _). destruct (S1 SPI) as [X|X]; [now left|discriminate].
    + (* the burst before is missing: impossible *)
      exfalso. destruct SQ as (_ & NE & _). destruct (locate_none o _ _ _ _ LO) as [x X].
      destruct HQ as (P & f & AZ & PB & PU & FB & _). specialize (SN NE).
      rewrite LF2 in X. assert (Y : length (q_packs q) = i_n i - f) by (rewrite <- (map_length p_uid), PU; apply seq_length).
      apply (f_equal (@length packet)) in X. rewrite app_length in X. cbn in X. lia.
Qed.
Definition all_complete (r : outcome) : Prop :=
  (forall s, r <> ORaise EPrevBurst s) /\
  forall x, In x (decided (s_out (final r))) -> complete x.

Lemma loop_full : forall cancel fuel k s, FI s -> all_complete (loop cf o 0 cancel fuel k s).
Proof.
  intros cancel. induction fuel as [|f IH]; intros k s H; cbn [loop].
  - split; [discriminate|]. exact (f_done _ H).
  - pose proof (body_full s H) as B. destruct (body cf o 0 s) as [s1|s1|e s1]; cbn in B |- *.
    + destruct (cancel k); [|now apply IH]. split; [discriminate|]. exact (f_done _ B).
    + split; [discriminate|exact B].
    + destruct B as [B1 B2]. split; [intros s' E; inversion E; congruence|exact B2].
Qed.

Lemma init_full : FI (init [] [] 0 items).
Proof.
  constructor; cbn; auto; try discriminate; try tauto.
  - apply init_inv.
  - exists 0, 0. cbn. split; [reflexivity|]. split; [lia|]. split; [reflexivity|]. split; [now right|]. split; [lia|].
    split; [lia|]. split; [intros p []|]. split; [reflexivity|]. discriminate.
  - intros a s []. 
  - intros x [].
Qed.

Lemma run_full : forall cancel, all_complete (run cf o cancel items).
Proof. intro cancel. apply loop_full. apply init_full. Qed.

Lemma run_seeing : forall cancel x, In x (decided (s_out (final (run cf o cancel items)))) ->
  bursts_of x = seeing o items x.
Proof.
  intros cancel x I. apply increasing_ext.
  - apply (stack_once cf o cancel items). unfold known_surfaces. apply in_or_app. now left.
  - apply filter_increasing. apply seq_increasing.
  - intro b. destruct (run_full cancel) as [_ H]. rewrite (H x I b). unfold seeing. rewrite filter_In, in_seq. split; intros [? ?]; split; auto; lia.
Qed.
End Full.
