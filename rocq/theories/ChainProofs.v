From Coq Require Import List ZArith QArith Bool Lia Arith Sorted.
From Coq Require Import ZifyBool ZifyNat.
From Verif Require Import Common BeamModel BeamSpec BeamProofs ChainModel ChainSpec.
Import ListNotations.
Local Open Scope nat_scope.

Arguments handle_packet : simpl never.
Arguments locate : simpl never.
Arguments surface_phase : simpl never.
Arguments read_phase : simpl never.
Arguments body : simpl never.

(* ================================================================== *)
(** * Queues keep their shape *)

Lemma pair_loop_uid : forall N p t size surfs idx seen,
  map s_uid (pair_loop N p t size idx seen surfs) = map s_uid surfs.
Proof.
  induction surfs as [|s ss IH]; intros idx seen; destruct seen; cbn; auto.
  destruct (Nat.eqb (s_counter s) n); cbn; now rewrite IH.
Qed.
Lemma pair_loop_counter : forall N p t size surfs idx seen,
  map s_counter (pair_loop N p t size idx seen surfs) = map s_counter surfs.
Proof.
  induction surfs as [|s ss IH]; intros idx seen; destruct seen; cbn; auto.
  destruct (Nat.eqb (s_counter s) n); cbn; now rewrite IH.
Qed.
Lemma pair_loop_loc : forall N p t size surfs idx seen,
  map s_loc (pair_loop N p t size idx seen surfs) = map s_loc surfs.
Proof.
  induction surfs as [|s ss IH]; intros idx seen; destruct seen; cbn; auto.
  destruct (Nat.eqb (s_counter s) n); cbn; now rewrite IH.
Qed.

(** identity, number and location of surfaces, in queue order *)
Definition skey (s : surface) := (s_uid s, s_counter s, s_loc s).

Lemma pair_loop_key : forall N p t size surfs idx seen,
  map skey (pair_loop N p t size idx seen surfs) = map skey surfs.
Proof.
  induction surfs as [|s ss IH]; intros idx seen; destruct seen; cbn; auto.
  destruct (Nat.eqb (s_counter s) n); cbn; now rewrite IH.
Qed.

(** identity, record and time of bursts, in queue order *)
Definition pkey (p : packet) := (p_uid p, p_counter p, p_time p).

Lemma burst_loop_keys : forall cf o wuid todo visited q e q',
  burst_loop cf o wuid visited todo q = (e, q') ->
  map skey (q_surfs q') = map skey (q_surfs q)
  /\ map pkey (q_packs q') = map pkey (visited ++ todo)
  /\ q_count q' = q_count q /\ q_next q' = q_next q.
Proof.
  intros cf o wuid. induction todo as [|p rest IH]; intros visited q e q' H; cbn [burst_loop] in H.
  - inversion H; subst; cbn. rewrite app_nil_r. auto.
  - destruct (p_done p) eqn:D.
    + apply IH in H. rewrite <- app_assoc in H. exact H.
    + destruct (beam_step cf o wuid p q) as [[[seen t] surfs'] wseen] eqn:B.
      assert (KS : map skey surfs' = map skey (q_surfs q)).
      { unfold beam_step in B. inversion B; subst. apply pair_loop_key. }
      destruct (azimuth_fails cf o p seen t).
      * inversion H; subst; cbn. auto.
      * destruct wseen.
        -- apply IH in H. cbn in H. destruct H as (H1 & H2 & H3 & H4).
           rewrite H1, H2, H3, H4. repeat split; auto.
           rewrite !map_app. cbn. rewrite <- app_assoc. reflexivity.
        -- inversion H; subst; cbn. rewrite !map_app; cbn. auto.
Qed.

Lemma surface_phase_len : forall cf o q w q' w',
  surface_phase cf o q w = (None, q', w') ->
  length (q_surfs q) = S (length (q_surfs q')).
Proof.
  intros cf o q w q' w' H. unfold surface_phase in H.
  destruct (q_surfs q) as [|s0 sr] eqn:ES; [discriminate|].
  destruct (burst_loop cf o (s_uid s0) [] (q_packs q) q) as [e q1] eqn:B.
  apply burst_loop_keys in B. destruct B as (B1 & _).
  destruct e; [discriminate|].
  destruct (q_surfs q1) as [|s1 rest] eqn:E1.
  - rewrite ES in B1. discriminate.
  - assert (L : length (s1 :: rest) = length (s0 :: sr)).
    { rewrite <- (map_length skey (s1 :: rest)), B1, ES, map_length. reflexivity. }
    cbn [length] in L |- *.
    destruct (stack_size cf s1 <? c_looks cf / 2).
    { inversion H; subst; cbn. lia. }
    destruct (o_corr_fail o (s_uid s1)); [discriminate|].
    destruct (o_w1_fail o (s_uid s1)); [discriminate|].
    destruct (c_l1bs cf && o_w2_fail o (s_uid s1)); [discriminate|].
    destruct (q_packs q1); destruct (s_stack s1); inversion H; subst; cbn; lia.
Qed.

(* ================================================================== *)
(** * Termination *)

Definition b2n (b : bool) : nat := if b then 1 else 0.

Definition measure (s : st) : nat :=
  3 * length (i_rest (s_in s)) + length (q_surfs (s_q s))
  + 2 * b2n (i_gap (s_in s) || i_resume (s_in s)).

Lemma locate_surfs_len : forall o f p q r q',
  locate o f p q = (r, q') ->
  length (q_surfs q') = length (q_surfs q) + match r with Some true => 1 | _ => 0 end.
Proof.
  intros o f p q r q' H. unfold locate in H.
  destruct (q_surfs q) as [|s ss] eqn:E.
  - inversion H; subst; cbn. reflexivity.
  - destruct f.
    + inversion H; subst; cbn. rewrite app_length; cbn; lia.
    + destruct (q_packs q ++ [p]) as [|a [|b l]].
      * inversion H; subst; cbn. rewrite ?E; cbn; lia.
      * inversion H; subst; cbn. rewrite ?E; cbn; lia.
      * destruct (o_new o _ _); inversion H; subst; cbn; rewrite ?app_length; cbn; lia.
Qed.

Lemma end_phase_measure : forall i q w m s',
  end_phase i q w m = BCont s' ->
  measure s' <= measure (mk_st i q w m).
Proof.
  intros i q w m s' H. unfold end_phase in H.
  destruct (q_surfs q) eqn:E.
  - destruct (i_gap i) eqn:G; inversion H; subst; unfold measure; cbn; rewrite ?G, ?E; cbn; lia.
  - inversion H; subst. lia.
Qed.

Lemma end_phase_not_gap_done : forall i q w m s',
  end_phase i q w m = BCont s' -> i_gap i = false -> q_surfs q <> [] /\ s' = mk_st i q w m.
Proof.
  intros i q w m s' H G. unfold end_phase in H. rewrite G in H.
  destruct (q_surfs q) eqn:E; inversion H; subst. split; auto. discriminate.
Qed.


Definition cur_ok (i : inp) : Prop :=
  i_gap i || i_resume i = true -> i_cur i <> None.

Lemma handle_go : forall cf o i q m i' q' m',
  handle_packet cf o i q m = RGo i' q' m' ->
  i_rest i' = i_rest i /\ i_n i' = i_n i /\ i_cur i' = i_cur i /\ i_sp i' = i_sp i /\
  ((i_cur i = None /\ i' = i /\ q' = q) \/
   (exists p, i_cur i = Some p /\ i_gap i' = i_gap i /\ i_resume i' = false /\
      locate o (i_resume i) p q = (Some true, q')) \/
   (exists p, i_cur i = Some p /\ i_gap i' = true /\ i_resume i' = i_resume i /\ q' = q
      /\ exists t0, i_pt i = Some t0)).
Proof.
  intros cf o i q m i' q' m' H. unfold handle_packet in H.
  destruct (i_cur i) as [p|] eqn:C.
  - destruct (i_pt i) as [t0|] eqn:PT.
    + destruct (lt_q (p_time p - t0) (c_gap cf)).
      * destruct (locate o (i_resume i) p q) as [r q1] eqn:L.
        destruct r as [[|]|]; inversion H; subst; cbn.
        repeat (split; auto). right; left. exists p. auto.
      * inversion H; subst; cbn. repeat (split; auto). right; right. exists p. repeat (split; eauto).
    + destruct (locate o (i_resume i) p q) as [r q1] eqn:L.
      destruct r as [[|]|]; inversion H; subst; cbn.
      repeat (split; auto). right; left. exists p. auto.
  - inversion H; subst. repeat (split; auto).
Qed.

Lemma handle_continue : forall cf o i q m i' q' m',
  handle_packet cf o i q m = RContinue i' q' m' ->
  i_rest i' = i_rest i /\ i_n i' = i_n i /\ i_cur i' = i_cur i /\ i_sp i' = i_sp i /\
  i_gap i' = i_gap i /\ i_resume i' = false /\
  exists p, i_cur i = Some p /\ locate o (i_resume i) p q = (Some false, q').
Proof.
  intros cf o i q m i' q' m' H. unfold handle_packet in H.
  destruct (i_cur i) as [p|] eqn:C; [|discriminate].
  destruct (match i_pt i with Some t0 => _ | None => true end); [|discriminate].
  destruct (locate o (i_resume i) p q) as [r q1] eqn:L.
  destruct r as [[|]|]; inversion H; subst; cbn.
  repeat (split; auto). exists p. auto.
Qed.

Lemma locate_false : forall o f p q q',
  locate o f p q = (Some false, q') ->
  f = false /\ q_surfs q' = q_surfs q /\ q_surfs q <> [].
Proof.
  intros o f p q q' H. unfold locate in H.
  destruct (q_surfs q) as [|s ss] eqn:E; [discriminate|].
  destruct f; [discriminate|].
  destruct (q_packs q ++ [p]) as [|a [|b l]]; try discriminate.
  destruct (o_new o _ _); inversion H; subst; cbn. repeat split; auto; try congruence.
Qed.

Lemma body_decreases : forall cf o base s s',
  cur_ok (s_in s) ->
  body cf o base s = BCont s' ->
  measure s' < measure s /\ cur_ok (s_in s').
Proof.
  intros cf o base s s' J H. unfold body in H.
  destruct (read_phase cf o base s) as [i q m|i q m|e i q m] eqn:R; [| |discriminate].
  - (* RGo *)
    assert (C : cur_ok i /\
        (measure (mk_st i q (s_out s) m) < measure s \/
         (measure (mk_st i q (s_out s) m) = measure s /\ (i_sp i || i_gap i = true)))).
    { unfold read_phase in R. destruct s as [ii qq ww mm]; cbn in R, J. unfold cur_ok in J.
      destruct (i_gap ii) eqn:G.
      - inversion R; subst. split.
        + unfold cur_ok. rewrite ?G. auto.
        + right. rewrite ?G, orb_true_r. split; auto.
      - destruct (i_resume ii) eqn:RS.
        + apply handle_go in R. destruct R as (R1 & R2 & R3 & R4 & [R5 | [R5 | R5]]).
          * destruct R5 as (R5 & _). cbn in J. tauto.
          * destruct R5 as (p & R5 & R6 & R7 & R8). apply locate_surfs_len in R8.
            split; [unfold cur_ok; rewrite ?R6, ?R7, ?G; discriminate|].
            left. unfold measure; cbn. rewrite ?R6, ?R7, ?R8, ?R1, ?G, ?RS. cbn. lia.
          * destruct R5 as (p & R5 & R6 & R7 & R8 & _). subst q.
            split; [unfold cur_ok; rewrite ?R3, ?R5; discriminate|].
            right. rewrite ?R6, orb_true_r. split; auto.
            unfold measure; cbn. rewrite ?R6, ?R1, ?G, ?RS. reflexivity.
        + destruct (i_rest ii) as [|[t| |] r] eqn:ER.
          * destruct (i_sp ii) eqn:SP; [|discriminate].
            apply handle_go in R. cbn in R. destruct R as (R1 & R2 & R3 & R4 & [R5 | [R5 | R5]]).
            -- destruct R5 as (_ & -> & ->). split; [unfold cur_ok; cbn; rewrite ?G, ?RS; discriminate|].
               right. cbn. rewrite ?SP. split; auto.
               unfold measure; cbn. rewrite ?ER, ?G, ?RS. reflexivity.
            -- destruct R5 as (p & R5 & _). discriminate.
            -- destruct R5 as (p & R5 & _). discriminate.
          * apply handle_go in R. cbn in R. destruct R as (R1 & R2 & R3 & R4 & [R5 | [R5 | R5]]).
            -- destruct R5 as (R5 & _). discriminate.
            -- destruct R5 as (p & R5 & R6 & R7 & R8). apply locate_surfs_len in R8.
               split; [unfold cur_ok; rewrite ?R6, ?R7, ?G; discriminate|].
               left. unfold measure; cbn. rewrite ?R6, ?R7, ?R8, ?R1, ?G, ?RS, ?ER. cbn. lia.
            -- destruct R5 as (p & R5 & R6 & R7 & R8 & _). subst q.
               split; [unfold cur_ok; rewrite ?R3; discriminate|].
               left. unfold measure; cbn. rewrite ?R6, ?R1, ?G, ?RS, ?ER. cbn. lia.
          * apply handle_go in R. cbn in R. destruct R as (R1 & R2 & R3 & R4 & [R5 | [R5 | R5]]).
            -- destruct R5 as (_ & -> & ->). split; [unfold cur_ok; cbn; rewrite ?G, ?RS; discriminate|].
               left. unfold measure; cbn. rewrite ?ER, ?G, ?RS. cbn. lia.
            -- destruct R5 as (p & R5 & _). discriminate.
            -- destruct R5 as (p & R5 & _). discriminate.
          * discriminate. }
    destruct C as (C1 & C2).
    destruct (i_sp i || (c_min cf <=? length (q_surfs q)) || i_gap i) eqn:SP.
    + destruct (surface_phase cf o q (s_out s)) as [[e q1] w1] eqn:P.
      destruct e; [discriminate|].
      apply surface_phase_len in P.
      pose proof (end_phase_measure _ _ _ _ _ H) as EM.
      split.
      * unfold measure in EM, C2 |- *; cbn in EM, C2. lia.
      * unfold end_phase in H. unfold cur_ok in *.
        destruct (q_surfs q1).
        -- cbn in H. destruct (i_gap i) eqn:G; inversion H; subst; cbn.
           intros _. apply C1. reflexivity.
        -- inversion H; subst; cbn. exact C1.
    + assert (G : i_gap i = false /\ i_sp i = false).
      { destruct (i_gap i), (i_sp i); auto; rewrite ?orb_true_r in SP; discriminate. }
      destruct G as [G SP']. rewrite G, SP' in C2.
      destruct (end_phase_not_gap_done _ _ _ _ _ H G) as [_ ->].
      split; auto. destruct C2 as [C2|[_ C2]]; [auto|discriminate].
  - (* RContinue *)
    inversion H; subst; clear H. unfold read_phase in R. destruct s as [ii qq ww mm]; cbn in *.
    unfold cur_ok in J.
    destruct (i_gap ii) eqn:G; [discriminate|].
    destruct (i_resume ii) eqn:RS.
    + apply handle_continue in R. rewrite RS in R.
      destruct R as (R1 & R2 & R3 & R4 & R5 & R6 & p & R7 & R8).
      apply locate_false in R8. destruct R8; discriminate.
    + destruct (i_rest ii) as [|[t| |] r] eqn:ER; try discriminate.
      * destruct (i_sp ii); [|discriminate].
        apply handle_continue in R. destruct R as (_ & _ & _ & _ & _ & _ & p & R7 & _). discriminate.
      * apply handle_continue in R. cbn in R.
        destruct R as (R1 & R2 & R3 & R4 & R5 & R6 & p & R7 & R8).
        apply locate_surfs_len in R8. split.
        -- unfold measure; cbn. rewrite ?R1, ?R5, ?R6, ?R8, ?ER, ?G, ?RS. cbn. lia.
        -- unfold cur_ok. rewrite ?R5, ?R6, ?G. discriminate.
Qed.

Lemma loop_fuel : forall cf o base cancel fuel k s,
  cur_ok (s_in s) -> measure s < fuel ->
  forall s', loop cf o base cancel fuel k s <> OFuel s'.
Proof.
  intros cf o base cancel. induction fuel as [|f IH]; intros k s J M s'; [lia|].
  cbn [loop]. destruct (body cf o base s) as [s1|s1|e s1] eqn:B; try discriminate.
  destruct (cancel k); [discriminate|].
  destruct (body_decreases _ _ _ _ _ J B). apply IH; auto. lia.
Qed.

Lemma run_from_terminates : forall cf o cancel surfs0 packs0 base snext input s,
  run_from cf o cancel surfs0 packs0 base snext input <> OFuel s.
Proof.
  intros. unfold run_from. apply loop_fuel.
  - unfold cur_ok; cbn. discriminate.
  - unfold measure, enough; cbn. lia.
Qed.

(** More fuel changes nothing: the bound is not an arbitrary cut-off. *)
Lemma loop_more_fuel : forall cf o base cancel f k s extra,
  (forall s', loop cf o base cancel f k s <> OFuel s') ->
  loop cf o base cancel (f + extra) k s = loop cf o base cancel f k s.
Proof.
  intros cf o base cancel. induction f as [|f IH]; intros k s extra H.
  - cbn in H. exfalso. exact (H s eq_refl).
  - cbn [loop Nat.add]. cbn [loop] in H.
    destruct (body cf o base s) as [s1|s1|e s1]; auto.
    destruct (cancel k); auto.
Qed.

(* ------------------------------------------------------------------ *)
(** * What is beam-formed was queued *)

Lemma burst_loop_az : forall cf o wuid todo visited q e q' a,
  burst_loop cf o wuid visited todo q = (e, q') -> In a (q_az q') ->
  In a (q_az q) \/ exists p, In p todo /\ p_uid p = a_uid a.
Proof.
  intros cf o wuid. induction todo as [|p rest IH]; intros visited q e q' a H Ha; cbn [burst_loop] in H.
  - inversion H; subst. auto.
  - destruct (p_done p).
    + eapply IH in H; eauto. destruct H as [H|(x & Hx & E)]; auto. right. exists x. cbn; auto.
    + destruct (beam_step cf o wuid p q) as [[[seen t] surfs'] wseen].
      assert (HH : In a (q_az q ++ [mk_beamed (p_uid p) seen t]) ->
                 In a (q_az q) \/ exists x, In x (p :: rest) /\ p_uid x = a_uid a).
      { intro X. apply in_app_or in X. destruct X as [X|[<-|[]]]; auto. right. exists p. cbn; auto. }
      destruct (azimuth_fails cf o p seen t); [inversion H; subst; auto|].
      destruct wseen; [|inversion H; subst; auto].
      eapply IH in H; eauto. cbn in H. destruct H as [H|(x & Hx & E)]; auto.
      right. exists x. cbn; auto.
Qed.

Lemma surface_phase_az : forall cf o q w e q' w' a,
  surface_phase cf o q w = (e, q', w') -> In a (q_az q') ->
  In a (q_az q) \/ exists p, In p (q_packs q) /\ p_uid p = a_uid a.
Proof.
  intros cf o q w e q' w' a H Ha. unfold surface_phase in H.
  destruct (q_surfs q) as [|s0 sr] eqn:ES; [inversion H; subst; auto|].
  destruct (burst_loop cf o (s_uid s0) [] (q_packs q) q) as [e1 q1] eqn:BL.
  assert (X : q_az q' = q_az q1).
  { destruct e1; [inversion H; subst; auto|].
    destruct (q_surfs q1); [inversion H; subst; auto|].
    destruct (stack_size cf s <? c_looks cf / 2); [inversion H; subst; auto|].
    destruct (o_corr_fail o (s_uid s)); [inversion H; subst; auto|].
    destruct (o_w1_fail o (s_uid s)); [inversion H; subst; auto|].
    destruct (c_l1bs cf && o_w2_fail o (s_uid s)); [inversion H; subst; auto|].
    destruct (q_packs q1); destruct (s_stack s); inversion H; subst; auto. }
  rewrite X in Ha. eapply burst_loop_az; eauto.
Qed.


Lemma burst_loop_why : forall cf o wuid todo visited q e q',
  burst_loop cf o wuid visited todo q = (Some e, q') ->
  e = EAzimuth /\ exists a, In a (q_az q') /\
    (o_az_fail o (a_uid a) = true \/
     (c_approx cf = true /\ is_ok (nadir_beam (c_N cf) (a_seen a) (a_trend a)) = false)).
Proof.
  intros cf o wuid. induction todo as [|p rest IH]; intros visited q e q' H; cbn [burst_loop] in H.
  - discriminate.
  - destruct (p_done p); [eauto|].
    destruct (beam_step cf o wuid p q) as [[[seen t] surfs'] wseen].
    destruct (azimuth_fails cf o p seen t) eqn:F.
    + inversion H; subst. split; auto. exists (mk_beamed (p_uid p) seen t). cbn [q_az a_uid a_seen a_trend].
      split; [apply in_or_app; right; left; reflexivity|].
      unfold azimuth_fails in F. destruct (o_az_fail o (p_uid p)); auto. cbn [orb] in F.
      right. destruct (c_approx cf); cbn [andb] in F; [|discriminate]. split; auto.
      destruct (is_ok (nadir_beam (c_N cf) seen t)); auto.
    + destruct wseen; [eauto|discriminate].
Qed.

(** why an exception left the loop *)
Definition why (cf : cfg) (o : oracle) (items : list item) (e : err) (i : inp) (q : que) : Prop :=
  match e with
  | EInsufficient => i_rest i = [] /\ (q_surfs q = [] \/ length (q_surfs q) < c_min cf)
  | ERead => exists k, i_n i = S k /\ nth_error items k = Some ReadFail
  | ENoSurface => c_min cf = 0
  | EPrevBurst => exists p, q_packs q = [p]
  | EAzimuth => exists a, In a (q_az q) /\
      (o_az_fail o (a_uid a) = true \/
       (c_approx cf = true /\ is_ok (nadir_beam (c_N cf) (a_seen a) (a_trend a)) = false))
  | ECorrection => exists s r, q_surfs q = s :: r /\ o_corr_fail o (s_uid s) = true
  | EWriteL1B => exists s r, q_surfs q = s :: r /\ o_w1_fail o (s_uid s) = true
  | EWriteL1BS => exists s r, q_surfs q = s :: r /\ o_w2_fail o (s_uid s) = true
  | EStackEmpty => c_looks cf < 2
  end.

Lemma surface_phase_why : forall cf o items q w e q' w' i,
  surface_phase cf o q w = (Some e, q', w') ->
  (q_surfs q = [] /\ e = ENoSurface) \/ why cf o items e i q'.
Proof.
  intros cf o items q w e q' w' i H. unfold surface_phase in H.
  destruct (q_surfs q) as [|s0 sr] eqn:ES; [inversion H; subst; auto|].
  destruct (burst_loop cf o (s_uid s0) [] (q_packs q) q) as [e1 q1] eqn:BL.
  right. destruct e1 as [e1|].
  { inversion H; subst. apply burst_loop_why in BL. destruct BL as (-> & BL). exact BL. }
  pose proof (burst_loop_keys _ _ _ _ _ _ _ _ BL) as (KS & _).
  rewrite ES in KS.
  destruct (q_surfs q1) as [|s r] eqn:E1; [discriminate|].
  destruct (stack_size cf s <? c_looks cf / 2) eqn:SS; [discriminate|].
  destruct (o_corr_fail o (s_uid s)) eqn:F1; [inversion H; subst; cbn; eauto|].
  destruct (o_w1_fail o (s_uid s)) eqn:F2; [inversion H; subst; cbn; eauto|].
  destruct (c_l1bs cf && o_w2_fail o (s_uid s)) eqn:F3.
  { inversion H; subst. apply andb_true_iff in F3. cbn. exists s, r. tauto. }
  destruct (q_packs q1); destruct (s_stack s) eqn:ST; inversion H; subst; cbn.
  unfold stack_size in SS. rewrite ST in SS. cbn [length] in SS.
  destruct (c_looks cf) as [|[|n]]; try lia.
  change (0 <? S (S n)) with true in SS. cbn iota in SS.
  apply Nat.ltb_ge in SS. pose proof (Nat.div_str_pos (S (S n)) 2). lia.
Qed.
