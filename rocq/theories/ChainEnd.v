(** Further facts about runs: how they end, cancellation, progress. *)
From Coq Require Import List ZArith QArith Bool Lia Arith Sorted Lqa Permutation.
From Coq Require Import ZifyBool ZifyNat.
From Verif Require Import Common BeamModel BeamSpec BeamProofs ChainModel ChainSpec ChainAux ChainProofs ChainInv ChainMain ChainFacts.
Import ListNotations.
Local Open Scope nat_scope.

Arguments Nat.div : simpl never.
Arguments Nat.ltb : simpl never.
Arguments Nat.leb : simpl never.
Arguments last_valid : simpl never.
Arguments firstn : simpl never.
Arguments Z.of_nat : simpl never.

(* ------------------------------------------------------------------ *)
(** * Cancellation *)

Lemma surface_phase_out : forall cf o q w e q' w',
  surface_phase cf o q w = (e, q', w') ->
  (exists l, w_l1b w' = w_l1b w ++ l /\ length l <= 1) /\
  (exists l, w_l1bs w' = w_l1bs w ++ l /\ length l <= 1).
Proof.
  intros cf o q w e q' w' H. unfold surface_phase in H.
  assert (T : forall (x : list surface), exists l, x = x ++ l /\ length l <= 1)
    by (intro x; exists []; rewrite app_nil_r; split; cbn; auto).
  assert (U : forall (x : list surface) y, exists l, x ++ [y] = x ++ l /\ length l <= 1)
    by (intros x y; exists [y]; split; cbn; auto).
  destruct (q_surfs q) as [|s0 sr]; [inversion H; subst; auto|].
  destruct (burst_loop cf o (s_uid s0) [] (q_packs q) q) as [e1 q1].
  destruct e1 as [e1|]; [inversion H; subst; auto|].
  destruct (q_surfs q1) as [|s r]; [inversion H; subst; auto|].
  destruct (stack_size cf s <? c_looks cf / 2); [inversion H; subst; auto|].
  destruct (o_corr_fail o (s_uid s)); [inversion H; subst; auto|].
  destruct (o_w1_fail o (s_uid s)); [inversion H; subst; auto|].
  destruct (c_l1bs cf && o_w2_fail o (s_uid s)); [inversion H; subst; cbn; auto|].
  destruct (q_packs q1); destruct (s_stack s); inversion H; subst; cbn; split; auto;
    destruct (c_l1bs cf); auto.
Qed.

Definition res_st (r : step_res) : st :=
  match r with BCont s => s | BEnd s => s | BRaise _ s => s end.

Lemma body_out : forall cf o base s,
  (exists l, w_l1b (s_out (res_st (body cf o base s))) = w_l1b (s_out s) ++ l /\ length l <= 1) /\
  (exists l, w_l1bs (s_out (res_st (body cf o base s))) = w_l1bs (s_out s) ++ l /\ length l <= 1).
Proof.
  intros cf o base s.
  assert (T : forall (x : list surface), exists l, x = x ++ l /\ length l <= 1)
    by (intro x; exists []; rewrite app_nil_r; split; cbn; auto).
  unfold body. destruct (read_phase cf o base s) as [i q m|i q m|e i q m]; cbn; auto.
  destruct (i_sp i || (c_min cf <=? length (q_surfs q)) || i_gap i).
  - destruct (surface_phase cf o q (s_out s)) as [[e q1] w1] eqn:SP.
    apply surface_phase_out in SP. destruct e; cbn; auto.
    unfold end_phase. cbn. destruct (q_surfs q1); [destruct (i_gap i)|]; cbn; auto.
  - unfold end_phase. destruct (q_surfs q); [destruct (i_gap i)|]; cbn; auto.
Qed.

Lemma prefix_refl : forall {A} (l : list A), prefix l l.
Proof. intros. exists []. now rewrite app_nil_r. Qed.
Lemma prefix_trans : forall {A} (a b c : list A), prefix a b -> prefix b c -> prefix a c.
Proof. intros A a b c (x & ->) (y & ->). exists (x ++ y). now rewrite app_assoc. Qed.

Lemma loop_out : forall cf o base cancel fuel k s,
  prefix (w_l1b (s_out s)) (written (loop cf o base cancel fuel k s)) /\
  prefix (w_l1bs (s_out s)) (written_l1bs (loop cf o base cancel fuel k s)).
Proof.
  intros cf o base cancel. induction fuel as [|f IH]; intros k s; cbn [loop].
  - split; apply prefix_refl.
  - destruct (body_out cf o base s) as ((l1 & E1 & _) & (l2 & E2 & _)).
    destruct (body cf o base s) as [s1|s1|e s1]; cbn [res_st] in E1, E2.
    2,3: unfold written, written_l1bs; cbn; rewrite E1, E2; split; eexists; reflexivity.
    assert (P : prefix (w_l1b (s_out s)) (w_l1b (s_out s1)) /\
                prefix (w_l1bs (s_out s)) (w_l1bs (s_out s1))).
    { rewrite E1, E2. split; eexists; reflexivity. }
    destruct (cancel k); [exact P|].
    destruct (IH (S k) s1). destruct P. split; eapply prefix_trans; eauto.
Qed.

Lemma loop_cancel : forall cf o base cancel fuel k s,
  loop cf o base cancel fuel k s = loop cf o base no_cancel fuel k s \/
  (exists s', loop cf o base cancel fuel k s = OEnd s' true /\
     prefix (written (OEnd s' true)) (written (loop cf o base no_cancel fuel k s)) /\
     prefix (written_l1bs (OEnd s' true)) (written_l1bs (loop cf o base no_cancel fuel k s))).
Proof.
  intros cf o base cancel. induction fuel as [|f IH]; intros k s; cbn [loop]; auto.
  destruct (body cf o base s) as [s1|s1|e s1]; auto.
  change (no_cancel k) with false. cbn iota.
  destruct (cancel k); auto.
  right. exists s1. split; auto. apply (loop_out cf o base no_cancel f (S k) s1).
Qed.

Lemma loop_cancel_prompt : forall cf o base cancel fuel j k s,
  cancel (j + k) = true ->
  length (written (loop cf o base cancel fuel k s))
    <= S (length (written (loop cf o base no_cancel j k s))).
Proof.
  intros cf o base cancel. induction fuel as [|f IH]; intros j k s Hc.
  - cbn [loop]. destruct (loop_out cf o base no_cancel j k s) as ((l & E) & _).
    rewrite E. unfold written; cbn. rewrite app_length. lia.
  - cbn [loop].
    destruct (body_out cf o base s) as ((l1 & E1 & L1) & _).
    destruct j as [|j].
    + cbn [loop]. cbn in Hc.
      destruct (body cf o base s) as [s1|s1|e s1]; cbn [res_st] in E1; rewrite ?Hc;
        unfold written; cbn; rewrite E1, app_length; lia.
    + cbn [loop]. destruct (body cf o base s) as [s1|s1|e s1]; cbn [res_st] in E1.
      * change (no_cancel k) with false. cbn iota. destruct (cancel k).
        -- destruct (loop_out cf o base no_cancel j (S k) s1) as ((l & E) & _).
           rewrite E. unfold written; cbn. rewrite app_length. lia.
        -- apply IH. rewrite <- Hc. f_equal. lia.
      * lia.
      * lia.
Qed.

(* ------------------------------------------------------------------ *)
(** * Normal end *)

Section End.
Variable cf : cfg.
Variable o : oracle.
Variable items : list item.
Notation gapat := (gap_at (c_gap cf) items).
Notation Inv := (Inv cf o items).

Lemma post_end : forall i q w m s',
  post cf o i q w m = BEnd s' -> i_rest (s_in s') = i_rest i /\ i_n (s_in s') = i_n i.
Proof.
  intros i q w m s' H. unfold post in H.
  destruct (i_sp i || (c_min cf <=? length (q_surfs q)) || i_gap i).
  - destruct (surface_phase cf o q w) as [[e q1] w1]. destruct e; [discriminate|].
    unfold end_phase in H. cbn in H. destruct (q_surfs q1); [|discriminate].
    destruct (i_gap i); [discriminate|]. inversion H; subst. auto.
  - unfold end_phase in H. destruct (q_surfs q); [|discriminate].
    destruct (i_gap i); [discriminate|]. inversion H; subst. auto.
Qed.

Lemma post_not_end : forall i q w m s',
  i_gap i = true \/ 2 <= length (q_surfs q) \/ (length (q_surfs q) = 1 /\ i_sp i = false /\ 2 <= c_min cf) ->
  post cf o i q w m <> BEnd s'.
Proof.
  intros i q w m s' C H. unfold post in H.
  destruct (i_sp i || (c_min cf <=? length (q_surfs q)) || i_gap i) eqn:PR.
  - destruct (surface_phase cf o q w) as [[e q1] w1] eqn:SP. destruct e; [discriminate|].
    apply surface_phase_len in SP.
    unfold end_phase in H. cbn in H. destruct (q_surfs q1) eqn:EQ; [|discriminate].
    destruct (i_gap i) eqn:G; [discriminate|]. cbn in SP.
    destruct C as [C|[C|(C1 & C2 & C3)]]; [discriminate|lia|].
    rewrite C2, C1 in PR. cbn in PR. lia.
  - unfold end_phase in H. destruct (q_surfs q); [|discriminate].
    destruct (i_gap i); [discriminate|]. cbn in C. destruct C as [C|[C|C]]; [discriminate|lia|lia].
Qed.

Lemma body_end : forall s s', 2 <= c_min cf -> Inv s -> body cf o 0 s = BEnd s' ->
  i_rest (s_in s') = [] \/ exists k, i_n (s_in s') = S k /\ nth_error items k = Some Nothing.
Proof.
  intros [i q w m] s' HM (H & HL & HF) HB. cbn [s_in s_q s_out s_mon] in *.
  assert (BODY : body cf o 0 (mk_st i q w m) =
     match read_phase cf o 0 (mk_st i q w m) with
     | RRaise e i q m => BRaise e (mk_st i q w m)
     | RContinue i q m => BCont (mk_st i q w m)
     | RGo i q m => post cf o i q w m
     end) by reflexivity.
  rewrite BODY in HB. clear BODY. unfold read_phase in HB. cbn [s_in s_q s_mon] in HB.
  destruct (i_gap i) eqn:G.
  { exfalso. eapply post_not_end; [|exact HB]. auto. }
  destruct (i_resume i) eqn:RS.
  { exfalso. destruct (ii_resume _ _ _ _ _ _ _ H RS) as (ES & SP).
    destruct (ii_cur _ _ _ _ _ _ _ H) as (k & t & Hn & Hc & Hv & Hk & Hp).
    { rewrite RS. apply orb_true_r. }
    unfold handle_packet in HB. rewrite Hc, Hp, RS in HB. unfold locate in HB. rewrite ES in HB.
    eapply post_not_end; [|exact HB]. right. right. cbn. auto. }
  destruct (i_rest i) as [|it r] eqn:ER.
  { left. destruct (i_sp i); [|discriminate]. unfold handle_packet in HB. cbn [i_cur] in HB.
    apply post_end in HB. cbn in HB. tauto. }
  assert (SK := ii_rest _ _ _ _ _ _ _ H). rewrite ER in SK. symmetry in SK.
  apply skipn_cons_nth in SK. destruct SK as (NI & SK & LT).
  destruct it as [t| |]; [|right|discriminate].
  - exfalso. unfold handle_packet in HB. cbn [i_cur i_pt i_resume i_rest i_n i_gap i_sp p_time p_uid] in HB.
    destruct (match i_pt i with None => true | Some t0 => lt_q (t - t0) (c_gap cf) end) eqn:NG.
    2:{ eapply post_not_end; [|exact HB]. cbn; auto. }
    unfold locate in HB.
    destruct (q_surfs q) as [|s ss] eqn:ES.
    + eapply post_not_end; [|exact HB]. right; right. cbn. repeat split; auto.
      destruct (i_sp i) eqn:SP; auto. exfalso. exact (HL (or_intror (or_intror SP)) ES).
    + destruct (q_packs q ++ [mk_packet (0 + i_n i) (i_n i) t false]) as [|? [|? ?]];
        cbn beta iota in HB; [discriminate HB|discriminate HB|].
      cbn [p_uid] in HB.
      destruct (o_new o (s_uid (last ss s)) (0 + i_n i)); [|discriminate HB].
      eapply post_not_end; [|exact HB]. right; left. cbn. rewrite app_length. cbn. lia.
  - exists (i_n i). split; auto. unfold handle_packet in HB. cbn [i_cur] in HB.
    apply post_end in HB. cbn in HB. tauto.
Qed.

Lemma loop_end : forall cancel fuel k s s', 2 <= c_min cf -> Inv s ->
  loop cf o 0 cancel fuel k s = OEnd s' false ->
  i_rest (s_in s') = [] \/ exists k, i_n (s_in s') = S k /\ nth_error items k = Some Nothing.
Proof.
  intros cancel. induction fuel as [|f IH]; intros k s s' HM H E; cbn [loop] in E; [discriminate|].
  pose proof (body_ok cf o items s H) as B.
  destruct (body cf o 0 s) as [s1|s1|e s1] eqn:EB; cbn in B; [| |discriminate].
  - destruct (cancel k); [discriminate|]. eapply IH; eauto.
  - inversion E; subst. eapply body_end; eauto.
Qed.

Lemma run_end : forall cancel s', 2 <= c_min cf -> run cf o cancel items = OEnd s' false ->
  i_rest (s_in s') = [] \/ exists k, i_n (s_in s') = S k /\ nth_error items k = Some Nothing.
Proof. intros cancel s' HM E. eapply loop_end; eauto. apply init_inv. Qed.

(** number of records read and rest, for every outcome *)
Lemma run_read : forall cancel, let s := final (run cf o cancel items) in
  i_rest (s_in s) = skipn (i_n (s_in s)) items /\ i_n (s_in s) <= length items.
Proof.
  intros cancel s. pose proof (run_ok cf o items cancel) as H. subst s.
  destruct (run cf o cancel items) as [s c|e s|s] eqn:E; cbn in *.
  - destruct c; destruct H as (H & _); split; try apply (ii_rest _ _ _ _ _ _ _ H); apply (ii_n _ _ _ _ _ _ _ H).
  - split; [apply (ir_rest _ _ _ _ _ H)|apply (ir_n _ _ _ _ _ H)].
  - destruct H as (H & _); split; try apply (ii_rest _ _ _ _ _ _ _ H); apply (ii_n _ _ _ _ _ _ _ H).
Qed.

(** calibrations of the bursts that were beam-formed *)
Lemma run_cals : forall cancel, let s := final (run cf o cancel items) in
  cals_ok cf items (i_n (s_in s)) (bound (s_in s)) (m_cals (s_mon s)) /\
  (forall a, In a (q_az (s_q s)) ->
    a_uid a < bound (s_in s) /\ exists t, nth_error items (a_uid a) = Some (Valid t)).
Proof.
  intros cancel s. pose proof (run_ok cf o items cancel) as H. subst s.
  destruct (run cf o cancel items) as [s c|e s|s] eqn:E; cbn in *.
  - destruct c; destruct H as (H & _); (split; [apply (ii_cals _ _ _ _ _ _ _ H)|
      apply (pi_az _ _ _ _ (ii_P _ _ _ _ _ _ _ H))]).
  - split; [apply (ir_cals _ _ _ _ _ H)|apply (ir_az _ _ _ _ _ H)].
  - destruct H as (H & _); (split; [apply (ii_cals _ _ _ _ _ _ _ H)|
      apply (pi_az _ _ _ _ (ii_P _ _ _ _ _ _ _ H))]).
Qed.

Lemma run_why : forall cancel e s, run cf o cancel items = ORaise e s ->
  why cf o items e (s_in s) (s_q s).
Proof.
  intros cancel e s E. pose proof (run_ok cf o items cancel) as H. rewrite E in H.
  apply (ir_why _ _ _ _ _ H).
Qed.

(* ------------------------------------------------------------------ *)
(** * Progress *)

Definition G (b : nat) : nat := length (filter (gapb cf items) (seq 0 b)).

Lemma G_S : forall b, G (S b) = G b + (if gapb cf items b then 1 else 0).
Proof.
  intro b. unfold G. rewrite seq_S, filter_app, app_length. cbn [Nat.add filter].
  destruct (gapb cf items b); reflexivity.
Qed.

Local Arguments G : simpl never.
Definition q_of (n : nat) : Q := inject_Z (Z.of_nat n).
Lemma q_of_S : forall n, (q_of (S n) == q_of n + 1)%Q.
Proof. intro n. unfold q_of. rewrite Nat2Z.inj_succ, <- Z.add_1_r, inject_Z_plus. reflexivity. Qed.
Lemma q_of_plus : forall a b, (q_of (a + b) == q_of a + q_of b)%Q.
Proof. intros. unfold q_of. rewrite Nat2Z.inj_add, inject_Z_plus. reflexivity. Qed.
Lemma q_of_nonneg : forall n, (0 <= q_of n)%Q.
Proof. intro n. unfold q_of. change 0%Q with (inject_Z 0). rewrite <- Zle_Qle. lia. Qed.

Local Arguments q_of : simpl never.
Definition unit_of (m : mon) : Q := (1 / inject_Z (Z.of_nat (m_sub m)))%Q.
Definition tot (i : inp) : Q := (q_of (i_n i) + q_of (G (bound i)))%Q.

Lemma unit_nonneg : forall m, (0 <= unit_of m)%Q.
Proof.
  intro m. unfold unit_of, Qdiv. rewrite Qmult_1_l. apply Qinv_le_0_compat. apply (q_of_nonneg (m_sub m)).
Qed.
Lemma unit_sub : forall m, 0 < m_sub m -> (q_of (m_sub m) * unit_of m == 1)%Q.
Proof.
  intros m H. unfold unit_of, q_of. field. intro X. unfold Qeq in X. cbn in X. lia.
Qed.

Definition MW (i : inp) (q : que) (m : mon) : Prop :=
  (m_work m <= tot i + (if i_gap i then 1 - q_of (length (q_surfs q)) * unit_of m else 0))%Q
  /\ (i_gap i = true -> length (q_surfs q) <= m_sub m /\ 0 < m_sub m).

Definition WI (i : inp) (q : que) (m : mon) : Prop :=
  (m_work m <= tot i +
     (if i_gap i then 1 - (q_of (length (q_surfs q)) + 1) * unit_of m
      else if i_resume i then 1 else 0))%Q
  /\ (i_gap i = true -> S (length (q_surfs q)) <= m_sub m).

Definition WS (s : st) : Prop := WI (s_in s) (s_q s) (s_mon s).
Definition WE (s : st) : Prop :=
  (m_work (s_mon s) <= tot (s_in s) + (if i_gap (s_in s) || i_resume (s_in s) then 1 else 0))%Q.

Lemma WI_WE : forall s, WS s -> WE s.
Proof.
  intros s (A & B). unfold WE. destruct (i_gap (s_in s)); cbn [orb]; auto.
  pose proof (unit_nonneg (s_mon s)) as U.
  pose proof (q_of_nonneg (length (q_surfs (s_q s)))) as V.
  assert (0 <= (q_of (length (q_surfs (s_q s))) + 1) * unit_of (s_mon s))%Q.
  { apply Qmult_le_0_compat; lra. }
  lra.
Qed.

Lemma post_work : forall i q w m, MW i q m -> i_resume i = false ->
  match post cf o i q w m with
  | BCont s => WS s
  | BEnd s => WS s
  | BRaise _ s => WE s
  end.
Proof.
  intros i q w m (M1 & M2) RS. unfold post.
  pose proof (unit_nonneg m) as U.
  destruct (i_sp i || (c_min cf <=? length (q_surfs q)) || i_gap i) eqn:PR.
  - destruct (surface_phase cf o q w) as [[e q1] w1] eqn:SP. destruct e.
    + unfold WE. cbn [s_in s_mon]. unfold tot, bound in *. cbn [i_gap i_resume i_n]. rewrite RS in *.
      destruct (i_gap i); cbn [orb] in *; [|lra].
      pose proof (q_of_nonneg (length (q_surfs q))) as V.
      assert (0 <= q_of (length (q_surfs q)) * unit_of m)%Q by (apply Qmult_le_0_compat; lra).
      lra.
    + apply surface_phase_len in SP.
      assert (L : (q_of (length (q_surfs q)) == q_of (length (q_surfs q1)) + 1)%Q).
      { rewrite SP, q_of_S. reflexivity. }
      unfold end_phase. cbn [i_gap i_rest i_n i_cur i_pt].
      destruct (q_surfs q1) eqn:EQ.
      * cbn in L. destruct (i_gap i) eqn:GI.
        -- unfold WS, WI. cbn. unfold tot, bound in *. cbn. rewrite GI in M1. cbn in M1.
           split; [|discriminate]. rewrite L in M1. 
           assert (q_of 0 == 0)%Q as Z by reflexivity. rewrite Z in M1. lra.
        -- unfold WS, WI. cbn. unfold tot, bound in *. cbn. rewrite ?GI, ?RS in *. cbn in *.
           split; [lra|intro; discriminate].
      * rewrite <- EQ in *. unfold WS, WI. cbn. unfold tot, bound in *. cbn. rewrite ?RS in *.
        destruct (i_gap i); cbn [orb] in *; (split; [|intro XX]).
        -- rewrite L in M1. lra.
        -- destruct (M2 eq_refl). lia.
        -- lra.
        -- discriminate.
  - assert (GI : i_gap i = false) by (destruct (i_gap i); auto; rewrite orb_true_r in PR; discriminate).
    unfold end_phase. rewrite GI in *.
    assert (X : WI i q m).
    { unfold WI. rewrite GI, RS. split; auto. intro; discriminate. }
    destruct (q_surfs q); exact X.
Qed.

Lemma body_work : forall s, Inv s -> WS s ->
  match body cf o 0 s with
  | BCont s => WS s
  | BEnd s => WS s
  | BRaise _ s => WE s
  end.
Proof.
  intros [i q w m] (H & HL & HF) (W1 & W2). cbn [s_in s_q s_out s_mon] in *.
  assert (BODY : body cf o 0 (mk_st i q w m) =
     match read_phase cf o 0 (mk_st i q w m) with
     | RRaise e i q m => BRaise e (mk_st i q w m)
     | RContinue i q m => BCont (mk_st i q w m)
     | RGo i q m => post cf o i q w m
     end) by reflexivity.
  rewrite BODY. clear BODY. unfold read_phase. cbn [s_in s_q s_mon].
  destruct (i_gap i) eqn:GI.
  { pose proof (ii_excl _ _ _ _ _ _ _ H) as X. rewrite GI in X. cbn in X.
    apply post_work; auto. unfold MW. rewrite GI. cbn [m_work m_sub].
    change (1 / inject_Z (Z.of_nat (m_sub m)))%Q with (unit_of m).
    change (unit_of {| m_work := m_work m + unit_of m; m_sub := m_sub m; m_cals := m_cals m |})
      with (unit_of m).
    split; [lra|]. intros _. specialize (W2 eq_refl). lia. }
  destruct (i_resume i) eqn:RS.
  { destruct (ii_cur _ _ _ _ _ _ _ H) as (k & t & Hn & Hc & Hv & Hk & Hp).
    { rewrite RS. apply orb_true_r. }
    destruct (ii_resume _ _ _ _ _ _ _ H RS) as (ES & SP).
    unfold handle_packet. rewrite Hc, Hp, RS. unfold locate. rewrite ES.
    apply post_work; auto. unfold MW. cbn. rewrite GI. split; [|discriminate].
    unfold tot, bound in *. cbn. rewrite ?GI, ?RS in *. cbn in *. rewrite Hn in W1 |- *.
    rewrite G_S. replace (gapb cf items k) with true by (symmetry; apply gapb_spec; auto).
    replace (S k - 1) with k in W1 by lia. rewrite q_of_plus. change (q_of 1) with 1%Q. lra. }
  assert (MONO : (q_of (G (i_n i)) <= q_of (G (S (i_n i))))%Q).
  { rewrite G_S, q_of_plus. pose proof (q_of_nonneg (if gapb cf items (i_n i) then 1 else 0)). lra. }
  pose proof (q_of_S (i_n i)) as QS.
  unfold tot, bound in W1. rewrite GI, RS in W1. cbn in W1.
  destruct (i_rest i) as [|it r] eqn:ER.
  { destruct (i_sp i).
    - unfold handle_packet. cbn [i_cur]. apply post_work; auto. unfold MW, tot, bound. cbn.
      split; [lra|discriminate].
    - unfold WE, tot, bound. cbn. lra. }
  destruct it as [t| |].
  - unfold handle_packet. cbn [i_cur i_pt i_resume i_rest i_n i_gap i_sp p_time p_uid m_work m_sub m_cals].
    destruct (match i_pt i with None => true | Some t0 => lt_q (t - t0) (c_gap cf) end) eqn:NG.
    2:{ apply post_work; auto. unfold MW, tot, bound. cbn. rewrite Nat.sub_0_r.
        assert (0 < length (q_surfs q)) as LS.
        { destruct (q_surfs q) eqn:EQ; [|cbn; lia]. exfalso. apply HL; auto. left.
          intro X. rewrite X in NG. discriminate. }
        split; [|auto].
        match goal with |- context [unit_of ?x] => pose proof (unit_sub x) as US end. cbn in US.
        rewrite US by auto. lra. }
    destruct (locate o false (mk_packet (0 + i_n i) (i_n i) t false) q) as [rr q1] eqn:L.
    destruct rr as [[|]|].
    + apply post_work; auto. unfold MW, tot, bound. cbn. split; [lra|discriminate].
    + unfold WS, WI, tot, bound. cbn. split; [lra|discriminate].
    + unfold WE, tot, bound. cbn. lra.
  - unfold handle_packet. cbn [i_cur]. apply post_work; auto. unfold MW, tot, bound. cbn.
    split; [lra|discriminate].
  - unfold WE, tot, bound. cbn. lra.
Qed.

Lemma loop_work : forall cancel fuel k s, Inv s -> WS s ->
  WE (final (loop cf o 0 cancel fuel k s)).
Proof.
  intros cancel. induction fuel as [|f IH]; intros k s H W; cbn [loop].
  - apply WI_WE; auto.
  - pose proof (body_ok cf o items s H) as B. pose proof (body_work s H W) as BW.
    destruct (body cf o 0 s) as [s1|s1|e s1]; cbn in B |- *; auto.
    + destruct (cancel k); cbn; [apply WI_WE; auto|auto].
    + apply WI_WE; auto.
Qed.
End End.
