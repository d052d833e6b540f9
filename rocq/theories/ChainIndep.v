(** C12: when a run does not depend on the runs before it. *)
From Coq Require Import List ZArith QArith Bool Lia Arith.
From Verif Require Import Common BeamModel ChainModel ChainSpec ChainProps.
Import ListNotations.
Local Open Scope nat_scope.

(** The two states agree, except that the second has bursts [L] in front of
    the queue. *)
Definition agree (s1 s2 : st) (L : list packet) : Prop :=
  s_in s1 = s_in s2 /\ s_out s1 = s_out s2 /\ s_mon s1 = s_mon s2 /\
  s_q s2 = set_packs_surfs (s_q s1) (L ++ q_packs (s_q s1)) (q_surfs (s_q s1)).
Definition same_result (r1 r2 : outcome) : Prop :=
  match r1, r2 with
  | OEnd s1 c1, OEnd s2 c2 => c1 = c2 /\ exists L, agree s1 s2 L
  | ORaise e1 s1, ORaise e2 s2 => e1 = e2 /\ exists L, agree s1 s2 L
  | OFuel s1, OFuel s2 => exists L, agree s1 s2 L
  | _, _ => False
  end.

Section Indep.
Variables (cf : cfg) (o : oracle) (base n : nat).

Definition spent (L : list packet) : Prop := Forall (fun p => p_done p = true /\ n <= p_counter p) L.
Definition front (q : que) (L : list packet) : que := set_packs_surfs q (L ++ q_packs q) (q_surfs q).
(** what the queue satisfies in the second run *)
Definition qok (q : que) (L : list packet) : Prop :=
  spent L /\ (L = [] \/ q_packs q <> [] \/ q_surfs q = []) /\
  (forall p, In p (q_packs q) -> p_counter p < n) /\
  (forall s e, In s (q_surfs q) -> In e (s_stack s) -> e_counter e < n).

Lemma burst_loop_spent : forall w L visited todo q, spent L ->
  burst_loop cf o w visited (L ++ todo) q = burst_loop cf o w (visited ++ L) todo q.
Proof.
  intros w L. induction L as [|p L IH]; intros visited todo q S; [rewrite app_nil_r; reflexivity|].
  inversion S as [|x l [D _] S']. subst. cbn [app burst_loop]. rewrite D, IH by exact S'. rewrite <- app_assoc. reflexivity.
Qed.
(** the loop does not look at the visited bursts nor at the queue in [q] *)
Lemma burst_loop_front : forall w L todo visited q ps,
  burst_loop cf o w (L ++ visited) todo (set_packs_surfs q ps (q_surfs q)) =
  let '(e, q1) := burst_loop cf o w visited todo q in (e, front q1 L).
Proof.
  intros w L. induction todo as [|p todo IH]; intros visited q ps.
  - reflexivity.
  - cbn [burst_loop]. destruct (p_done p) eqn:D.
    + rewrite <- app_assoc. apply IH.
    + replace (beam_step cf o w p (set_packs_surfs q ps (q_surfs q))) with (beam_step cf o w p q) by (destruct q; reflexivity).
      destruct (beam_step cf o w p q) as [[[seen t] surfs'] wseen] eqn:B.
      destruct (azimuth_fails cf o p seen t).
      * destruct q. cbn. unfold front, set_packs_surfs. cbn. rewrite <- app_assoc. reflexivity.
      * destruct wseen.
        -- rewrite <- app_assoc.
           match goal with |- _ = (let '(e, q1) := burst_loop cf o w _ todo ?Q in _) => specialize (IH (visited ++ [mk_packet (p_uid p) (p_counter p) (p_time p) true]) Q ps) end.
           destruct q. cbn in *. exact IH.
        -- destruct q. cbn. unfold front, set_packs_surfs. cbn. rewrite <- app_assoc. reflexivity.
Qed.
Lemma pair_entries : forall N p t size surfs idx seen s e,
  In s (pair_loop N p t size idx seen surfs) -> In e (s_stack s) ->
  e_counter e = p_counter p \/ exists s', In s' surfs /\ In e (s_stack s').
Proof.
  induction surfs as [|x surfs IH]; intros idx seen s e I J; [destruct seen; destruct I|].
  cbn [pair_loop] in I. destruct seen as [|c cs]; [right; exists s; split; assumption|].
  destruct (Nat.eqb (s_counter x) c); destruct I as [<-|I].
  - cbn [s_stack] in J. apply in_app_or in J. destruct J as [J|[<-|[]]]; [right; exists x; split; [left; reflexivity|exact J]|left; reflexivity].
  - destruct (IH _ _ _ _ I J) as [K|[s' [K1 K2]]]; [left; exact K|right; exists s'; split; [right; exact K1|exact K2]].
  - right. exists x. split; [left; reflexivity|exact J].
  - destruct (IH _ _ _ _ I J) as [K|[s' [K1 K2]]]; [left; exact K|right; exists s'; split; [right; exact K1|exact K2]].
Qed.
Lemma burst_loop_ok : forall w todo visited q e q1,
  burst_loop cf o w visited todo q = (e, q1) ->
  (forall p, In p (visited ++ todo) -> p_counter p < n) ->
  (forall s e, In s (q_surfs q) -> In e (s_stack s) -> e_counter e < n) ->
  length (q_packs q1) = length (visited ++ todo) /\
  (forall p, In p (q_packs q1) -> p_counter p < n) /\
  (forall s e, In s (q_surfs q1) -> In e (s_stack s) -> e_counter e < n).
Proof.
  intros w. induction todo as [|p todo IH]; intros visited q e q1 H P S.
  - cbn in H. injection H as _ <-. cbn. rewrite app_nil_r in P |- *. auto.
  - cbn [burst_loop] in H. destruct (p_done p) eqn:D.
    + destruct (IH (visited ++ [p]) q e q1 H) as [A B].
      * intros x I. apply P. rewrite <- app_assoc in I. exact I.
      * exact S.
      * rewrite <- app_assoc in A. auto.
    + unfold beam_step in H. cbv zeta in H.
      set (seen := map snd _) in H. set (t := trend _ _ _ _) in H.
      set (surfs' := pair_loop _ _ _ _ _ _ _) in H.
      assert (S' : forall s e, In s surfs' -> In e (s_stack s) -> e_counter e < n).
      { intros s e' I J. destruct (pair_entries _ _ _ _ _ _ _ _ _ I J) as [->|[s' [K1 K2]]]; [|exact (S s' e' K1 K2)].
        apply P, in_or_app. right. left. reflexivity. }
      assert (P' : forall x, In x (visited ++ mk_packet (p_uid p) (p_counter p) (p_time p) true :: todo) -> p_counter x < n).
      { intros x I. apply in_app_or in I. destruct I as [I|[<-|I]].
        - apply P, in_or_app. left. exact I.
        - cbn. apply P, in_or_app. right. left. reflexivity.
        - apply P, in_or_app. right. right. exact I. }
      destruct (azimuth_fails cf o p seen t).
      * injection H as _ <-. cbn. auto.
      * destruct (snd _) in H.
        -- apply IH in H.
           ++ destruct H as [A B]. rewrite <- app_assoc in A. cbn [app] in A. split; [|exact B]. rewrite A, !app_length. reflexivity.
           ++ intros x I. apply P'. rewrite <- app_assoc in I. exact I.
           ++ exact S'.
        -- injection H as _ <-. cbn. rewrite !app_length. cbn. auto.
Qed.
Lemma drop_spent : forall c L ps, spent L -> c < n -> drop_until c (L ++ ps) = drop_until c ps.
Proof.
  intros c L ps S C. induction L as [|p L IH]; [reflexivity|]. inversion S as [|x l [_ D] S']. subst.
  cbn [app drop_until]. destruct (Nat.eqb_spec (p_counter p) c); [lia|]. apply IH, S'.
Qed.
Lemma drop_in : forall c ps p, In p (drop_until c ps) -> In p ps.
Proof.
  intros c ps p. induction ps as [|x ps IH]; [intros []|]. cbn. destruct (Nat.eqb (p_counter x) c); [intro H; exact H|].
  intro H. right. apply IH, H.
Qed.
Lemma front_nil : forall q, front q [] = q.
Proof. intros [a b c d e f g]. reflexivity. Qed.

(** one surface is processed alike *)
Lemma surface_phase_sim : forall q w L, qok q L ->
  let '(e1, q1, w1) := surface_phase cf o q w in
  exists L', surface_phase cf o (front q L) w = (e1, front q1 L', w1) /\ qok q1 L'.
Proof.
  intros q w L [SL [NE [P S]]]. unfold surface_phase.
  change (q_surfs (front q L)) with (q_surfs q). change (q_packs (front q L)) with (L ++ q_packs q).
  destruct (q_surfs q) as [|s0 ss] eqn:QS.
  - exists L. split; [reflexivity|]. split; [exact SL|]. rewrite QS. auto.
  - rewrite burst_loop_spent by exact SL. cbn [app].
    pose proof (burst_loop_front (s_uid s0) L (q_packs q) [] q (L ++ q_packs q)) as BF. rewrite app_nil_r in BF.
    change (set_packs_surfs q (L ++ q_packs q) (q_surfs q)) with (front q L) in BF. rewrite BF. clear BF.
    destruct (burst_loop cf o (s_uid s0) [] (q_packs q) q) as [e q1] eqn:BL.
    assert (P0 : forall p, In p ([] ++ q_packs q) -> p_counter p < n) by exact P.
    rewrite <- QS in S.
    destruct (burst_loop_ok _ _ _ _ _ _ BL P0 S) as [LEN [P1 S1]]. cbn [app] in LEN.
    assert (NE1 : L = [] \/ q_packs q1 <> []).
    { destruct NE as [NE|[NE|NE]]; [left; exact NE|right|discriminate]. intro Z. rewrite Z in LEN. destruct (q_packs q); [congruence|discriminate]. }
    assert (OK1 : qok q1 L).
    { split; [exact SL|]. split; [destruct NE1; auto|]. split; assumption. }
    destruct e as [e|]; [exists L; split; [reflexivity|exact OK1]|].
    change (q_surfs (front q1 L)) with (q_surfs q1).
    destruct (q_surfs q1) as [|s1 rest] eqn:QS1; [exists L; split; [reflexivity|exact OK1]|].
    assert (SR : forall s e, In s rest -> In e (s_stack s) -> e_counter e < n).
    { intros s e I J. exact (S1 s e (or_intror I) J). }
    destruct (stack_size cf s1 <? c_looks cf / 2).
    { exists L. split; [reflexivity|]. split; [exact SL|]. split; [destruct NE1; auto|]. split; [exact P1|exact SR]. }
    destruct (o_corr_fail o (s_uid s1)); [exists L; split; [reflexivity|exact OK1]|].
    destruct (o_w1_fail o (s_uid s1)); [exists L; split; [reflexivity|exact OK1]|].
    destruct (c_l1bs cf && o_w2_fail o (s_uid s1)); [exists L; split; [reflexivity|exact OK1]|].
    change (q_packs (front q1 L)) with (L ++ q_packs q1).
    destruct (q_packs q1) as [|p0 ps] eqn:QP1.
    + destruct NE1 as [->|NE1]; [|congruence]. cbn [app]. exists [].
      split; [rewrite !front_nil; reflexivity|]. split; [constructor|]. split; [left; reflexivity|].
      split; [intros p []|exact SR].
    + destruct (s_stack s1) as [|e0 es] eqn:ST.
      * exists L. split; [|exact OK1]. destruct (L ++ p0 :: ps) eqn:Z; [destruct L; discriminate|reflexivity].
      * assert (C0 : e_counter e0 < n).
        { apply (S1 s1 e0); [left; reflexivity|]. rewrite ST. left. reflexivity. }
        exists []. destruct (L ++ p0 :: ps) as [|z zs] eqn:Z; [destruct L; discriminate|].
        split; [rewrite <- Z, (drop_spent _ _ _ SL C0); reflexivity|].
        split; [constructor|]. split; [left; reflexivity|]. split; [|exact SR].
        cbn [q_packs set_packs_surfs]. intros p I. apply P1. apply drop_in with (1 := I).
Qed.

Lemma locate_sim : forall force p q L, qok q L -> p_counter p < n ->
  let '(r, q1) := locate o force p q in
  locate o force p (front q L) = (r, front q1 L) /\ qok q1 L.
Proof.
  intros force p q L [SL [NE [P S]]] C. unfold locate.
  change (q_surfs (front q L)) with (q_surfs q). change (q_packs (front q L)) with (L ++ q_packs q).
  assert (PP : forall x, In x (q_packs q ++ [p]) -> p_counter x < n).
  { intros x I. apply in_app_or in I. destruct I as [I|[<-|[]]]; [apply P, I|exact C]. }
  assert (NN : q_packs q ++ [p] <> []) by (intro Z; apply app_eq_nil in Z; destruct Z; discriminate).
  set (new := mk_surface (q_next q) (q_count q) (p_uid p) []).
  assert (SN : forall s e, In s (q_surfs q ++ [new]) -> In e (s_stack s) -> e_counter e < n).
  { intros s e I J. apply in_app_or in I. destruct I as [I|[<-|[]]]; [exact (S s e I J)|destruct J]. }
  assert (CR : forall a, mk_que (q_surfs q ++ [new]) ((L ++ q_packs q) ++ [p]) a (Datatypes.S (q_next q)) (q_psize q) (q_ptrend q) (q_az q)
    = front (mk_que (q_surfs q ++ [new]) (q_packs q ++ [p]) a (Datatypes.S (q_next q)) (q_psize q) (q_ptrend q) (q_az q)) L).
  { intro a. rewrite <- app_assoc. reflexivity. }
  assert (CO : qok (mk_que (q_surfs q ++ [new]) (q_packs q ++ [p]) (Datatypes.S (q_count q)) (Datatypes.S (q_next q)) (q_psize q) (q_ptrend q) (q_az q)) L).
  { split; [exact SL|]. split; [right; left; exact NN|]. split; assumption. }
  assert (Q0 : qok (set_packs_surfs q (q_packs q ++ [p]) (q_surfs q)) L).
  { split; [exact SL|]. split; [right; left; exact NN|]. split; assumption. }
  destruct (q_surfs q) as [|s ss] eqn:QS.
  - split; [f_equal; apply CR|exact CO].
  - destruct force; [split; [f_equal; apply CR|exact CO]|].
    destruct NE as [->|[NE|NE]]; [| |discriminate].
    + cbn [app]. destruct (q_packs q ++ [p]) as [|x [|y r]] eqn:Z; [congruence| |].
      * split; [|exact Q0]. rewrite front_nil. reflexivity.
      * destruct (o_new o (s_uid (last ss s)) (p_uid p)); (split; [rewrite front_nil; reflexivity|assumption]).
    + destruct (q_packs q) as [|x l] eqn:QP; [congruence|].
      assert (Z1 : exists a b c, (L ++ x :: l) ++ [p] = a :: b :: c).
      { destruct L as [|z L']; [destruct l as [|y l']|destruct L' as [|z' L'']]; cbn; eauto. }
      destruct Z1 as [a [b [c Z1]]]. assert (Z2 : exists b c, (x :: l) ++ [p] = x :: b :: c) by (destruct l; cbn; eauto).
      destruct Z2 as [b' [c' Z2]]. rewrite Z1, Z2.
      destruct (o_new o (s_uid (last ss s)) (p_uid p)).
      * rewrite <- Z1, <- Z2. split; [f_equal; apply CR|exact CO].
      * rewrite <- Z1, <- Z2. split; [|exact Q0]. f_equal. rewrite <- app_assoc. reflexivity.
Qed.

Definition read_sim (r1 r2 : read_res) (L : list packet) : Prop :=
  match r1, r2 with
  | RGo i1 q1 m1, RGo i2 q2 m2 => i1 = i2 /\ m1 = m2 /\ q2 = front q1 L /\ qok q1 L
  | RContinue i1 q1 m1, RContinue i2 q2 m2 => i1 = i2 /\ m1 = m2 /\ q2 = front q1 L /\ qok q1 L
  | RRaise e1 i1 q1 m1, RRaise e2 i2 q2 m2 => e1 = e2 /\ i1 = i2 /\ m1 = m2 /\ q2 = front q1 L
  | _, _ => False
  end.
Definition cur_num (i : inp) : Prop := forall p, i_cur i = Some p -> p_counter p < n.
Lemma handle_sim : forall i q m L, qok q L -> cur_num i ->
  read_sim (handle_packet cf o i q m) (handle_packet cf o i (front q L) m) L.
Proof.
  intros i q m L K C. unfold handle_packet. destruct (i_cur i) as [p|] eqn:E.
  - destruct (match i_pt i with Some t0 => lt_q (p_time p - t0) (c_gap cf) | None => true end).
    + pose proof (locate_sim (i_resume i) p q L K (C p E)) as LS. destruct (locate o (i_resume i) p q) as [r q1].
      destruct LS as [LS OK]. rewrite LS. destruct r as [[|]|]; cbn; auto.
    + cbn. auto.
  - cbn. auto.
Qed.
Definition iok (i : inp) : Prop := i_n i + length (i_rest i) = n /\ cur_num i.
Lemma read_sim_ok : forall s1 s2 L, agree s1 s2 L -> qok (s_q s1) L -> iok (s_in s1) ->
  read_sim (read_phase cf o base s1) (read_phase cf o base s2) L.
Proof.
  intros [i q w m] [i2 q2 w2 m2] L [A1 [A2 [A3 A4]]] K [I1 I2]. cbn [s_in s_out s_mon s_q] in *. subst i2 w2 m2 q2.
  unfold read_phase. cbn [s_in s_out s_mon s_q]. change (set_packs_surfs q (L ++ q_packs q) (q_surfs q)) with (front q L).
  destruct (i_gap i); [cbn; auto|]. destruct (i_resume i); [apply handle_sim; assumption|].
  destruct (i_rest i) as [|[t| |] r].
  - destruct (i_sp i); [apply handle_sim; [exact K|intros p X; discriminate]|cbn; auto].
  - apply handle_sim; [exact K|]. intros p X. cbn in X. injection X as <-. cbn in *. lia.
  - apply handle_sim; [exact K|intros p X; discriminate].
  - cbn. auto.
Qed.
Lemma handle_iok : forall i q m, iok i ->
  match handle_packet cf o i q m with
  | RGo i1 _ _ => iok i1 | RContinue i1 _ _ => iok i1 | RRaise _ _ _ _ => True end.
Proof.
  intros i q m [I1 I2]. unfold handle_packet. destruct (i_cur i) as [p|] eqn:E; [|split; assumption].
  destruct (match i_pt i with Some t0 => lt_q (p_time p - t0) (c_gap cf) | None => true end).
  - destruct (locate o (i_resume i) p q) as [[[|]|] q1]; [| |exact I]; (split; [exact I1|intros x X; apply I2; rewrite <- X; exact E]).
  - split; [exact I1|intros x X; apply I2; rewrite <- X; exact E].
Qed.
Lemma read_iok : forall s, iok (s_in s) ->
  match read_phase cf o base s with
  | RGo i1 _ _ => iok i1 | RContinue i1 _ _ => iok i1 | RRaise _ _ _ _ => True end.
Proof.
  intros [i q w m] [I1 I2]. unfold read_phase. cbn [s_in s_out s_mon s_q] in *.
  destruct (i_gap i); [split; assumption|]. destruct (i_resume i); [apply handle_iok; split; assumption|].
  destruct (i_rest i) as [|[t| |] r]; cbn [length] in I1.
  - destruct (i_sp i); [|exact I]. apply handle_iok. split; [exact I1|intros p X; discriminate].
  - apply handle_iok. split; [cbn; lia|]. intros p X. cbn in X. injection X as <-. cbn. lia.
  - apply handle_iok. split; [cbn; lia|intros p X; discriminate].
  - exact I.
Qed.
Definition step_sim (r1 r2 : step_res) : Prop :=
  match r1, r2 with
  | BCont s1, BCont s2 => exists L, agree s1 s2 L /\ qok (s_q s1) L /\ iok (s_in s1)
  | BEnd s1, BEnd s2 => exists L, agree s1 s2 L
  | BRaise e1 s1, BRaise e2 s2 => e1 = e2 /\ exists L, agree s1 s2 L
  | _, _ => False
  end.
Lemma end_sim : forall i q w m L, qok q L -> iok i -> step_sim (end_phase i q w m) (end_phase i (front q L) w m).
Proof.
  intros i q w m L K J. unfold end_phase. change (q_surfs (front q L)) with (q_surfs q).
  destruct (q_surfs q) eqn:E; [destruct (i_gap i)|].
  - exists L. split; [|split; [exact K|]]; [repeat split|]. destruct J as [J1 J2]. split; [exact J1|exact J2].
  - exists L. repeat split.
  - exists L. split; [repeat split|split; [exact K|exact J]].
Qed.
Lemma body_sim : forall s1 s2 L, agree s1 s2 L -> qok (s_q s1) L -> iok (s_in s1) ->
  step_sim (body cf o base s1) (body cf o base s2).
Proof.
  intros s1 s2 L A K J. pose proof (read_sim_ok s1 s2 L A K J) as RS. pose proof (read_iok s1 J) as RI.
  destruct A as [_ [A2 _]]. unfold body.
  destruct (read_phase cf o base s1) as [i1 q1 m1|i1 q1 m1|e1 i1 q1 m1], (read_phase cf o base s2) as [i2 q2 m2|i2 q2 m2|e2 i2 q2 m2];
    cbn [read_sim] in RS; try contradiction.
  - destruct RS as [<- [<- [-> K1]]]. change (q_surfs (front q1 L)) with (q_surfs q1). rewrite <- A2.
    destruct (i_sp i1 || (c_min cf <=? length (q_surfs q1)) || i_gap i1).
    + pose proof (surface_phase_sim q1 (s_out s1) L K1) as SS. destruct (surface_phase cf o q1 (s_out s1)) as [[e q3] w3].
      destruct SS as [L' [SS K3]]. rewrite SS. destruct e as [e|]; [split; [reflexivity|exists L'; repeat split]|].
      apply end_sim; [exact K3|]. exact RI.
    + apply end_sim; assumption.
  - destruct RS as [<- [<- [-> K1]]]. rewrite <- A2. exists L. split; [repeat split|split; [exact K1|exact RI]].
  - destruct RS as [<- [<- [<- ->]]]. rewrite <- A2. split; [reflexivity|]. exists L. repeat split.
Qed.
Lemma loop_sim : forall cancel fuel k s1 s2 L, agree s1 s2 L -> qok (s_q s1) L -> iok (s_in s1) ->
  same_result (loop cf o base cancel fuel k s1) (loop cf o base cancel fuel k s2).
Proof.
  intros cancel. induction fuel as [|fuel IH]; intros k s1 s2 L A K J; [exists L; exact A|].
  cbn [loop]. pose proof (body_sim s1 s2 L A K J) as BS.
  destruct (body cf o base s1), (body cf o base s2); cbn [step_sim] in BS; try contradiction.
  - destruct BS as [L' [A' [K' J']]]. destruct (cancel k); [split; [reflexivity|exists L'; exact A']|].
    exact (IH _ _ _ _ A' K' J').
  - destruct BS as [L' A']. split; [reflexivity|exists L'; exact A'].
  - destruct BS as [E [L' A']]. split; [exact E|exists L'; exact A'].
Qed.
End Indep.

(** A processor whose queue holds only bursts that were processed by earlier
    runs, and whose record numbers do not occur in the new file, gives the
    result of a new processor: same outcome, records, decisions, progress and
    calibrations; only the left-over bursts may differ. *)
Theorem C12_processed_partial : forall cf o cancel packs0 base snext input,
  (forall p, In p packs0 -> p_done p = true /\ length input <= p_counter p) ->
  same_result (run_from cf o cancel [] [] base snext input) (run_from cf o cancel [] packs0 base snext input).
Proof.
  intros cf o cancel packs0 base snext input H. unfold run_from, enough. cbn [length].
  apply (loop_sim cf o base (length input)) with (L := packs0).
  - repeat split. cbn. rewrite app_nil_r. reflexivity.
  - split; [apply Forall_forall; exact H|]. split; [right; right; reflexivity|]. split; [intros p []|intros s e []].
  - split; [reflexivity|intros p X; discriminate].
Qed.
Print Assumptions C12_processed_partial.
(** Without the condition on the record numbers this is false: bursts are
    dropped up to the record number of the first burst of a stack, and a burst
    of the earlier file may carry that number (dedop/proc/sar/processor.py:355-359). *)
Definition o_hide : oracle :=
  mk_oracle (fun _ _ => true)
    (fun s p => (Nat.ltb p 80 || Nat.leb s (p + 3)) && negb (Nat.eqb p 80 && negb (Nat.eqb s 80))
                && negb (Nat.eqb p 81 && negb (Nat.eqb s 82)))
    (fun _ => false) (fun _ => false) (fun _ => false) (fun _ => false).
Definition cf_two : cfg := mk_cfg 64 2 80 (3 # 2) false true.
Theorem C12_numbers_refuted : exists cf o in1 in2 s1,
  c_min cf = 80 /\ no_failures o /\ all_valid in1 /\ all_valid in2 /\
  run cf o no_cancel in1 = OEnd s1 false /\ q_surfs (s_q s1) = [] /\
  Forall (fun p => p_done p = true) (q_packs (s_q s1)) /\
  let second p := run_from cf o no_cancel [] p (length in1) (q_next (s_q s1)) in2 in
  (exists s, second (q_packs (s_q s1)) = OEnd s false) /\ (exists s, second [] = ORaise EPrevBurst s) /\
  map bursts_of (written (second (q_packs (s_q s1)))) <> map bursts_of (written (second [])).
Proof.
  exists cf_two, o_hide, (track 0 80), (track 0 85), (final (run cf_two o_hide no_cancel (track 0 80))).
  split; [reflexivity|]. split; [repeat split|]. split; [apply track_valid|]. split; [apply track_valid|].
  split; [apply ended_spec; vm_compute; reflexivity|]. split; [vm_compute; reflexivity|].
  split; [apply Forall_forall, forallb_forall; vm_compute; reflexivity|]. intro second. split; [|split].
  - exists (final (second (q_packs (s_q (final (run cf_two o_hide no_cancel (track 0 80))))))).
    apply ended_spec. vm_compute. reflexivity.
  - vm_compute. eexists. reflexivity.
  - intro H. apply (f_equal (@length _)) in H. vm_compute in H. discriminate H.
Qed.
Print Assumptions C12_numbers_refuted.

(** The bursts left over by a normal run, all processed and numbered beyond the
    next file. *)
Example C12_processed_example :
  let s1 := final (run cf3 o_near no_cancel (track 0 9)) in
  run cf3 o_near no_cancel (track 0 9) = OEnd s1 false /\
  map p_counter (q_packs (s_q s1)) = [7; 8] /\ forallb p_done (q_packs (s_q s1)) = true /\
  length (track 0 6) = 6 /\
  map bursts_of (written (run_from cf3 o_near no_cancel [] (q_packs (s_q s1)) 9 9 (track 0 6))) <> [].
Proof.
  intro s1. split; [apply ended_spec; vm_compute; reflexivity|]. vm_compute. repeat split. intro H. discriminate H.
Qed.
