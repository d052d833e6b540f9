(** The answers on which a run of the chain depends. *)
From Coq Require Import List ZArith QArith Bool Lia Arith.
From Verif Require Import Common BeamModel BeamSpec BeamProofs ChainModel ChainSpec ChainAux ChainProofs ChainInv ChainMain WholeModel.
From Verif Require SurfModel.
Import ListNotations.
Local Open Scope nat_scope.

Arguments Nat.ltb : simpl never.
Arguments Nat.leb : simpl never.
Arguments Nat.div : simpl never.

Definition agree_vis (o o' : oracle) (p : nat) : Prop := forall s, o_vis o s p = o_vis o' s p.
Definition agree_new (o o' : oracle) (p : nat) : Prop := forall s, o_new o s p = o_new o' s p.
Definition same_fails (o o' : oracle) : Prop :=
  (forall p, o_az_fail o p = o_az_fail o' p) /\ (forall s, o_corr_fail o s = o_corr_fail o' s) /\
  (forall s, o_w1_fail o s = o_w1_fail o' s) /\ (forall s, o_w2_fail o s = o_w2_fail o' s).

Lemma beam_scan_ext : forall (S A : Type) N (v v' : S -> bool) (b : S -> A) (c : S -> nat) w l prev acc seen,
  (forall s, v s = v' s) -> beam_scan N v b c w l prev acc seen = beam_scan N v' b c w l prev acc seen.
Proof.
  intros S A N v v' b c w. induction l as [|s l IH]; intros prev acc seen E; cbn; [reflexivity|].
  rewrite <- E. destruct (v s); [apply IH; exact E|]. destruct prev; [reflexivity|apply IH; exact E].
Qed.
Lemma beam_step_ext : forall cf o o' wuid p q, agree_vis o o' (p_uid p) ->
  beam_step cf o' wuid p q = beam_step cf o wuid p q.
Proof.
  intros cf o o' wuid p q A. unfold beam_step, beam_angles.
  rewrite (beam_scan_ext _ _ _ (fun s => o_vis o' (s_uid s) (p_uid p)) (fun s => o_vis o (s_uid s) (p_uid p))); [reflexivity|].
  intros s. symmetry. apply A.
Qed.
Lemma azimuth_fails_ext : forall cf o o' p seen t, same_fails o o' -> azimuth_fails cf o' p seen t = azimuth_fails cf o p seen t.
Proof. intros cf o o' p seen t (A & _). unfold azimuth_fails. rewrite A. reflexivity. Qed.

Lemma burst_loop_ext : forall cf o wuid todo visited q e q',
  burst_loop cf o wuid visited todo q = (e, q') ->
  exists new, q_az q' = q_az q ++ new /\
    (forall a, In a new -> exists p, In p todo /\ p_done p = false /\ p_uid p = a_uid a) /\
    forall o', same_fails o o' -> (forall a, In a new -> agree_vis o o' (a_uid a)) ->
      burst_loop cf o' wuid visited todo q = (e, q').
Proof.
  intros cf o wuid. induction todo as [|p rest IH]; intros visited q e q' H; cbn [burst_loop] in H |- *.
  - inversion H; subst. exists []. rewrite app_nil_r. split; [reflexivity|]. split; [intros a []|]. auto.
  - destruct (p_done p) eqn:D.
    + apply IH in H. destruct H as (new & E & F & G). exists new. split; [exact E|]. split; [|exact G].
      intros a I. destruct (F a I) as (x & X1 & X2 & X3). exists x. split; [right; exact X1|auto].
    + destruct (beam_step cf o wuid p q) as [[[seen t] surfs'] wseen] eqn:B.
      set (a0 := mk_beamed (p_uid p) seen t) in *.
      assert (STEP : forall o', agree_vis o o' (p_uid p) -> beam_step cf o' wuid p q = (seen, t, surfs', wseen)).
      { intros o' A. rewrite (beam_step_ext cf o o') by exact A. exact B. }
      assert (ONE : q_az q' = q_az q ++ [a0] -> (forall o', same_fails o o' -> agree_vis o o' (p_uid p) ->
          (let '(seen, t, surfs', wseen) := beam_step cf o' wuid p q in
           let psize' := Z.of_nat (length seen) in
           if azimuth_fails cf o' p seen t then
             (Some EAzimuth, mk_que surfs' (visited ++ p :: rest) (q_count q) (q_next q) psize' t (q_az q ++ [mk_beamed (p_uid p) seen t]))
           else
             let p' := mk_packet (p_uid p) (p_counter p) (p_time p) true in
             let q' := mk_que surfs' (q_packs q) (q_count q) (q_next q) psize' t (q_az q ++ [mk_beamed (p_uid p) seen t]) in
             if wseen then burst_loop cf o' wuid (visited ++ [p']) rest q'
             else (None, mk_que surfs' (visited ++ p' :: rest) (q_count q) (q_next q) psize' t (q_az q'))) = (e, q')) ->
         exists new, q_az q' = q_az q ++ new /\
           (forall a, In a new -> exists x, In x (p :: rest) /\ p_done x = false /\ p_uid x = a_uid a) /\
           forall o', same_fails o o' -> (forall a, In a new -> agree_vis o o' (a_uid a)) ->
          (let '(seen, t, surfs', wseen) := beam_step cf o' wuid p q in
           let psize' := Z.of_nat (length seen) in
           if azimuth_fails cf o' p seen t then
             (Some EAzimuth, mk_que surfs' (visited ++ p :: rest) (q_count q) (q_next q) psize' t (q_az q ++ [mk_beamed (p_uid p) seen t]))
           else
             let p' := mk_packet (p_uid p) (p_counter p) (p_time p) true in
             let q' := mk_que surfs' (q_packs q) (q_count q) (q_next q) psize' t (q_az q ++ [mk_beamed (p_uid p) seen t]) in
             if wseen then burst_loop cf o' wuid (visited ++ [p']) rest q'
             else (None, mk_que surfs' (visited ++ p' :: rest) (q_count q) (q_next q) psize' t (q_az q'))) = (e, q')).
      { intros E G. exists [a0]. split; [exact E|]. split.
        - intros a [<-|[]]. exists p. split; [left; reflexivity|]. auto.
        - intros o' SF A. apply G; [exact SF|]. apply (A a0). left; reflexivity. }
      destruct (azimuth_fails cf o p seen t) eqn:AF.
      * inversion H; subst. apply ONE; [reflexivity|]. intros o' SF A. rewrite (STEP o' A).
        rewrite (azimuth_fails_ext cf o o') by exact SF. rewrite AF. reflexivity.
      * destruct wseen.
        -- apply IH in H. destruct H as (new & E & F & G). cbn in E. exists (a0 :: new).
           split; [rewrite E, <- app_assoc; reflexivity|]. split.
           ++ intros a [<-|I]; [exists p; split; [left; reflexivity|auto]|].
              destruct (F a I) as (x & X1 & X2 & X3). exists x. split; [right; exact X1|auto].
           ++ intros o' SF A. rewrite (STEP o' (A a0 (or_introl eq_refl))).
              rewrite (azimuth_fails_ext cf o o') by exact SF. rewrite AF. apply G; [exact SF|].
              intros a I. apply A. right; exact I.
        -- inversion H; subst. apply ONE; [reflexivity|]. intros o' SF A. rewrite (STEP o' A).
           rewrite (azimuth_fails_ext cf o o') by exact SF. rewrite AF. reflexivity.
Qed.

Lemma surface_phase_ext : forall cf o q w e q' w',
  surface_phase cf o q w = (e, q', w') ->
  exists new, q_az q' = q_az q ++ new /\
    (forall a, In a new -> exists p, In p (q_packs q) /\ p_done p = false /\ p_uid p = a_uid a) /\
    forall o', same_fails o o' -> (forall a, In a new -> agree_vis o o' (a_uid a)) ->
      surface_phase cf o' q w = (e, q', w').
Proof.
  intros cf o q w e q' w' H. unfold surface_phase in H |- *.
  destruct (q_surfs q) as [|s0 ss].
  { inversion H; subst. exists []. rewrite app_nil_r. split; [reflexivity|]. split; [intros a []|]. auto. }
  destruct (burst_loop cf o (s_uid s0) [] (q_packs q) q) as [e1 q1] eqn:B.
  apply burst_loop_ext in B. destruct B as (new & E & F & G). exists new.
  assert (AZ : q_az q' = q_az q1).
  { destruct e1; [inversion H; reflexivity|]. destruct (q_surfs q1) as [|s1 rest]; [inversion H; reflexivity|].
    destruct (stack_size cf s1 <? c_looks cf / 2); [inversion H; reflexivity|].
    destruct (o_corr_fail o (s_uid s1)); [inversion H; reflexivity|].
    destruct (o_w1_fail o (s_uid s1)); [inversion H; reflexivity|].
    destruct (c_l1bs cf && o_w2_fail o (s_uid s1)); [inversion H; reflexivity|].
    destruct (q_packs q1); destruct (s_stack s1); inversion H; reflexivity. }
  split; [rewrite AZ; exact E|]. split; [exact F|]. intros o' SF A. rewrite (G o' SF A).
  destruct e1; [exact H|]. destruct (q_surfs q1) as [|s1 rest]; [exact H|].
  destruct SF as (_ & S1 & S2 & S3). rewrite <- S1, <- S2, <- S3. exact H.
Qed.

Lemma last1_snoc : forall {A} (l : list A) x, SurfModel.last1 (l ++ [x]) = Some x.
Proof. intros. unfold SurfModel.last1. rewrite rev_app_distr. reflexivity. Qed.
Lemma locate_packs : forall o f p q, q_packs (snd (locate o f p q)) = q_packs q ++ [p].
Proof.
  intros. unfold locate. destruct (q_surfs q); [reflexivity|]. destruct f; [reflexivity|].
  destruct (q_packs q ++ [p]) as [|a [|b r]]; [reflexivity| |]; [reflexivity|].
  destruct (o_new _ _ _); reflexivity.
Qed.
Lemma locate_ext : forall o o' f p q, (f = false -> agree_new o o' (p_uid p)) -> locate o' f p q = locate o f p q.
Proof.
  intros o o' f p q A. unfold locate. destruct (q_surfs q); [reflexivity|]. destruct f; [reflexivity|].
  destruct (q_packs q ++ [p]) as [|a [|b r]]; [reflexivity|reflexivity|]. rewrite (A eq_refl). reflexivity.
Qed.
(** The current packet, if it is located. *)
Lemma handle_arrived : forall cf o i q m s, s_q s = q ->
  match arrived s (handle_packet cf o i q m) with
  | Some n => exists p, i_cur i = Some p /\ p_uid p = n
  | None => True
  end.
Proof.
  intros cf o i q m s E. unfold arrived, handle_packet. rewrite E.
  destruct (i_cur i) as [p|]; cbn [read_que]; [|destruct (Nat.eqb_spec (length (q_packs q)) (S (length (q_packs q)))); [lia|exact I]].
  destruct (match i_pt i with None => true | Some t0 => lt_q (p_time p - t0)%Q (c_gap cf) end); cbn [read_que].
  - pose proof (locate_packs o (i_resume i) p q) as L. destruct (locate o (i_resume i) p q) as [r q1]. cbn [snd] in L.
    assert (R : q_packs (read_que (match r with Some true => RGo (mk_inp (i_rest i) (i_n i) (Some p) (Some (p_time p)) (i_gap i) false (i_sp i)) q1 (mk_mon (m_work m) (m_sub m) (m_cals m ++ [p_uid p]))
              | Some false => RContinue (mk_inp (i_rest i) (i_n i) (Some p) (Some (p_time p)) (i_gap i) false (i_sp i)) q1 (mk_mon (m_work m) (m_sub m) (m_cals m ++ [p_uid p]))
              | None => RRaise EPrevBurst (mk_inp (i_rest i) (i_n i) (Some p) (Some (p_time p)) (i_gap i) false (i_sp i)) q1 (mk_mon (m_work m) (m_sub m) (m_cals m ++ [p_uid p])) end)) = q_packs q ++ [p]).
    { destruct r as [[|]|]; exact L. }
    rewrite R, last1_snoc. destruct (Nat.eqb _ _); [|exact I]. exists p. split; reflexivity.
  - destruct (Nat.eqb_spec (length (q_packs q)) (S (length (q_packs q)))); [lia|exact I].
Qed.
Lemma handle_ext : forall cf o o' i q m s r, s_q s = q -> handle_packet cf o i q m = r ->
  (forall p, arrived s r = Some p -> i_resume i = false -> agree_new o o' p) -> handle_packet cf o' i q m = r.
Proof.
  intros cf o o' i q m s r E H A. unfold handle_packet in H |- *. destruct (i_cur i) as [p|]; [|exact H].
  destruct (match i_pt i with None => true | Some t0 => lt_q (p_time p - t0)%Q (c_gap cf) end); [|exact H].
  rewrite (locate_ext o o'); [exact H|]. intros F. apply A; [|exact F].
  pose proof (locate_packs o (i_resume i) p q) as L. destruct (locate o (i_resume i) p q) as [r1 q1]. cbn [snd] in L.
  unfold arrived. rewrite E.
  assert (R : q_packs (read_que r) = q_packs q ++ [p]) by (subst r; destruct r1 as [[|]|]; exact L).
  rewrite R, last1_snoc, app_length. cbn [length]. rewrite Nat.add_1_r, Nat.eqb_refl. reflexivity.
Qed.
Lemma read_ext : forall cf o o' base s r, read_phase cf o base s = r ->
  (forall p, arrived s r = Some p -> i_resume (s_in s) = false -> agree_new o o' p) -> read_phase cf o' base s = r.
Proof.
  intros cf o o' base s r H A. unfold read_phase in H |- *. destruct (i_gap (s_in s)); [exact H|].
  destruct (i_resume (s_in s)) eqn:R.
  { eapply handle_ext; [reflexivity|exact H|]. intros p P F. apply A; [exact P|]. rewrite <- R. congruence. }
  destruct (i_rest (s_in s)) as [|[t| |] rest].
  - destruct (i_sp (s_in s)); [|exact H]. eapply handle_ext; [reflexivity|exact H|]. intros p P _. apply A; auto.
  - eapply handle_ext; [reflexivity|exact H|]. intros p P _. apply A; auto.
  - eapply handle_ext; [reflexivity|exact H|]. intros p P _. apply A; auto.
  - exact H.
Qed.

(** The packets after reading. *)
Lemma handle_packs : forall cf o i q m, 
  q_packs (read_que (handle_packet cf o i q m)) = q_packs q \/
  exists p, i_cur i = Some p /\ q_packs (read_que (handle_packet cf o i q m)) = q_packs q ++ [p].
Proof.
  intros cf o i q m. unfold handle_packet. destruct (i_cur i) as [p|]; [|left; reflexivity].
  destruct (match i_pt i with None => true | Some t0 => lt_q (p_time p - t0)%Q (c_gap cf) end); [|left; reflexivity].
  right. exists p. split; [reflexivity|]. pose proof (locate_packs o (i_resume i) p q) as L.
  destruct (locate o (i_resume i) p q) as [[[|]|] q1]; exact L.
Qed.
Lemma handle_az : forall cf o i q m, q_az (read_que (handle_packet cf o i q m)) = q_az q.
Proof.
  intros cf o i q m. unfold handle_packet. destruct (i_cur i) as [p|]; [|reflexivity].
  destruct (match i_pt i with None => true | Some t0 => lt_q (p_time p - t0)%Q (c_gap cf) end); [|reflexivity].
  assert (L : q_az (snd (locate o (i_resume i) p q)) = q_az q).
  { unfold locate. destruct (q_surfs q); [reflexivity|]. destruct (i_resume i); [reflexivity|].
    destruct (q_packs q ++ [p]) as [|a [|b r]]; [reflexivity|reflexivity|]. destruct (o_new _ _ _); reflexivity. }
  destruct (locate o (i_resume i) p q) as [[[|]|] q1]; exact L.
Qed.
Lemma handle_n : forall cf o i q m, match handle_packet cf o i q m with RGo i' _ _ => i_n i' = i_n i | RContinue i' _ _ => i_n i' = i_n i | RRaise _ i' _ _ => i_n i' = i_n i end.
Proof.
  intros cf o i q m. unfold handle_packet. destruct (i_cur i) as [p|]; [|reflexivity].
  destruct (match i_pt i with None => true | Some t0 => lt_q (p_time p - t0)%Q (c_gap cf) end); [|reflexivity].
  destruct (locate o (i_resume i) p q) as [[[|]|] q1]; reflexivity.
Qed.
Lemma read_az : forall cf o base s, q_az (read_que (read_phase cf o base s)) = q_az (s_q s).
Proof.
  intros cf o base s. unfold read_phase. destruct (i_gap (s_in s)); [reflexivity|].
  destruct (i_resume (s_in s)); [apply handle_az|].
  destruct (i_rest (s_in s)) as [|[t| |] rest]; [|apply handle_az|apply handle_az|reflexivity].
  destruct (i_sp (s_in s)); [apply handle_az|reflexivity].
Qed.
Definition read_inp (r : read_res) : inp := match r with RGo i _ _ => i | RContinue i _ _ => i | RRaise _ i _ _ => i end.
(** The packet that arrives: the next record, or the one after a gap. *)
Lemma read_packs : forall cf o base s, let r := read_phase cf o base s in
  (q_packs (read_que r) = q_packs (s_q s) \/
   exists p, q_packs (read_que r) = q_packs (s_q s) ++ [p] /\
     ((i_resume (s_in s) = false /\ (exists t, p = mk_packet (base + i_n (s_in s)) (i_n (s_in s)) t false) /\ i_n (read_inp r) = S (i_n (s_in s))) \/
      (i_resume (s_in s) = true /\ i_cur (s_in s) = Some p))) /\
  i_n (s_in s) <= i_n (read_inp r).
Proof.
  intros cf o base s. cbv zeta. unfold read_phase. destruct (i_gap (s_in s)); [split; [left; reflexivity|cbn; lia]|].
  assert (HN : forall i q m, i_n (read_inp (handle_packet cf o i q m)) = i_n i).
  { intros i q m. pose proof (handle_n cf o i q m) as H. destruct (handle_packet cf o i q m); exact H. }
  destruct (i_resume (s_in s)) eqn:R.
  { split; [|rewrite HN; lia]. destruct (handle_packs cf o (s_in s) (s_q s) (s_mon s)) as [E|(p & E & F)]; [left; exact E|].
    right. exists p. auto. }
  destruct (i_rest (s_in s)) as [|[t| |] rest].
  - destruct (i_sp (s_in s)); [|split; [left; reflexivity|cbn; lia]]. split; [|rewrite HN; cbn; lia].
    destruct (handle_packs cf o (mk_inp [] (i_n (s_in s)) None (i_pt (s_in s)) (i_gap (s_in s)) false true) (s_q s) (s_mon s)) as [E|(p & E & F)]; [left; exact E|discriminate].
  - match goal with |- context [handle_packet cf o ?i ?q ?m] => destruct (handle_packs cf o i q m) as [E|(p & E & F)] end;
      (split; [|rewrite HN; cbn; lia]); [left; exact E|]. right. exists p. split; [exact F|]. left. split; [reflexivity|].
    cbn in E. injection E as <-. split; [exists t; reflexivity|]. rewrite HN. reflexivity.
  - match goal with |- context [handle_packet cf o ?i ?q ?m] => destruct (handle_packs cf o i q m) as [E|(p & E & F)] end;
      (split; [|rewrite HN; cbn; lia]); [left; exact E|discriminate].
  - split; [left; reflexivity|cbn; lia].
Qed.
Lemma arrived_packs : forall cf o base s p, arrived s (read_phase cf o base s) = Some p ->
  exists k, q_packs (read_que (read_phase cf o base s)) = q_packs (s_q s) ++ [k] /\ p_uid k = p.
Proof.
  intros cf o base s p H. destruct (read_packs cf o base s) as ([E|(k & E & _)] & _); unfold arrived in H; rewrite E in H.
  - destruct (Nat.eqb_spec (length (q_packs (s_q s))) (S (length (q_packs (s_q s))))); [lia|discriminate].
  - rewrite last1_snoc in H. destruct (Nat.eqb _ _); [|discriminate]. cbn in H. injection H as <-. exists k. auto.
Qed.
Lemma packs_arrived : forall cf o base s k, q_packs (read_que (read_phase cf o base s)) = q_packs (s_q s) ++ [k] ->
  arrived s (read_phase cf o base s) = Some (p_uid k).
Proof.
  intros cf o base s k E. unfold arrived. rewrite E, last1_snoc, app_length. cbn [length].
  rewrite Nat.add_1_r, Nat.eqb_refl. reflexivity.
Qed.

(** One iteration: on what it depends. *)
Lemma body_ext : forall cf o base s r, body cf o base s = r ->
  exists new, q_az (s_q (step_st r)) = q_az (s_q s) ++ new /\
    (forall a, In a new -> exists p, In p (q_packs (read_que (read_phase cf o base s))) /\ p_done p = false /\ p_uid p = a_uid a) /\
    i_n (s_in (step_st r)) = i_n (read_inp (read_phase cf o base s)) /\
    forall o', same_fails o o' -> (forall a, In a new -> agree_vis o o' (a_uid a)) ->
      (forall p, arrived s (read_phase cf o base s) = Some p -> i_resume (s_in s) = false -> agree_new o o' p) ->
      body cf o' base s = r.
Proof.
  intros cf o base s r H. unfold body in H.
  assert (NONE : q_az (s_q (step_st r)) = q_az (s_q s) ->
    i_n (s_in (step_st r)) = i_n (read_inp (read_phase cf o base s)) ->
    (forall o', read_phase cf o' base s = read_phase cf o base s -> body cf o' base s = r) ->
    exists new, q_az (s_q (step_st r)) = q_az (s_q s) ++ new /\
    (forall a, In a new -> exists p, In p (q_packs (read_que (read_phase cf o base s))) /\ p_done p = false /\ p_uid p = a_uid a) /\
    i_n (s_in (step_st r)) = i_n (read_inp (read_phase cf o base s)) /\
    forall o', same_fails o o' -> (forall a, In a new -> agree_vis o o' (a_uid a)) ->
      (forall p, arrived s (read_phase cf o base s) = Some p -> i_resume (s_in s) = false -> agree_new o o' p) ->
      body cf o' base s = r).
  { intros E N G. exists []. rewrite app_nil_r. split; [exact E|]. split; [intros a []|]. split; [exact N|].
    intros o' _ _ A. apply G. apply (read_ext cf o o' base s _ eq_refl A). }
  pose proof (read_az cf o base s) as AZ.
  destruct (read_phase cf o base s) as [i q m|i q m|e i q m] eqn:R; cbn [read_que read_inp] in *.
  - destruct (i_sp i || (c_min cf <=? length (q_surfs q)) || i_gap i) eqn:C.
    + destruct (surface_phase cf o q (s_out s)) as [[e q1] w1] eqn:SP. apply surface_phase_ext in SP.
      destruct SP as (new & E & F & G). exists new.
      assert (ES : s_q (step_st r) = q1 /\ i_n (s_in (step_st r)) = i_n i).
      { destruct e; [subst r; split; reflexivity|]. unfold end_phase in H. destruct (q_surfs q1); [|subst r; split; reflexivity].
        cbn in H. destruct (i_gap i); subst r; split; reflexivity. }
      destruct ES as (ES & EN). rewrite ES, E, AZ. split; [reflexivity|]. split; [exact F|]. split; [exact EN|].
      intros o' SF A B. unfold body. rewrite (read_ext cf o o' base s _ R B), C, (G o' SF A). exact H.
    + unfold end_phase in H.
      apply NONE.
      * destruct (q_surfs q); [destruct (i_gap i)|]; subst r; exact AZ.
      * destruct (q_surfs q); [destruct (i_gap i)|]; subst r; reflexivity.
      * intros o' E. unfold body. rewrite E, C. exact H.
  - apply NONE; [subst r; exact AZ|subst r; reflexivity|]. intros o' E. unfold body. rewrite E. exact H.
  - apply NONE; [subst r; exact AZ|subst r; reflexivity|]. intros o' E. unfold body. rewrite E. exact H.
Qed.

(** * Several iterations *)
Fixpoint steps (cf : cfg) (o : oracle) (n : nat) (s : st) : option st :=
  match n with
  | O => Some s
  | S n => match body cf o 0 s with BCont s' => steps cf o n s' | _ => None end
  end.
Lemma steps_snoc : forall cf o n s s' s'', steps cf o n s = Some s' -> body cf o 0 s' = BCont s'' -> steps cf o (S n) s = Some s''.
Proof.
  intros cf o. induction n as [|n IH]; intros s s' s'' H B; cbn in *.
  - injection H as ->. rewrite B. reflexivity.
  - destruct (body cf o 0 s); try discriminate. exact (IH _ _ _ H B).
Qed.
Lemma steps_loop : forall cf o cancel n f k s s', steps cf o n s = Some s' -> (forall j, k <= j < k + n -> cancel j = false) ->
  loop cf o 0 cancel (n + f) k s = loop cf o 0 cancel f (k + n) s'.
Proof.
  intros cf o cancel. induction n as [|n IH]; intros f k s s' H C; cbn in *.
  - injection H as ->. rewrite Nat.add_0_r. reflexivity.
  - destruct (body cf o 0 s); try discriminate. rewrite C by lia. rewrite (IH f (S k) s0 s' H); [f_equal; lia|].
    intros j J. apply C. lia.
Qed.
Lemma steps_inv : forall cf o items n s s', Inv cf o items s -> steps cf o n s = Some s' -> Inv cf o items s'.
Proof.
  intros cf o items. induction n as [|n IH]; intros s s' I H; cbn in H; [injection H as <-; exact I|].
  pose proof (body_ok cf o items s I) as B. destruct (body cf o 0 s) as [s1| |]; try discriminate.
  exact (IH _ _ B H).
Qed.
Lemma body_mono : forall cf o s s', body cf o 0 s = BCont s' ->
  (forall a, In a (q_az (s_q s)) -> In a (q_az (s_q s'))) /\ i_n (s_in s) <= i_n (s_in s').
Proof.
  intros cf o s s' B. destruct (body_ext cf o 0 s _ B) as (new & E & _ & N & _). cbn [step_st] in *. split.
  - intros a I. rewrite E. apply in_or_app. auto.
  - rewrite N. apply (read_packs cf o 0 s).
Qed.
Lemma steps_mono : forall cf o n s s', steps cf o n s = Some s' ->
  (forall a, In a (q_az (s_q s)) -> In a (q_az (s_q s'))) /\ i_n (s_in s) <= i_n (s_in s').
Proof.
  intros cf o. induction n as [|n IH]; intros s s' H; cbn in H; [injection H as <-; auto|].
  destruct (body cf o 0 s) as [s1| |] eqn:B; try discriminate. apply body_mono in B. apply IH in H.
  destruct B as (B1 & B2), H as (H1 & H2). split; [auto|lia].
Qed.
Lemma steps_ext : forall cf o o' n s s', steps cf o n s = Some s' -> same_fails o o' ->
  (forall a, In a (q_az (s_q s')) -> agree_vis o o' (a_uid a)) ->
  (forall p, p < i_n (s_in s') -> agree_new o o' p) -> steps cf o' n s = Some s'.
Proof.
  intros cf o o'. induction n as [|n IH]; intros s s' H SF V N; cbn in H |- *; [exact H|].
  destruct (body cf o 0 s) as [s1| |] eqn:B; try discriminate.
  destruct (steps_mono _ _ _ _ _ H) as (M1 & M2). pose proof (body_ext cf o 0 s _ B) as (new & E & _ & EN & G).
  cbn [step_st] in *. rewrite G; [apply IH; assumption|exact SF| |].
  - intros a I. apply V, M1. rewrite E. apply in_or_app. auto.
  - intros p A R. apply N. destruct (arrived_packs cf o 0 s p A) as (k & K1 & K2).
    destruct (read_packs cf o 0 s) as (D & _). destruct D as [D|(k' & D1 & [(_ & (t & ->) & D3)|(D2 & _)])].
    + exfalso. rewrite D in K1. apply (f_equal (@length packet)) in K1. rewrite app_length in K1. cbn in K1. lia.
    + rewrite K1 in D1. apply app_inj_tail in D1. destruct D1 as (_ & ->). cbn in K2. lia.
    + congruence.
Qed.
