(** The run of a recording with a gap up to the gap, and from it. *)
From Coq Require Import List ZArith QArith Bool Lia Arith.
From Verif Require Import Common BeamModel BeamProofs ChainModel ChainSpec ChainAux ChainProofs ChainInv ChainMain WholeModel WholeChain LongSpec LongProofs SplitSpec SplitProofs.
Import ListNotations.
Local Open Scope nat_scope.

Arguments Nat.ltb : simpl never.
Arguments Nat.leb : simpl never.
Arguments Nat.div : simpl never.

Section Main.
Variables (cf : cfg) (o : oracle).

(** The loop gets from one state to another. *)
Definition reach (s s' : st) : Prop :=
  exists j, forall f k, loop cf o 0 no_cancel (j + f) k s = loop cf o 0 no_cancel f (j + k) s'.
Lemma reach_refl : forall s, reach s s.
Proof. intros s. exists 0. reflexivity. Qed.
Lemma reach_step : forall s s' s'', body cf o 0 s = BCont s' -> reach s' s'' -> reach s s''.
Proof. intros s s' s'' B (j & R). exists (S j). intros f k. cbn [plus loop]. rewrite B. cbn. rewrite R. f_equal. lia. Qed.
Lemma reach_trans : forall a b c, reach a b -> reach b c -> reach a c.
Proof.
  intros a b c (j & R) (j' & R'). exists (j + j'). intros f k. rewrite <- Nat.add_assoc, R, R'. f_equal. lia.
Qed.

(** ** Up to the gap *)
Lemma valid_rest : forall xs s, all_valid xs -> Inv cf o xs s -> i_rest (s_in s) = [] \/ exists t r, i_rest (s_in s) = Valid t :: r.
Proof.
  intros xs s V (I & _). rewrite (ii_rest _ _ _ _ _ _ _ I). destruct (skipn (i_n (s_in s)) xs) as [|x r] eqn:E; [auto|].
  right. unfold all_valid in V. rewrite Forall_forall in V. destruct (V x) as (t & ->); [|eauto].
  rewrite <- (firstn_skipn (i_n (s_in s)) xs), E. apply in_or_app. right. left. reflexivity.
Qed.
Lemma end_not : forall i q w mo s', i_gap i = true \/ q_surfs q <> [] -> end_phase i q w mo <> BEnd s'.
Proof. intros i q w mo s' [G|N]; unfold end_phase; destruct (q_surfs q); try congruence. rewrite G. discriminate. Qed.
Lemma go_not : forall s i q mo s', read_phase cf o 0 s = RGo i q mo -> i_gap i = true \/ 2 <= length (q_surfs q) \/ (i_sp i = false /\ 1 <= length (q_surfs q) < c_min cf) ->
  body cf o 0 s <> BEnd s'.
Proof.
  intros s i q mo s' R H. unfold body. rewrite R.
  destruct (i_sp i || (c_min cf <=? length (q_surfs q)) || i_gap i) eqn:G.
  - destruct (surface_phase cf o q (s_out s)) as [[e q1] w1] eqn:SP. destruct e as [e|]; [discriminate|]. apply end_not. cbn [i_gap].
    apply surface_phase_pops in SP. destruct H as [H|[H|(H & H')]]; [left; exact H|right|].
    + intros E. rewrite E in SP. cbn in SP. lia.
    + rewrite H in G. cbn in G. assert (L : (c_min cf <=? length (q_surfs q)) = false) by (apply Nat.leb_gt; lia). rewrite L in G. left. exact G.
  - apply end_not. right. intros E. rewrite E in *. cbn in *. destruct H as [H|[H|H]]; [rewrite H, orb_true_r in G; discriminate|lia|lia].
Qed.
Lemma unspent_on : forall xs s s', all_valid xs -> 2 <= c_min cf -> Inv cf o xs s -> ~ spent s -> body cf o 0 s <> BEnd s'.
Proof.
  intros xs s s' V M I NS. pose proof I as (I0 & LV & FW).
  assert (HA : forall i q mo p, i_cur i = Some p -> q_surfs q = [] /\ i_sp i = false \/ q_surfs q <> [] ->
    (i_sp i = false -> q_surfs q = [] \/ length (q_surfs q) < c_min cf) -> read_phase cf o 0 s = handle_packet cf o i q mo -> body cf o 0 s <> BEnd s').
  { intros i q mo p CU QE FE R. unfold handle_packet in R. rewrite CU in R.
    assert (NE : forall x, In x (q_surfs q) -> 1 <= length (q_surfs q)) by (intros x; destruct (q_surfs q); cbn; [contradiction|lia]).
    destruct (match i_pt i with Some _ => _ | None => _ end).
    - destruct (locate o (i_resume i) p q) as [r q1] eqn:LO.
      assert (CR : r = Some true -> length (q_surfs q1) = S (length (q_surfs q))).
      { unfold locate in LO. intros ->. destruct (q_surfs q) as [|s0 sr]; [injection LO as <-; reflexivity|].
        destruct (i_resume i); [injection LO as <-; cbn; rewrite app_length; cbn; lia|].
        destruct (q_packs q ++ [p]) as [|? [|? ?]]; try discriminate. destruct (o_new _ _ _); [|discriminate].
        injection LO as <-. cbn. rewrite app_length. cbn. lia. }
      destruct r as [[|]|]; [|unfold body; rewrite R; discriminate|unfold body; rewrite R; discriminate].
      specialize (CR eq_refl). apply (go_not s _ _ _ s' R). right. cbn [i_sp]. destruct QE as [(QE & SP)|QE].
      + right. rewrite CR, QE. cbn. split; [exact SP|lia].
      + left. rewrite CR. destruct (q_surfs q); [congruence|cbn; lia].
    - apply (go_not s _ _ _ s' R). left. reflexivity. }
  unfold spent in NS. destruct (i_gap (s_in s)) eqn:G.
  { eapply go_not; [unfold read_phase; rewrite G; reflexivity|left; exact G]. }
  destruct (i_resume (s_in s)) eqn:RE.
  { destruct (ii_cur _ _ _ _ _ _ _ I0) as (k & t & _ & CU & _); [rewrite RE, orb_true_r; reflexivity|].
    destruct (ii_resume _ _ _ _ _ _ _ I0 RE) as (QE & SP).
    eapply HA; [exact CU|left; split; [exact QE|exact SP]|intros _; left; exact QE|]. unfold read_phase. rewrite G, RE. reflexivity. }
  destruct (valid_rest xs s V I) as [E|(t & r & E)]; [exfalso; apply NS; auto|].
  apply (HA (mk_inp r (S (i_n (s_in s))) (Some (mk_packet (i_n (s_in s)) (i_n (s_in s)) t false)) (i_pt (s_in s)) false false (i_sp (s_in s))) (s_q s)
    (mk_mon (m_work (s_mon s) + 1)%Q (m_sub (s_mon s)) (m_cals (s_mon s))) (mk_packet (i_n (s_in s)) (i_n (s_in s)) t false));
    [reflexivity| | |unfold read_phase; rewrite G, RE, E; reflexivity]; cbn [i_sp]; [|exact FW].
  destruct (q_surfs (s_q s)) as [|x y] eqn:Q; [left|right; discriminate]. split; [reflexivity|].
  destruct (i_sp (s_in s)) eqn:SP; [|reflexivity]. exfalso. apply LV; auto.
Qed.
Lemma to_spent : forall xs, all_valid xs -> 2 <= c_min cf -> forall f k s s1, Inv cf o xs s -> loop cf o 0 no_cancel f k s = OEnd s1 false ->
  exists s0 f0 k0, spent s0 /\ Inv cf o xs s0 /\ loop cf o 0 no_cancel f0 k0 s0 = OEnd s1 false /\ forall ys, reach (more ys s) (more ys s0).
Proof.
  intros xs V M. induction f as [|f IH]; intros k s s1 I E; [discriminate|].
  destruct (spent_dec s) as [SP|NS].
  { exists s, (S f), k. split; [exact SP|]. split; [exact I|]. split; [exact E|]. intros ys. apply reach_refl. }
  cbn [loop] in E. pose proof (body_ok cf o xs s I) as B. pose proof (unspent_on xs s) as U. pose proof (fun ys => body_more cf o ys s NS) as BM.
  destruct (body cf o 0 s) as [s'|s'|e s']; [| |discriminate].
  - cbn [step_ok] in B. destruct (IH (S k) s' s1 B E) as (s0 & f0 & k0 & SP & I0 & L & R).
    exists s0, f0, k0. split; [exact SP|]. split; [exact I0|]. split; [exact L|]. intros ys. apply (reach_step _ (more ys s')); [apply BM|apply R].
  - exfalso. exact (U s' V M I NS eq_refl).
Qed.

(** ** The surfaces left at the gap *)
Definition at_gap (p : packet) (rest : list item) (k : nat) (q : que) (w : out) (s : st) : Prop :=
  i_rest (s_in s) = rest /\ i_n (s_in s) = k /\ i_cur (s_in s) = Some p /\ i_pt (s_in s) = None /\ s_q s = q /\ s_out s = w.
Lemma flush : forall p rest n f k s s1, spent s -> i_sp (s_in s) = true -> loop cf o 0 no_cancel f k s = OEnd s1 false ->
  forall sa, at_gap p rest n (s_q s) (s_out s) sa -> i_gap (s_in sa) = true ->
  exists s2, reach sa s2 /\ at_gap p rest n (s_q s1) (s_out s1) s2 /\ i_gap (s_in s2) = false /\ i_resume (s_in s2) = true /\ i_sp (s_in s2) = false.
Proof.
  intros p rest n f. induction f as [|f IH]; intros k s s1 (G & RE & RS) SP L sa (A1 & A2 & A3 & A4 & A5 & A6) GA; [discriminate|].
  cbn [loop] in L.
  assert (BS : body cf o 0 s = match surface_phase cf o (s_q s) (s_out s) with
    | (Some e, q1, w1) => BRaise e (mk_st (mk_inp [] (i_n (s_in s)) None (i_pt (s_in s)) false false true) q1 w1 (s_mon s))
    | (None, q1, w1) => end_phase (mk_inp [] (i_n (s_in s)) None (i_pt (s_in s)) false false true) q1 w1 (s_mon s) end).
  { unfold body, read_phase. rewrite G, RE, RS, SP. unfold handle_packet. cbn [i_cur i_sp orb i_rest i_n i_pt i_gap i_resume].
    destruct (surface_phase cf o (s_q s) (s_out s)) as [[[e|] q1] w1]; reflexivity. }
  assert (BA : exists mo, body cf o 0 sa = match surface_phase cf o (s_q s) (s_out s) with
    | (Some e, q1, w1) => BRaise e (mk_st (mk_inp rest n (Some p) None true (i_resume (s_in sa)) true) q1 w1 mo)
    | (None, q1, w1) => end_phase (mk_inp rest n (Some p) None true (i_resume (s_in sa)) true) q1 w1 mo end).
  { eexists. unfold body, read_phase. rewrite GA. cbv beta iota. rewrite GA, orb_true_r, A1, A2, A3, A4, A5, A6. 
    destruct (surface_phase cf o (s_q s) (s_out s)) as [[[e|] q1] w1]; reflexivity. }
  destruct BA as (mo & BA). rewrite BS in L. destruct (surface_phase cf o (s_q s) (s_out s)) as [[[e|] q1] w1]; [discriminate|].
  unfold end_phase in *. destruct (q_surfs q1) as [|x r] eqn:Q; cbn [i_gap i_rest i_n i_cur i_pt] in *.
  - injection L as <-. eexists. split; [eapply reach_step; [exact BA|apply reach_refl]|]. repeat split.
  - cbn in L. pose proof (fun A B => IH _ _ _ A B L) as IH'.
    destruct (IH' ltac:(repeat split) eq_refl (mk_st (mk_inp rest n (Some p) None true (i_resume (s_in sa)) true) q1 w1 mo) ltac:(repeat split) eq_refl) as (s2 & R & H).
    exists s2. split; [|exact H]. eapply reach_step; [exact BA|]. exact R.
Qed.
Lemma spent_sp : forall f k s s1, spent s -> loop cf o 0 no_cancel f k s = OEnd s1 false -> i_sp (s_in s) = true.
Proof.
  intros [|f] k s s1 (G & RE & RS) L; [discriminate|]. cbn [loop] in L. unfold body, read_phase in L. rewrite G, RE, RS in L.
  destruct (i_sp (s_in s)); [reflexivity|discriminate].
Qed.
Lemma to_gap : forall xs t ys s1, all_valid xs -> 2 <= c_min cf -> run cf o no_cancel xs = OEnd s1 false ->
  gap_at (c_gap cf) (xs ++ Valid t :: ys) (length xs) ->
  exists s2, reach (init [] [] 0 (xs ++ Valid t :: ys)) s2 /\
    at_gap (mk_packet (length xs) (length xs) t false) ys (S (length xs)) (s_q s1) (s_out s1) s2 /\
    i_gap (s_in s2) = false /\ i_resume (s_in s2) = true /\ i_sp (s_in s2) = false.
Proof.
  intros xs t ys s1 V M E (t' & t0 & X1 & X2 & X3).
  rewrite nth_error_app2, Nat.sub_diag in X1 by lia. injection X1 as <-. rewrite firstn_app, Nat.sub_diag, firstn_all in X2. cbn [firstn] in X2. rewrite app_nil_r in X2.
  destruct (to_spent xs V M _ _ _ _ (init_inv cf o xs) E) as (s0 & f0 & k0 & SP & (I & _) & L & R).
  pose proof (spent_sp _ _ _ _ SP L) as SS. pose proof SP as (G & RE & RS).
  assert (N : i_n (s_in s0) = length xs).
  { pose proof (ii_rest _ _ _ _ _ _ _ I) as IR. rewrite RS in IR. pose proof (ii_n _ _ _ _ _ _ _ I).
    pose proof (f_equal (@length _) IR) as X. rewrite skipn_length in X. cbn in X. lia. }
  assert (PT : i_pt (s_in s0) = Some t0).
  { rewrite (ii_pt _ _ _ _ _ _ _ I) by (rewrite G, RE; reflexivity). rewrite N, firstn_all. exact X2. }
  assert (LT : lt_q (t - t0) (c_gap cf) = false).
  { destruct (lt_q (t - t0) (c_gap cf)) eqn:LQ; [|reflexivity]. apply (lt_q_spec (t - t0) (c_gap cf)) in LQ. contradiction. }
  specialize (R (Valid t :: ys)). change (more (Valid t :: ys) (init [] [] 0 xs)) with (init [] [] 0 (xs ++ Valid t :: ys)) in R.
  (* the first surface after the gap is read *)
  destruct f0 as [|f0]; [discriminate|]. pose proof L as L'. cbn [loop] in L'.
  assert (BS : body cf o 0 s0 = match surface_phase cf o (s_q s0) (s_out s0) with
    | (Some e, q1, w1) => BRaise e (mk_st (mk_inp [] (i_n (s_in s0)) None (i_pt (s_in s0)) false false true) q1 w1 (s_mon s0))
    | (None, q1, w1) => end_phase (mk_inp [] (i_n (s_in s0)) None (i_pt (s_in s0)) false false true) q1 w1 (s_mon s0) end).
  { unfold body, read_phase. rewrite G, RE, RS, SS. unfold handle_packet. cbn [i_cur i_sp orb i_rest i_n i_pt i_gap i_resume].
    destruct (surface_phase cf o (s_q s0) (s_out s0)) as [[[e|] q1] w1]; reflexivity. }
  set (p := mk_packet (length xs) (length xs) t false).
  assert (BA : exists mo, body cf o 0 (more (Valid t :: ys) s0) = match surface_phase cf o (s_q s0) (s_out s0) with
    | (Some e, q1, w1) => BRaise e (mk_st (mk_inp ys (S (length xs)) (Some p) None true false true) q1 w1 mo)
    | (None, q1, w1) => end_phase (mk_inp ys (S (length xs)) (Some p) None true false true) q1 w1 mo end).
  { eexists. unfold body, read_phase, more. cbn [s_in s_q s_mon s_out more_inp i_gap i_resume i_rest i_n i_cur i_pt i_sp]. rewrite G, RE, RS, SS, N, PT. cbn [app plus].
    unfold handle_packet. cbn [i_cur i_pt p_time i_rest i_n i_resume i_sp i_gap]. rewrite LT. cbn [i_cur i_pt p_time i_rest i_n i_resume i_sp i_gap orb].
    fold p. destruct (surface_phase cf o (s_q s0) (s_out s0)) as [[[e|] q1] w1]; reflexivity. }
  destruct BA as (mo & BA). rewrite BS in L'. destruct (surface_phase cf o (s_q s0) (s_out s0)) as [[[e|] q1] w1]; [discriminate|].
  unfold end_phase in *. destruct (q_surfs q1) as [|x r] eqn:Q; cbn [i_gap i_rest i_n i_cur i_pt] in *.
  - injection L' as <-. eexists. split; [eapply reach_trans; [exact R|]; eapply reach_step; [exact BA|apply reach_refl]|]. repeat split.
  - cbn in L'. pose proof (fun A B => flush p ys (S (length xs)) _ _ _ _ A B L') as FL.
    destruct (FL ltac:(repeat split) eq_refl (mk_st (mk_inp ys (S (length xs)) (Some p) None true false true) q1 w1 mo) ltac:(repeat split) eq_refl) as (s2 & R2 & H).
    exists s2. split; [|exact H]. eapply reach_trans; [exact R|]. eapply reach_step; [exact BA|exact R2].
Qed.
End Main.
