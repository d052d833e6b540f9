(** The chain on other times. *)
From Coq Require Import List ZArith QArith Bool Lia Arith.
From Verif Require Import Common BeamModel ChainModel WholeModel WholeChain ClockSpec.
From Verif Require SurfModel RotSpec.
Import ListNotations.
Import RotSpec.
Local Open Scope nat_scope.

Definition same_item (a b : item) : Prop :=
  match a, b with Valid _, Valid _ => True | Nothing, Nothing => True | ReadFail, ReadFail => True | _, _ => False end.
Definition same_packet (p p' : packet) : Prop :=
  p_uid p' = p_uid p /\ p_counter p' = p_counter p /\ p_done p' = p_done p.
Definition same_opt (a b : option Q) : Prop := match a, b with None, None => True | Some _, Some _ => True | _, _ => False end.
Definition same_inp (i i' : inp) : Prop :=
  Forall2 same_item (i_rest i) (i_rest i') /\ i_n i' = i_n i /\ both same_packet (i_cur i) (i_cur i') /\ same_opt (i_pt i) (i_pt i') /\
  i_gap i' = i_gap i /\ i_resume i' = i_resume i /\ i_sp i' = i_sp i.
Definition same_que (q q' : que) : Prop :=
  q_surfs q' = q_surfs q /\ Forall2 same_packet (q_packs q) (q_packs q') /\ q_count q' = q_count q /\ q_next q' = q_next q /\
  q_psize q' = q_psize q /\ q_ptrend q' = q_ptrend q /\ q_az q' = q_az q.
(** The time the next valid record is compared with. *)
Definition before (i : inp) : option Q := if i_gap i || i_resume i then option_map p_time (i_cur i) else i_pt i.
Definition pending (i : inp) : Prop := i_gap i || i_resume i = true -> i_pt i = None /\ i_cur i <> None.
Definition same_times (gap : Q) (i i' : inp) : Prop :=
  joined gap (before i') (i_rest i') = joined gap (before i) (i_rest i) /\ pending i /\ pending i'.
Definition same_st (gap : Q) (s s' : st) : Prop :=
  same_inp (s_in s) (s_in s') /\ same_times gap (s_in s) (s_in s') /\ same_que (s_q s) (s_q s') /\ s_out s' = s_out s /\ s_mon s' = s_mon s.
Definition same_read (gap : Q) (r r' : read_res) : Prop :=
  match r, r' with
  | RGo i q m, RGo i' q' m' => same_inp i i' /\ same_times gap i i' /\ same_que q q' /\ m' = m
  | RContinue i q m, RContinue i' q' m' => same_inp i i' /\ same_times gap i i' /\ same_que q q' /\ m' = m
  | RRaise e i q m, RRaise e' i' q' m' => e' = e /\ same_inp i i' /\ same_que q q' /\ m' = m
  | _, _ => False
  end.
Definition weak_st (s s' : st) : Prop := same_que (s_q s) (s_q s') /\ s_out s' = s_out s.
Definition same_step (gap : Q) (r r' : step_res) : Prop :=
  match r, r' with
  | BCont s, BCont s' => same_st gap s s'
  | BEnd s, BEnd s' => weak_st s s'
  | BRaise e s, BRaise e' s' => e' = e /\ weak_st s s'
  | _, _ => False
  end.

Lemma beam_step_same : forall cf o w p p' q q', same_packet p p' -> same_que q q' -> beam_step cf o w p' q' = beam_step cf o w p q.
Proof.
  intros cf o w p p' q q' (P1 & P2 & _) (Q1 & _ & _ & _ & Q5 & Q6 & _). unfold beam_step. rewrite P1, Q1, Q5, Q6.
  set (r := beam_angles _ _ _ _ _ _). assert (E : forall t n idx seen l, pair_loop (c_N cf) p' t n idx seen l = pair_loop (c_N cf) p t n idx seen l).
  { intros t n idx seen l. revert idx seen. induction l as [|s l IH]; intros idx seen; cbn; [reflexivity|]. destruct seen as [|c cs]; [reflexivity|].
    destruct (Nat.eqb (s_counter s) c); rewrite IH; [rewrite P1, P2|]; reflexivity. }
  rewrite E. reflexivity.
Qed.
Lemma azimuth_same : forall cf o p p' seen t, same_packet p p' -> azimuth_fails cf o p' seen t = azimuth_fails cf o p seen t.
Proof. intros cf o p p' seen t (P & _). unfold azimuth_fails. rewrite P. reflexivity. Qed.
Lemma burst_loop_same : forall cf o w todo todo' vis vis' q q', Forall2 same_packet todo todo' -> Forall2 same_packet vis vis' -> same_que q q' ->
  fst (burst_loop cf o w vis' todo' q') = fst (burst_loop cf o w vis todo q) /\
  same_que (snd (burst_loop cf o w vis todo q)) (snd (burst_loop cf o w vis' todo' q')).
Proof.
  intros cf o w todo. induction todo as [|p todo IH]; intros todo' vis vis' q q' T V Q; inversion T as [|p0 p' todo0 todo1 P T1]; subst; cbn [burst_loop].
  - split; [reflexivity|]. destruct Q as (Q1 & Q2 & Q3 & Q4 & Q5 & Q6 & Q7). cbn. unfold same_que; cbn. repeat (split; try assumption).
  - pose proof P as (P1 & P2 & P3). rewrite P3. destruct (p_done p) eqn:D.
    { apply IH; [exact T1| |exact Q]. apply Forall2_app; [exact V|]. constructor; [exact P|constructor]. }
    rewrite (beam_step_same cf o w p p' q q' P Q). destruct (beam_step cf o w p q) as [[[seen t] surfs'] wseen].
    rewrite (azimuth_same cf o p p' seen t P).
    pose proof Q as (Q1 & Q2 & Q3 & Q4 & Q5 & Q6 & Q7).
    assert (VP : Forall2 same_packet (vis ++ p :: todo) (vis' ++ p' :: todo1)) by (apply Forall2_app; [exact V|constructor; assumption]).
    set (pd := mk_packet (p_uid p) (p_counter p) (p_time p) true). set (pd' := mk_packet (p_uid p') (p_counter p') (p_time p') true).
    assert (PD : same_packet pd pd') by (unfold same_packet, pd, pd'; cbn; auto).
    destruct (azimuth_fails cf o p seen t).
    { split; [reflexivity|]. unfold same_que; cbn. rewrite Q3, Q4, Q7, P1. repeat (split; [reflexivity||assumption|]). reflexivity. }
    destruct wseen.
    + apply IH; [exact T1| |].
      * apply Forall2_app; [exact V|]. constructor; [exact PD|constructor].
      * unfold same_que; cbn. rewrite Q3, Q4, Q7, P1. repeat (split; [reflexivity||assumption|]). reflexivity.
    + split; [reflexivity|]. unfold same_que; cbn. rewrite Q3, Q4, Q7, P1. split; [reflexivity|]. split; [|repeat (split; [reflexivity|]); reflexivity].
      apply Forall2_app; [exact V|]. constructor; assumption.
Qed.
Lemma drop_until_same : forall c l l', Forall2 same_packet l l' -> Forall2 same_packet (drop_until c l) (drop_until c l').
Proof.
  intros c l l' F. induction F as [|p p' l l' P F IH]; cbn; [constructor|]. destruct P as (P1 & P2 & P3). rewrite P2.
  destruct (Nat.eqb (p_counter p) c); [|exact IH]. constructor; [split; auto|exact F].
Qed.
Lemma surface_phase_same : forall cf o q q' w, same_que q q' ->
  match surface_phase cf o q w, surface_phase cf o q' w with
  | (e, q1, w1), (e', q1', w1') => e' = e /\ same_que q1 q1' /\ w1' = w1
  end.
Proof.
  intros cf o q q' w Q. unfold surface_phase. pose proof Q as (Q1 & Q2 & _). rewrite Q1.
  destruct (q_surfs q) as [|s0 ss]; [auto|].
  destruct (burst_loop_same cf o (s_uid s0) _ _ [] [] q q' Q2 (Forall2_nil _) Q) as (E & S).
  destruct (burst_loop cf o (s_uid s0) [] (q_packs q) q) as [e q1]. destruct (burst_loop cf o (s_uid s0) [] (q_packs q') q') as [e' q1'].
  cbn [fst snd] in *. subst e'. destruct e; [auto|]. pose proof S as (S1 & S2 & S3 & S4 & S5 & S6 & S7). rewrite S1.
  destruct (q_surfs q1) as [|s1 rest]; [auto|].
  assert (SP : forall ps ps', Forall2 same_packet ps ps' -> same_que (set_packs_surfs q1 ps rest) (set_packs_surfs q1' ps' rest)).
  { intros ps ps' F. unfold same_que, set_packs_surfs; cbn. repeat (split; try assumption); try reflexivity. }
  destruct (stack_size cf s1 <? c_looks cf / 2); [split; [reflexivity|]; split; [apply SP; assumption|reflexivity]|].
  destruct (o_corr_fail o (s_uid s1)); [auto|]. destruct (o_w1_fail o (s_uid s1)); [auto|].
  destruct (c_l1bs cf && o_w2_fail o (s_uid s1)); [auto|].
  destruct S2 as [|p p' ps ps' P F]; [split; [reflexivity|]; split; [apply SP; constructor|reflexivity]|].
  destruct (s_stack s1) as [|e0 es] eqn:ST.
  - split; [reflexivity|]. split; [exact S|reflexivity].
  - split; [reflexivity|]. split; [apply SP; apply drop_until_same; constructor; assumption|reflexivity].
Qed.
Lemma locate_same : forall o f p p' q q', same_packet p p' -> same_que q q' ->
  fst (locate o f p' q') = fst (locate o f p q) /\ same_que (snd (locate o f p q)) (snd (locate o f p' q')).
Proof.
  intros o f p p' q q' P Q. unfold locate. pose proof Q as (Q1 & Q2 & Q3 & Q4 & Q5 & Q6 & Q7). pose proof P as (P1 & P2 & P3).
  rewrite Q1, Q3, Q4, Q5, Q6, Q7, P1.
  assert (F : Forall2 same_packet (q_packs q ++ [p]) (q_packs q' ++ [p'])) by (apply Forall2_app; [exact Q2|constructor; [exact P|constructor]]).
  assert (C : same_que (mk_que (q_surfs q ++ [mk_surface (q_next q) (q_count q) (p_uid p) []]) (q_packs q ++ [p]) (S (q_count q)) (S (q_next q)) (q_psize q) (q_ptrend q) (q_az q))
                       (mk_que (q_surfs q ++ [mk_surface (q_next q) (q_count q) (p_uid p) []]) (q_packs q' ++ [p']) (S (q_count q)) (S (q_next q)) (q_psize q) (q_ptrend q) (q_az q)))
    by (unfold same_que; cbn; repeat (split; [reflexivity||assumption|]); reflexivity).
  assert (K : same_que (set_packs_surfs q (q_packs q ++ [p]) (q_surfs q)) (set_packs_surfs q' (q_packs q' ++ [p']) (q_surfs q)))
    by (unfold same_que, set_packs_surfs; cbn; repeat (split; try assumption); try reflexivity).
  destruct (q_surfs q) as [|s ss]; [split; [reflexivity|exact C]|]. destruct f; [split; [reflexivity|exact C]|].
  destruct F as [|a a' l l' A F]; [split; [reflexivity|exact K]|]. destruct F as [|b b' l l' B F]; [split; [reflexivity|exact K]|].
  destruct (o_new o _ _); split; try reflexivity; assumption.
Qed.

(** Handling a packet: [i] with the packet as input_packet; the decision about it
    and the later ones are the same. *)
Lemma handle_same : forall cf o i i' q q' m, same_inp i i' -> same_que q q' ->
  match i_cur i, i_cur i' with
  | Some p, Some p' =>
      match i_pt i with None => true | Some t0 => lt_q (p_time p - t0)%Q (c_gap cf) end =
      match i_pt i' with None => true | Some t0 => lt_q (p_time p' - t0)%Q (c_gap cf) end /\
      joined (c_gap cf) (Some (p_time p')) (i_rest i') = joined (c_gap cf) (Some (p_time p)) (i_rest i)
  | _, _ => same_times (c_gap cf) i i'
  end -> i_gap i = false ->
  same_read (c_gap cf) (handle_packet cf o i q m) (handle_packet cf o i' q' m).
Proof.
  intros cf o i i' q q' m I Q J G. unfold handle_packet. pose proof I as (I1 & I2 & I3 & I4 & I5 & I6 & I7).
  destruct (i_cur i) as [p|] eqn:C, (i_cur i') as [p'|] eqn:C'; try contradiction; [|cbn; repeat (split; try assumption); apply J].
  destruct J as (J1 & J2). rewrite <- J1. rewrite I6. pose proof I3 as (P1 & P2 & P3). rewrite P1.
  destruct (match i_pt i with None => true | Some t0 => lt_q (p_time p - t0)%Q (c_gap cf) end) eqn:D.
  - destruct (locate_same o (i_resume i) p p' q q' I3 Q) as (L1 & L2).
    destruct (locate o (i_resume i) p q) as [r q1]. destruct (locate o (i_resume i) p' q') as [r' q1']. cbn [fst snd] in *. subst r'.
    assert (SI : same_inp (mk_inp (i_rest i) (i_n i) (Some p) (Some (p_time p)) (i_gap i) false (i_sp i))
                          (mk_inp (i_rest i') (i_n i') (Some p') (Some (p_time p')) (i_gap i') false (i_sp i')))
      by (unfold same_inp; cbn; repeat (split; try assumption); try reflexivity).
    assert (SJ : same_times (c_gap cf) (mk_inp (i_rest i) (i_n i) (Some p) (Some (p_time p)) (i_gap i) false (i_sp i))
                          (mk_inp (i_rest i') (i_n i') (Some p') (Some (p_time p')) (i_gap i') false (i_sp i'))).
    { unfold same_times, before, pending; cbn. rewrite I5, G. cbn. split; [exact J2|]. split; discriminate. }
    destruct r as [[|]|]; cbn; repeat (split; try assumption); try apply SJ.
  - cbn. split; [unfold same_inp; cbn; repeat (split; try assumption); try reflexivity|].
    split; [|split; [exact Q|]].
    + unfold same_times, before, pending; cbn. split; [exact J2|]. split; intros _; split; congruence.
    + destruct Q as (Q1 & _). rewrite Q1. reflexivity.
Qed.
Lemma read_same : forall cf o s s', same_st (c_gap cf) s s' ->
  same_read (c_gap cf) (read_phase cf o 0 s) (read_phase cf o 0 s').
Proof.
  intros cf o s s' (I & (J & PE & PE') & Q & W & M). pose proof I as (I1 & I2 & I3 & I4 & I5 & I6 & I7). unfold read_phase. rewrite M, I5, I6.
  destruct (i_gap (s_in s)) eqn:G.
  { cbn. split; [exact I|]. split; [split; [exact J|split; assumption]|]. split; [exact Q|reflexivity]. }
  destruct (i_resume (s_in s)) eqn:R.
  { apply handle_same; try assumption. unfold pending in PE, PE'. rewrite I5, I6, G, R in *. cbn in PE, PE'. destruct (PE eq_refl) as (E1 & E2).
    destruct (PE' eq_refl) as (E1' & E2'). unfold before in J. rewrite I5, I6, G, R in J. cbn in J.
    destruct (i_cur (s_in s)) as [p|]; [|congruence]. destruct (i_cur (s_in s')) as [p'|]; [|congruence].
    rewrite E1, E1'. split; [reflexivity|exact J]. }
  unfold before in J. rewrite I5, I6, G, R in J. cbn in J. rewrite I2, I7.
  assert (SI : forall r r' c c', Forall2 same_item r r' -> both same_packet c c' ->
     forall n, same_inp (mk_inp r n c (i_pt (s_in s)) false false (i_sp (s_in s))) (mk_inp r' n c' (i_pt (s_in s')) false false (i_sp (s_in s))))
    by (intros; unfold same_inp; cbn; repeat (split; try assumption); try reflexivity).
  destruct I1 as [|a b r r' AB F].
  - destruct (i_sp (s_in s)) eqn:SP.
    + apply handle_same; cbn [i_cur i_pt i_gap].
      * apply SI; [constructor|exact Logic.I].
      * exact Q.
      * unfold same_times, before, pending; cbn. split; [exact J|]. split; discriminate.
      * reflexivity.
    + cbn. split; [reflexivity|]. split; [|split; [exact Q|reflexivity]]. apply SI; [constructor|exact Logic.I].
  - destruct a as [t| |], b as [t'| |]; try contradiction.
    + cbn [joined] in J. injection J as J1 J2. apply handle_same; cbn [i_cur i_pt i_gap i_rest p_time].
      * apply SI; [exact F|]. cbn. unfold same_packet; cbn. auto.
      * exact Q.
      * split; [symmetry; exact J1|exact J2].
      * reflexivity.
    + cbn [joined] in J. apply handle_same; cbn [i_cur i_pt i_gap i_rest].
      * apply SI; [exact F|exact Logic.I].
      * exact Q.
      * unfold same_times, before, pending; cbn. split; [exact J|]. split; discriminate.
      * reflexivity.
    + cbn. split; [reflexivity|]. split; [|split; [exact Q|reflexivity]].
      unfold same_inp; cbn. repeat (split; try assumption); try reflexivity.
Qed.
Lemma end_same : forall gap i i' q q' w m, same_inp i i' -> same_times gap i i' -> same_que q q' ->
  same_step gap (end_phase i q w m) (end_phase i' q' w m).
Proof.
  intros gap i i' q q' w m I J Q. unfold end_phase. pose proof Q as (Q1 & _). rewrite Q1. pose proof I as (I1 & I2 & I3 & I4 & I5 & I6 & I7). rewrite I5.
  destruct (q_surfs q); [|cbn; repeat (split; try assumption); apply J].
  destruct (i_gap i) eqn:G; [|split; [exact Q|reflexivity]].
  cbn. split; [unfold same_inp; cbn; repeat (split; try assumption); try reflexivity|]. split; [|split; [exact Q|split; reflexivity]].
  destruct J as (J & PE & PE'). unfold same_times, before, pending in *; cbn in *. rewrite I5, G in *. cbn in *. auto.
Qed.
Lemma sp_same : forall gap i i', same_inp i i' -> same_times gap i i' ->
  let f i := mk_inp (i_rest i) (i_n i) (i_cur i) (i_pt i) (i_gap i) (i_resume i) true in same_inp (f i) (f i') /\ same_times gap (f i) (f i').
Proof.
  intros gap i i' (I1 & I2 & I3 & I4 & I5 & I6 & I7) J. cbv zeta. split; [unfold same_inp; cbn; repeat (split; try assumption); try reflexivity|exact J].
Qed.
Lemma body_same : forall cf o s s', same_st (c_gap cf) s s' -> same_step (c_gap cf) (body cf o 0 s) (body cf o 0 s').
Proof.
  intros cf o s s' S. pose proof (read_same cf o s s' S) as R. destruct S as (_ & _ & _ & W & _). unfold body.
  destruct (read_phase cf o 0 s) as [i q m|i q m|e i q m], (read_phase cf o 0 s') as [i' q' m'|i' q' m'|e' i' q' m']; try contradiction; cbn in R.
  - destruct R as (I & J & Q & ->). rewrite W. pose proof Q as (Q1 & _). pose proof I as (_ & _ & _ & _ & I5 & _ & I7). rewrite Q1, I5, I7.
    destruct (i_sp i || (c_min cf <=? length (q_surfs q)) || i_gap i); [|apply end_same; assumption].
    pose proof (surface_phase_same cf o q q' (s_out s) Q) as SP. destruct (surface_phase cf o q (s_out s)) as [[e q1] w1].
    destruct (surface_phase cf o q' (s_out s)) as [[e' q1'] w1']. destruct SP as (-> & Q2 & ->).
    destruct (sp_same _ _ _ I J) as (K1 & K2). cbv zeta in K1, K2. rewrite I5 in K1, K2.
    destruct e; [split; [reflexivity|]; split; [exact Q2|reflexivity]|]. apply end_same; assumption.
  - destruct R as (I & J & Q & ->). cbn. repeat (split; try assumption); apply J.
  - destruct R as (-> & I & Q & ->). split; [reflexivity|]. split; [exact Q|exact W].
Qed.
Lemma arrived_same : forall cf o s s', same_st (c_gap cf) s s' ->
  arrived s' (read_phase cf o 0 s') = arrived s (read_phase cf o 0 s).
Proof.
  intros cf o s s' S. pose proof (read_same cf o s s' S) as R. destruct S as (_ & _ & (_ & P & _) & _).
  assert (QP : Forall2 same_packet (q_packs (read_que (read_phase cf o 0 s))) (q_packs (read_que (read_phase cf o 0 s')))).
  { destruct (read_phase cf o 0 s) as [i q m|i q m|e i q m], (read_phase cf o 0 s') as [i' q' m'|i' q' m'|e' i' q' m']; try contradiction; cbn in R |- *.
    - destruct R as (_ & _ & (_ & F & _) & _). exact F.
    - destruct R as (_ & _ & (_ & F & _) & _). exact F.
    - destruct R as (_ & _ & (_ & F & _) & _). exact F. }
  unfold arrived.
  assert (L : forall {A B} (r : A -> B -> Prop) l l', Forall2 r l l' -> length l' = length l) by (intros A B r l l' F; induction F; cbn; congruence).
  rewrite (L _ _ _ _ _ QP), (L _ _ _ _ _ P). destruct (_ =? _); [|reflexivity].
  unfold SurfModel.last1.
  assert (RV : Forall2 same_packet (rev (q_packs (read_que (read_phase cf o 0 s)))) (rev (q_packs (read_que (read_phase cf o 0 s'))))).
  { clear - QP. induction QP; cbn; [constructor|]. apply Forall2_app; [assumption|constructor; [assumption|constructor]]. }
  destruct RV as [|p p' l l' (E & _) F]; [reflexivity|]. cbn. rewrite E. reflexivity.
Qed.
