(** Consequences of the loop invariant for whole runs. *)
From Coq Require Import List ZArith QArith Bool Lia Arith Sorted.
From Coq Require Import ZifyBool ZifyNat.
From Verif Require Import Common BeamModel BeamSpec BeamProofs ChainModel ChainSpec ChainAux ChainProofs ChainInv ChainMain.
Import ListNotations.
Local Open Scope nat_scope.

Arguments Nat.div : simpl never.

Lemma half_le : forall n, n / 2 <= n.
Proof. intro n. apply Nat.div_le_upper_bound; lia. Qed.

Lemma stack_size_half : forall cf s,
  stack_size cf s <? c_looks cf / 2 = false <-> c_looks cf / 2 <= length (s_stack s).
Proof.
  intros cf s. unfold stack_size. pose proof (half_le (c_looks cf)).
  rewrite Nat.ltb_ge. destruct (Nat.ltb_spec (length (s_stack s)) (c_looks cf)); lia.
Qed.

Lemma filter_subseq : forall {A} (f : A -> bool) l, subseq (filter f l) l.
Proof. induction l; cbn; [constructor|]. destruct (f a); constructor; auto. Qed.

Lemma kept_subseq : forall w, subseq (kept w) (decided w).
Proof. intros. apply subseq_map. apply filter_subseq. Qed.

Lemma subseq_app_r : forall {A} (a b c : list A), subseq a b -> subseq a (b ++ c).
Proof.
  intros A a b c H. induction H; cbn; try (constructor; assumption).
Qed.

Lemma subseq_app : forall {A} (a b c d : list A), subseq a b -> subseq c d -> subseq (a ++ c) (b ++ d).
Proof.
  intros A a b c d H. induction H; cbn; intros; try (constructor; auto; fail).
  induction l; cbn; auto. constructor; auto.
Qed.

Lemma subseq_cons_l : forall {A} (x : A) l, subseq [x] (x :: l).
Proof. intros. constructor. constructor. Qed.

Section Facts.
Variable cf : cfg.
Variable o : oracle.
Variable cancel : nat -> bool.
Variable items : list item.

Notation r := (run cf o cancel items).
Notation fin := (final (run cf o cancel items)).

Lemma run_cases : (exists s c, r = OEnd s c) \/ (exists e s, r = ORaise e s).
Proof.
  destruct r as [s c|e s|s] eqn:E; eauto.
  exfalso. exact (run_from_terminates _ _ _ _ _ _ _ _ _ E).
Qed.

(** facts that hold for every outcome *)
Lemma out_all : KI cf o items (decided (s_out fin)) (s_q fin)
  /\ exists w0, OI cf w0 /\ w_done (s_out fin) = w_done w0 /\
     ((w_l1b (s_out fin) = w_l1b w0 /\ w_l1bs (s_out fin) = w_l1bs w0) \/
      exists s rest, q_surfs (s_q fin) = s :: rest /\ w_l1b (s_out fin) = w_l1b w0 ++ [s] /\
        c_looks cf / 2 <= length (s_stack s) /\
        ((w_l1bs (s_out fin) = (if c_l1bs cf then w_l1bs w0 ++ [s] else w_l1bs w0)) \/
         ((exists st, r = ORaise EWriteL1BS st) /\ c_l1bs cf = true /\ w_l1bs (s_out fin) = w_l1bs w0))).
Proof.
  pose proof (run_ok cf o items cancel) as H.
  destruct r as [s c|e s|s] eqn:E; cbn in *.
  - assert (H' : II0 cf o items (s_in s) (s_q s) (s_out s) (s_mon s)).
    { destruct c; [destruct H as (H & _)|destruct H as (H & _)]; exact H. }
    split; [apply (ii_K _ _ _ _ _ _ _ H')|].
    exists (s_out s). split; [apply (ii_O _ _ _ _ _ _ _ H')|]. auto.
  - split; [apply (ir_K _ _ _ _ _ H)|]. destruct (ir_O _ _ _ _ _ H) as (w0 & A & B & C).
    exists w0. split; auto. split; auto. destruct C as [C|(x & rest & C1 & C2 & C3 & C4)]; auto.
    right. exists x, rest. split; auto. split; auto. split; [apply stack_size_half; auto|].
    destruct C4 as [(_ & C4)|(-> & C4)]; auto. right. split; eauto.
  - exfalso. exact (run_from_terminates _ _ _ _ _ _ _ _ _ E).
Qed.

Lemma written_subseq : subseq (written r) (known_surfaces fin).
Proof.
  destruct out_all as (_ & w0 & HO & HD & HW). unfold written, known_surfaces.
  assert (K : subseq (kept w0) (map fst (w_done (s_out fin)))) by (rewrite HD; apply kept_subseq).
  destruct HW as [(A & _)|(s & rest & A & B & _)].
  - rewrite A, (oi_l1b _ _ HO). apply subseq_app_r; auto.
  - rewrite B, A, (oi_l1b _ _ HO). apply subseq_app; auto. apply subseq_cons_l.
Qed.

Lemma known_numbers : numbers (known_surfaces fin) = seq 0 (q_count (s_q fin)).
Proof.
  destruct out_all as (HK & _). unfold numbers, known_surfaces. fold (decided (s_out fin)).
  rewrite (k_count _ _ _ _ _ HK), <- (k_uid _ _ _ _ _ HK). apply map_ext_in.
  apply (k_cnt _ _ _ _ _ HK).
Qed.

Lemma written_order : increasing (numbers (written r)) /\ increasing (map s_loc (written r)).
Proof.
  pose proof written_subseq as S. split.
  - eapply increasing_subseq; [apply subseq_map; exact S|].
    fold (numbers (known_surfaces fin)). rewrite known_numbers. apply seq_increasing.
  - eapply increasing_subseq; [apply subseq_map; exact S|].
    destruct out_all as (HK & _). apply (k_loc _ _ _ _ _ HK).
Qed.

Lemma l1bs_same : c_l1bs cf = true ->
  written_l1bs r = written r \/
  (exists s x, r = ORaise EWriteL1BS s /\ written r = written_l1bs r ++ [x]).
Proof.
  intro L. destruct out_all as (_ & w0 & HO & HD & HW). unfold written, written_l1bs.
  pose proof (oi_l1b _ _ HO) as P1. pose proof (oi_l1bs _ _ HO) as P2. rewrite L in P2.
  destruct HW as [(A & B)|(s & rest & A & B & _ & [C|((st & C1) & _ & C3)])].
  - left. congruence.
  - left. rewrite L in C. congruence.
  - right. exists st, s. split; auto. congruence.
Qed.

Lemma l1bs_none : c_l1bs cf = false -> written_l1bs r = [].
Proof.
  intro L. destruct out_all as (_ & w0 & HO & HD & HW). unfold written, written_l1bs.
  pose proof (oi_l1bs _ _ HO) as P2. rewrite L in P2.
  destruct HW as [(A & B)|(s & rest & A & B & _ & [C|(_ & C & _)])]; try congruence.
  rewrite L in C. congruence.
Qed.

Lemma beamed_once : increasing (map a_uid (q_az (s_q fin))).
Proof. destruct out_all as (HK & _). apply (k_az _ _ _ _ _ HK). Qed.

Lemma stack_once : forall s, In s (known_surfaces fin) -> increasing (bursts_of s).
Proof. destruct out_all as (HK & _). intros s Hs. apply (k_stack _ _ _ _ _ HK s Hs). Qed.

Lemma decided_iff : forall s b, In (s, b) (w_done (s_out fin)) ->
  (b = true <-> c_looks cf / 2 <= length (s_stack s)).
Proof.
  intros s b H. destruct out_all as (_ & w0 & HO & HD & _). rewrite HD in H.
  rewrite (oi_dec _ _ HO s b H), <- stack_size_half.
  destruct (stack_size cf s <? c_looks cf / 2); cbn; split; congruence.
Qed.

Lemma written_enough : forall s, In s (written r) -> c_looks cf / 2 <= length (s_stack s).
Proof.
  intros s Hs. destruct out_all as (_ & w0 & HO & HD & HW). unfold written in Hs.
  assert (K : In s (kept w0) -> c_looks cf / 2 <= length (s_stack s)).
  { intro Hk. unfold kept in Hk. apply in_map_iff in Hk. destruct Hk as ((s' & b) & E & Hk).
    cbn in E. subst s'. apply filter_In in Hk. destruct Hk as (Hk & Hb). cbn in Hb.
    apply (decided_iff s b); auto. rewrite HD; auto. }
  pose proof (oi_l1b _ _ HO) as P1.
  destruct HW as [(A & _)|(x & rest & A & B & C & _)].
  - rewrite A, P1 in Hs. auto.
  - rewrite B, P1 in Hs. apply in_app_or in Hs. destruct Hs as [Hs|[<-|[]]]; auto.
Qed.

Lemma written_kept : forall s b, In (s, b) (w_done (s_out fin)) ->
  (In s (written r) <-> c_looks cf / 2 <= length (s_stack s)).
Proof.
  intros s b H. split; [apply written_enough|].
  intro L. assert (b = true) as -> by (apply (decided_iff s b); auto).
  destruct out_all as (_ & w0 & HO & HD & HW). rewrite HD in H.
  assert (K : In s (kept w0)).
  { unfold kept. apply in_map_iff. exists (s, true). split; auto. apply filter_In. auto. }
  unfold written. rewrite <- (oi_l1b _ _ HO) in K.
  destruct HW as [(-> & _)|(x & rest & _ & -> & _)]; auto. apply in_or_app; auto.
Qed.

Lemma no_later_burst : forall s e j, In s (known_surfaces fin) -> In e (s_stack s) ->
  gap_at (c_gap cf) items j -> s_loc s < j -> e_uid e < j.
Proof.
  intros s e j Hs He Hj Hl. destruct out_all as (HK & _).
  exact (k_seg _ _ _ _ _ HK s Hs e j He Hj Hl).
Qed.

Lemma stack_entry : forall s e, In s (known_surfaces fin) -> In e (s_stack s) ->
  o_vis o (s_uid s) (e_uid e) = true /\
  exists a, In a (q_az (s_q fin)) /\ a_uid a = e_uid e /\
    nth_error (a_seen a) (e_beam e) = Some (s_counter s) /\
    e_abs e = abs_index (c_N cf) (e_beam e) (a_trend a) (length (a_seen a)).
Proof.
  intros s e Hs He. destruct out_all as (HK & _).
  destruct (k_stack _ _ _ _ _ HK s Hs) as (_ & A & _). destruct (A e He) as (_ & B & C). auto.
Qed.

Lemma stack_complete : forall s a, In s (known_surfaces fin) -> In a (q_az (s_q fin)) ->
  In (s_counter s) (a_seen a) -> In (a_uid a) (bursts_of s).
Proof.
  intros s a Hs Ha Hc. destruct out_all as (HK & _).
  destruct (k_stack _ _ _ _ _ HK s Hs) as (_ & _ & A). auto.
Qed.

Lemma known_uid : forall s, In s (known_surfaces fin) -> s_uid s = s_counter s.
Proof. intros s Hs. destruct out_all as (HK & _). symmetry. apply (k_cnt _ _ _ _ _ HK s Hs). Qed.

Lemma run_trends : map a_trend (q_az (s_q fin))
  = trends (c_N cf) (map (fun a => length (a_seen a)) (q_az (s_q fin)))
  /\ forall a, In a (q_az (s_q fin)) -> length (a_seen a) <= c_N cf.
Proof.
  destruct out_all as (HK & _). split; [apply (k_trend _ _ _ _ _ HK)|apply (k_len _ _ _ _ _ HK)].
Qed.

Lemma end_drained : forall s, r = OEnd s false ->
  q_surfs (s_q s) = [] /\ numbers (map fst (w_done (s_out s))) = seq 0 (q_count (s_q s)).
Proof.
  intros s E. pose proof (run_ok cf o items cancel) as H. rewrite E in H. cbn in H.
  destruct H as (H & Q & _). split; auto.
  pose proof known_numbers as K. rewrite E in K. cbn in K. unfold known_surfaces in K.
  rewrite Q, app_nil_r in K. exact K.
Qed.

End Facts.

