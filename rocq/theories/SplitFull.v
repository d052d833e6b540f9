(** C133: the stacks on both sides of a gap are complete. *)
From Coq Require Import List ZArith QArith Bool Lia Arith.
From Verif Require Import Common ChainModel ChainSpec ChainAux ChainProofs ChainInv ChainMain ChainProps FullSpec FullProps LongSpec LongProofs SplitSpec SplitProofs SplitMain SplitProps.
Import ListNotations.
Local Open Scope nat_scope.

Lemma later_bursts : forall n m s s', later_surface n m s s' -> bursts_of s' = map (fun p => n + p) (bursts_of s).
Proof.
  intros n m s s' (_ & _ & _ & F). unfold bursts_of. induction F as [|e e' l l' (E & _) F IH]; cbn; [reflexivity|]. rewrite E, IH. reflexivity.
Qed.
Lemma filter_later : forall (f : nat -> bool) n a k, map (fun p => n + p) (filter (fun p => f (n + p)) (seq a k)) = filter f (seq (n + a) k).
Proof.
  intros f n a k. revert a. induction k as [|k IH]; intros a; cbn; [reflexivity|]. rewrite <- plus_n_Sm in IH || idtac.
  specialize (IH (S a)). rewrite <- plus_n_Sm in IH. destruct (f (n + a)); cbn; rewrite IH; reflexivity.
Qed.

(** On a regular pass every surface decided has exactly the bursts of its own side of the gap that
    see it. *)
Theorem C133_complete_partial : forall cf o xs t ys s1 lo hi lo2 hi2, all_valid xs -> all_valid ys -> c_N cf + 2 <= c_min cf -> c_approx cf = false ->
  run cf o no_cancel xs = OEnd s1 false -> all_processed s1 -> gap_at (c_gap cf) (xs ++ Valid t :: ys) (length xs) ->
  let n := length xs in
  let m := length (w_done (s_out s1)) in
  gapless cf xs -> gapless cf (Valid t :: ys) -> regular cf o lo hi -> regular cf (later_oracle n m o) lo2 hi2 ->
  forall s b, In (s, b) (w_done (s_out (final (run cf o no_cancel (xs ++ Valid t :: ys))))) ->
  bursts_of s = filter (o_vis o (s_uid s)) (if Nat.ltb (s_uid s) m then seq 0 n else seq n (S (length ys))).
Proof.
  intros cf o xs t ys s1 lo hi lo2 hi2 V V2 M AP E AL G n m G1 G2 R1 R2 s b I.
  destruct (C133_split_partial cf o xs t ys s1 V ltac:(lia) AP E AL G) as (_ & ((l & D & F) & _)). fold n m in F.
  rewrite D in I. apply in_app_or in I. destruct I as [I|I].
  - assert (U : s_uid s < m).
    { pose proof (run_counted cf o no_cancel xs) as (C & _). pose proof (loop_ok cf o xs no_cancel (enough [] xs) 0 _ (init_inv cf o xs)) as OK.
      unfold run, run_from in E, C. rewrite E in OK, C. cbn [final] in C. destruct OK as (II & Q & _).
      pose proof (k_uid _ _ _ _ _ (ii_K _ _ _ _ _ _ _ II)) as K. rewrite Q, app_nil_r in K.
      assert (L : q_next (s_q s1) = m) by (apply (f_equal (@length _)) in K; unfold decided in K; rewrite !map_length, seq_length in K; symmetry; exact K).
      rewrite L in K. apply (in_map fst) in I. apply (in_map s_uid) in I. unfold decided in K. rewrite K in I. apply in_seq in I. cbn in I. lia. }
    apply Nat.ltb_lt in U. rewrite U. apply (C112_stack_complete cf o lo hi no_cancel xs s b R1 M V G1). rewrite E. exact I.
  - assert (X : exists s2 b2, In (s2, b2) (w_done (s_out (final (run cf (later_oracle n m o) no_cancel (Valid t :: ys))))) /\ later_surface n m s2 s).
    { clear - F I. induction F as [|[s2 b2] y l l' (R & _) F IH]; [contradiction|]. destruct I as [->|I].
      - exists s2, b2. split; [left; reflexivity|exact R].
      - destruct (IH I) as (s3 & b3 & I3 & R3). exists s3, b3. split; [right; exact I3|exact R3]. }
    destruct X as (s2 & b2 & I2 & L). pose proof L as (U & _).
    assert (NU : Nat.ltb (s_uid s) m = false) by (apply Nat.ltb_ge; lia). rewrite NU, (later_bursts n m s2 s L).
    assert (VV : all_valid (Valid t :: ys)) by (constructor; [exists t; reflexivity|exact V2]).
    rewrite (C112_stack_complete cf (later_oracle n m o) lo2 hi2 no_cancel (Valid t :: ys) s2 b2 R2 M VV G2 I2).
    unfold seeing. cbn [later_oracle o_vis]. rewrite <- U, filter_later, Nat.add_0_r. reflexivity.
Qed.
Print Assumptions C133_complete_partial.
Example C133_complete_example : let xs := track 0 8 in let ys := track 21 7 in
  exists s1, run cf6 o_reg no_cancel xs = OEnd s1 false /\ all_processed s1 /\
    gap_at (c_gap cf6) (xs ++ Valid (20 # 1) :: ys) (length xs) /\ length (w_done (s_out s1)) = 8 /\
    gapless cf6 xs /\ gapless cf6 (Valid (20 # 1) :: ys) /\ regular cf6 o_reg pred S /\ regular cf6 (later_oracle 8 8 o_reg) pred S /\
    map bursts_of (written (run cf6 o_reg no_cancel (xs ++ Valid (20 # 1) :: ys)))
     = [[0; 1]; [0; 1; 2]; [1; 2; 3]; [2; 3; 4]; [3; 4; 5]; [4; 5; 6]; [5; 6; 7]; [6; 7];
        [8; 9]; [8; 9; 10]; [9; 10; 11]; [10; 11; 12]; [11; 12; 13]; [12; 13; 14]; [13; 14; 15]; [14; 15]].
Proof.
  eexists. split; [vm_compute; reflexivity|]. split; [intros p P; vm_compute in P; repeat (destruct P as [<-|P]; [reflexivity|]); contradiction|].
  split; [exists (20 # 1), (7 # 1); repeat split; intro H; vm_compute in H; discriminate H|].
  split; [vm_compute; reflexivity|]. split; [apply track_gapless|]. split; [apply (track_gapless 4 4 6 false true 20 8)|].
  split; [apply o_reg_regular; lia|]. split; [constructor; cbn; unfold near; intros; lia|]. vm_compute. reflexivity.
Qed.
