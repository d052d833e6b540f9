(** C133: a recording with a gap gives the products of its two parts. *)
From Coq Require Import List ZArith QArith Bool Lia Arith.
From Verif Require Import Common ChainModel ChainSpec ChainAux ChainProofs ChainInv ChainMain ChainProps WholeModel WholeChain LongSpec LongProofs SplitSpec SplitProofs SplitMain.
Import ListNotations.
Local Open Scope nat_scope.

Lemma loop_start : forall cf o n m, c_approx cf = false -> forall w1 f k k' s s', RB n m w1 (body cf (later_oracle n m o) 0 s) (body cf o 0 s') ->
  (forall x, loop cf (later_oracle n m o) 0 no_cancel (S f) k s <> OFuel x) ->
  let r := loop cf (later_oracle n m o) 0 no_cancel (S f) k s in
  let r' := loop cf o 0 no_cancel (S f) k' s' in
  ends_alike r r' /\ joined n m w1 (s_out (final r)) (s_out (final r')).
Proof.
  intros cf o n m AP w1 f k k' s s' B NF. cbv zeta. cbn [loop] in *.
  destruct (body cf (later_oracle n m o) 0 s) as [s1|s1|e s1], (body cf o 0 s') as [s1'|s1'|e' s1']; try contradiction.
  - destruct B as (L' & B). apply (loop_rel cf o n m AP L'); [exact B|exact NF].
  - destruct B as (L' & _ & _ & B). split; [reflexivity|exact B].
  - destruct B as (E & L' & _ & _ & B). split; [exact E|exact B].
Qed.

(** When the first part leaves no burst to be processed, the products of the recording are those
    of the first part followed by those of the second part, processed on its own: the same surfaces
    with the same bursts and beams, numbered on; and the run ends in the same way. *)
Theorem C133_split_partial : forall cf o xs t ys s1, all_valid xs -> 2 <= c_min cf -> c_approx cf = false ->
  run cf o no_cancel xs = OEnd s1 false -> all_processed s1 -> gap_at (c_gap cf) (xs ++ Valid t :: ys) (length xs) ->
  let n := length xs in
  let m := length (w_done (s_out s1)) in
  let r2 := run cf (later_oracle n m o) no_cancel (Valid t :: ys) in
  let r := run cf o no_cancel (xs ++ Valid t :: ys) in
  ends_alike r2 r /\ joined n m (s_out s1) (s_out (final r2)) (s_out (final r)).
Proof.
  intros cf o xs t ys s1 V M AP E AL G n m r2 r.
  destruct (to_gap cf o xs t ys s1 V M E G) as (s2 & (j & R) & (A1 & A2 & A3 & A4 & A5 & A6) & B1 & B2 & B3).
  pose proof (loop_ok cf o xs no_cancel (enough [] xs) 0 _ (init_inv cf o xs)) as OK. unfold run, run_from in E. rewrite E in OK.
  destruct OK as (I & Q & _ & _).
  assert (QN : q_next (s_q s1) = m).
  { pose proof (KI_counted _ _ _ _ (ii_K _ _ _ _ _ _ _ I)) as C. apply (f_equal (@length _)) in C.
    unfold known_surfaces in C. rewrite Q, app_nil_r, !map_length, seq_length in C. symmetry. exact C. }
  assert (QC : q_count (s_q s1) = m) by (rewrite (k_count _ _ _ _ _ (ii_K _ _ _ _ _ _ _ I)); exact QN).
  assert (OL : old n (q_packs (s_q s1))).
  { intros p P. split; [apply AL; exact P|]. pose proof (ii_P _ _ _ _ _ _ _ I) as PP. rewrite (pi_cnt _ _ _ _ PP p P).
    apply nth_error_Some. rewrite (proj2 (pi_val _ _ _ _ PP p P)). discriminate. }
  set (o2 := later_oracle n m o) in *. set (ini := init [] [] 0 (Valid t :: ys)).
  assert (RD : RR n m (q_packs (s_q s1)) (read_phase cf o2 0 ini) (read_phase cf o 0 s2)).
  { unfold read_phase at 2. rewrite B1, B2. unfold handle_packet. rewrite A3, A4, B2. unfold locate. rewrite A5, Q.
    cbn. rewrite A1, A2, B1, B3, QN, QC. fold n. split; [repeat split; cbn; try reflexivity; lia|].
    split; [cbn; constructor; [repeat split; cbn; try lia; constructor|constructor]|].
    split; [exact OL|]. split; [eexists; split; [reflexivity|]; constructor; [repeat split; cbn; lia|constructor]|].
    cbn. split; [lia|]. split; [lia|]. discriminate. }
  assert (RW : RO n m (s_out s1) (s_out ini) (s_out s2)).
  { rewrite A6. repeat split; exists []; (split; [rewrite app_nil_r; reflexivity|constructor]). }
  pose proof (go_rel cf o n m AP _ _ _ _ RD RW) as B.
  (* the same number of iterations for both *)
  set (F := enough [] (xs ++ Valid t :: ys) + enough [] (Valid t :: ys)).
  assert (E2 : r2 = loop cf o2 0 no_cancel (S F) 0 ini).
  { unfold r2, run, run_from. fold ini. replace (S F) with (enough [] (Valid t :: ys) + (S F - enough [] (Valid t :: ys))) by (unfold F; lia).
    symmetry. apply loop_more_fuel. intros s'. apply run_from_terminates. }
  assert (E1 : r = loop cf o 0 no_cancel (S F) (j + 0) s2).
  { rewrite <- R. unfold r, run, run_from. replace (j + S F) with (enough [] (xs ++ Valid t :: ys) + (j + S F - enough [] (xs ++ Valid t :: ys))) by (unfold F; lia).
    symmetry. apply loop_more_fuel. intros s'. apply run_from_terminates. }
  rewrite E1, E2. apply (loop_start cf o n m AP); [exact B|]. intros x. fold o2. rewrite <- E2. apply run_from_terminates.
Qed.
Print Assumptions C133_split_partial.
Example C133_example : let xs := track 0 6 in let ys := track 21 5 in
  exists s1, run cf3 o_near no_cancel xs = OEnd s1 false /\ all_processed s1 /\
    gap_at (c_gap cf3) (xs ++ Valid (20 # 1) :: ys) (length xs) /\ length (w_done (s_out s1)) = 6 /\
    map bursts_of (written (run cf3 o_near no_cancel xs)) = [[0; 1]; [0; 1; 2]; [1; 2; 3]; [3; 4]; [4; 5]] /\
    map bursts_of (written (run cf3 (later_oracle 6 6 o_near) no_cancel (Valid (20 # 1) :: ys))) = [[0; 1]; [0; 1; 2]; [1; 2; 3]; [3; 4]; [4; 5]] /\
    map bursts_of (written (run cf3 o_near no_cancel (xs ++ Valid (20 # 1) :: ys))) =
      [[0; 1]; [0; 1; 2]; [1; 2; 3]; [3; 4]; [4; 5]; [6; 7]; [6; 7; 8]; [7; 8; 9]; [9; 10]; [10; 11]].
Proof.
  eexists. split; [vm_compute; reflexivity|]. split; [intros p P; vm_compute in P; repeat (destruct P as [<-|P]; [reflexivity|]); contradiction|].
  split; [exists (20 # 1), (5 # 1); repeat split; intro H; vm_compute in H; discriminate H|]. vm_compute. repeat split.
Qed.

(** ** What does not hold *)
Definition stack_lengths (l : list (surface * bool)) : list nat := map (fun x => length (s_stack (fst x))) l.
Definition beam_numbers (l : list (surface * bool)) : list (list Z) := map (fun x => map e_abs (s_stack (fst x))) l.
Lemma joined_lengths : forall n m w1 w2 w, joined n m w1 w2 w -> stack_lengths (w_done w) = stack_lengths (w_done w1) ++ stack_lengths (w_done w2).
Proof.
  intros n m w1 w2 w ((t & -> & F) & _). unfold stack_lengths. rewrite map_app. f_equal. induction F as [|x y l l' (R & _) F IH]; cbn; [reflexivity|].
  f_equal; [|exact IH]. destruct R as (_ & _ & _ & R). exact (Forall2_len _ _ _ R).
Qed.

(** Bursts left over are processed after the gap, and those that see the surfaces there are looks of
    them that the second part on its own does not have. *)
Definition o_left : oracle :=
  mk_oracle (fun _ p => Nat.ltb p 90 || Nat.leb 100 p)
    (fun s p => if Nat.ltb s 90 then near s p else Nat.leb (s + 2) p && Nat.leb p (s + 18))
    (fun _ => false) (fun _ => false) (fun _ => false) (fun _ => false).
Theorem C133_left_over_refuted : exists cf o xs t ys s1,
  c_min cf = 80 /\ c_N cf = 64 /\ c_approx cf = false /\ no_failures o /\ all_valid (xs ++ Valid t :: ys) /\
  run cf o no_cancel xs = OEnd s1 false /\ gap_at (c_gap cf) (xs ++ Valid t :: ys) (length xs) /\
  let n := length xs in
  let m := length (w_done (s_out s1)) in
  ~ joined n m (s_out s1) (s_out (final (run cf (later_oracle n m o) no_cancel (Valid t :: ys))))
      (s_out (final (run cf o no_cancel (xs ++ Valid t :: ys)))).
Proof.
  exists cf80, o_left, (track 0 100), (200 # 1)%Q, (track 201 89), (final (run cf80 o_left no_cancel (track 0 100))).
  split; [reflexivity|]. split; [reflexivity|]. split; [reflexivity|]. split; [repeat split|]. split; [apply (tracks_valid 0 100 200 90)|].
  split; [apply ended_spec; vm_compute; reflexivity|].
  split; [exists (200 # 1), (99 # 1); repeat split; intro H; vm_compute in H; discriminate H|].
  cbv zeta. intros J. apply joined_lengths in J. vm_compute in J. discriminate J.
Qed.
Print Assumptions C133_left_over_refuted.

(** The numbers of the beams depend on what was recorded before the gap, even if nothing is left
    over: the number of surfaces the last burst saw is not forgotten. *)
Theorem C133_beam_numbers_refuted : exists cf o xs t ys s1,
  c_min cf = 80 /\ c_N cf = 64 /\ c_approx cf = false /\ no_failures o /\ all_valid (xs ++ Valid t :: ys) /\
  run cf o no_cancel xs = OEnd s1 false /\ all_processed s1 /\ gap_at (c_gap cf) (xs ++ Valid t :: ys) (length xs) /\
  let n := length xs in
  let m := length (w_done (s_out s1)) in
  beam_numbers (w_done (s_out (final (run cf o no_cancel (xs ++ Valid t :: ys))))) <>
  beam_numbers (w_done (s_out s1)) ++ beam_numbers (w_done (s_out (final (run cf (later_oracle n m o) no_cancel (Valid t :: ys))))).
Proof.
  exists cf80, o_near, (track 0 90), (200 # 1)%Q, (track 201 89), (final (run cf80 o_near no_cancel (track 0 90))).
  split; [reflexivity|]. split; [reflexivity|]. split; [reflexivity|]. split; [repeat split|]. split; [apply (tracks_valid 0 90 200 90)|].
  split; [apply ended_spec; vm_compute; reflexivity|].
  split; [intros p P; vm_compute in P; repeat (destruct P as [<-|P]; [reflexivity|]); contradiction|].
  split; [exists (200 # 1), (89 # 1); repeat split; intro H; vm_compute in H; discriminate H|].
  cbv zeta. intros J. vm_compute in J. discriminate J.
Qed.
Print Assumptions C133_beam_numbers_refuted.

Definition o_wide : oracle :=
  mk_oracle (fun _ _ => true) (fun s p => Nat.leb s (p + 5) && Nat.leb p (s + 5)) (fun _ => false) (fun _ => false) (fun _ => false) (fun _ => false).
(** A part with fewer surfaces than needed to start fails on its own, but is processed when a gap
    follows. *)
Theorem C133_too_short_refuted : exists cf o xs t ys s1 s,
  c_min cf = 80 /\ c_N cf = 64 /\ c_approx cf = false /\ no_failures o /\ all_valid (xs ++ Valid t :: ys) /\
  run cf o no_cancel xs = ORaise EInsufficient s1 /\ gap_at (c_gap cf) (xs ++ Valid t :: ys) (length xs) /\
  run cf o no_cancel (xs ++ Valid t :: ys) = OEnd s false /\ length (filter (fun x => Nat.ltb (s_loc x) (length xs)) (w_l1b (s_out s))) = 40.
Proof.
  exists cf80, o_wide, (track 0 40), (200 # 1)%Q, (track 201 89), (final (run cf80 o_wide no_cancel (track 0 40))), (final (run cf80 o_wide no_cancel (track 0 40 ++ track 200 90))).
  split; [reflexivity|]. split; [reflexivity|]. split; [reflexivity|]. split; [repeat split|]. split; [apply (tracks_valid 0 40 200 90)|].
  split; [vm_compute; reflexivity|].
  split; [exists (200 # 1), (39 # 1); repeat split; intro H; vm_compute in H; discriminate H|].
  split; [change (track 0 40 ++ Valid (200 # 1) :: track 201 89) with (track 0 40 ++ track 200 90); apply ended_spec; vm_compute; reflexivity|]. vm_compute. reflexivity.
Qed.
Print Assumptions C133_too_short_refuted.
