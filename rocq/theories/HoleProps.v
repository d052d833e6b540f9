(** C135: the stacks on a pass with records without a position. *)
From Coq Require Import List ZArith QArith Bool Lia Arith.
From Coq Require Import ZifyBool ZifyNat.
From Verif Require Import Common ChainModel ChainSpec ChainAux ChainInv ChainMain ChainFacts ChainProps FullSpec FullProofs FullProps HeldSpec.
From Verif Require Import HoleSpec HoleProofs.
Import ListNotations.
Local Open Scope nat_scope.

(** As long as the surfaces located in advance outnumber the bursts kept by the
    records without a position, the stack of every surface taken from the queue
    holds exactly the valid bursts that see it, in order. *)
Theorem C135_stack_complete : forall cf o o' lo hi cancel input s b,
  regular cf o' lo hi -> counted_as input o o' -> c_N cf + 2 + holes input <= c_min cf ->
  (forall x l, input = x :: l -> x <> Nothing) -> gapless cf input ->
  In (s, b) (w_done (s_out (final (run cf o cancel input)))) ->
  bursts_of s = seeing_valid o input s.
Proof.
  intros cf o o' lo hi cancel input s b R A C F G I.
  apply (run_seeing_h cf o o' input lo hi R A C F G cancel). unfold decided. now apply (in_map fst) in I.
Qed.
Print Assumptions C135_stack_complete.

(** So have the records of the products, when the run ends without an error. *)
Theorem C135_products_complete : forall cf o o' lo hi cancel input fs c s,
  regular cf o' lo hi -> counted_as input o o' -> c_N cf + 2 + holes input <= c_min cf ->
  (forall x l, input = x :: l -> x <> Nothing) -> gapless cf input ->
  run cf o cancel input = OEnd fs c ->
  (In s (written (run cf o cancel input)) \/ In s (written_l1bs (run cf o cancel input))) ->
  bursts_of s = seeing_valid o input s.
Proof.
  intros cf o o' lo hi cancel input fs c s R A C F G E I.
  apply (run_seeing_h cf o o' input lo hi R A C F G cancel).
  pose proof (run_ok cf o input cancel) as H. unfold written, written_l1bs in I. rewrite E in *. cbn in *.
  assert (O : OI cf (s_out fs)) by (destruct c; [destruct H as (H & _)|destruct H as (H & _)]; apply (ii_O _ _ _ _ _ _ _ H)).
  apply (subseq_in _ _ (kept_subseq _)).
  destruct I as [I|I]; [now rewrite (oi_l1b _ _ O) in I|].
  rewrite (oi_l1bs _ _ O) in I. destruct (c_l1bs cf); [exact I|destruct I].
Qed.
Print Assumptions C135_products_complete.

(** When the run ends by itself no valid burst is left unread, every located
    surface has been dealt with and has all its bursts. *)
Theorem C135_every_surface : forall cf o o' lo hi cancel input fs,
  regular cf o' lo hi -> counted_as input o o' -> c_N cf + 2 + holes input <= c_min cf ->
  (forall x l, input = x :: l -> x <> Nothing) -> gapless cf input ->
  run cf o cancel input = OEnd fs false ->
  rank input (i_n (s_in fs)) = valid_count input /\
  numbers (map fst (w_done (s_out fs))) = seq 0 (q_count (s_q fs)) /\
  forall s b, In (s, b) (w_done (s_out fs)) ->
    bursts_of s = seeing_valid o input s /\ (b = true <-> c_looks cf / 2 <= length (seeing_valid o input s)).
Proof.
  intros cf o o' lo hi cancel input fs R A C F G E. split.
  { exact (proj1 (proj2 (run_h cf o o' input lo hi R A C F G cancel)) fs E). }
  split; [exact (proj2 (end_drained cf o cancel input fs E))|].
  intros s b I. assert (J : In (s, b) (w_done (s_out (final (run cf o cancel input))))) by (rewrite E; exact I).
  pose proof (C135_stack_complete cf o o' lo hi cancel input s b R A C F G J) as X. split; [exact X|].
  rewrite (decided_iff cf o cancel input s b J), <- X. unfold bursts_of. now rewrite map_length.
Qed.
Print Assumptions C135_every_surface.

(** The error for a missing previous burst cannot occur on such a pass. *)
Theorem C135_no_missing_burst : forall cf o o' lo hi cancel input fs,
  regular cf o' lo hi -> counted_as input o o' -> c_N cf + 2 + holes input <= c_min cf ->
  (forall x l, input = x :: l -> x <> Nothing) -> gapless cf input ->
  run cf o cancel input <> ORaise EPrevBurst fs.
Proof. intros cf o o' lo hi cancel input fs R A C F G. apply (run_h cf o o' input lo hi R A C F G cancel). Qed.
Print Assumptions C135_no_missing_burst.

(** A pass of [a] bursts, [k] records without a position, and [b] more bursts. *)
Definition holed (a k b : nat) : list item := track 0 a ++ repeat Nothing k ++ track (Z.of_nat a) b.
Definition closed (a k p : nat) : nat := if p <? a then p else p - k.
Definition o_holed (a k : nat) : oracle :=
  mk_oracle (fun s p => o_new o_reg s (closed a k p)) (fun s p => o_vis o_reg s (closed a k p))
    (fun _ => false) (fun _ => false) (fun _ => false) (fun _ => false).
Definition cf9 : cfg := mk_cfg 4 4 9 (3 # 2) false true.

Lemma holed_counted : counted_as (holed 10 3 6) (o_holed 10 3) o_reg.
Proof.
  assert (A : forall p, valid_record (holed 10 3 6) p = true -> closed 10 3 p = rank (holed 10 3 6) p).
  { intros p V. assert (L : p < 19).
    { unfold valid_record in V. destruct (nth_error (holed 10 3 6) p) eqn:E; [|discriminate].
      assert (X : p < length (holed 10 3 6)) by (apply nth_error_Some; congruence). exact X. }
    do 19 (destruct p as [|p]; [vm_compute in V |- *; congruence|]). lia. }
  split; intros s p V.
  - change (o_vis o_reg s (closed 10 3 p) = o_vis o_reg s (rank (holed 10 3 6) p)). now rewrite (A p V).
  - change (o_new o_reg s (closed 10 3 p) = o_new o_reg s (rank (holed 10 3 6) p)). now rewrite (A p V).
Qed.
Lemma holed_gapless : gapless cf9 (holed 10 3 6).
Proof.
  intros j (x & y & H1 & H2 & H3). apply H3.
  assert (L : j < 19) by (change 19 with (length (holed 10 3 6)); apply nth_error_Some; congruence).
  do 19 (destruct j as [|j]; [vm_compute in H1, H2; inversion H1; inversion H2; reflexivity|]). lia.
Qed.

(** Witness: three records without a position in the middle of the pass. *)
Example C135_example :
  regular cf9 o_reg pred S /\ counted_as (holed 10 3 6) (o_holed 10 3) o_reg /\ c_N cf9 + 2 + holes (holed 10 3 6) <= c_min cf9
  /\ gapless cf9 (holed 10 3 6)
  /\ ended (run cf9 (o_holed 10 3) no_cancel (holed 10 3 6)) = true
  /\ map bursts_of (written (run cf9 (o_holed 10 3) no_cancel (holed 10 3 6)))
     = [[0; 1]; [0; 1; 2]; [1; 2; 3]; [2; 3; 4]; [3; 4; 5]; [4; 5; 6]; [5; 6; 7]; [6; 7; 8]; [7; 8; 9]; [8; 9; 13];
        [9; 13; 14]; [13; 14; 15]; [14; 15; 16]; [15; 16; 17]; [16; 17; 18]; [17; 18]].
Proof.
  split; [apply o_reg_regular; lia|]. split; [apply holed_counted|]. split; [vm_compute; lia|]. split; [apply holed_gapless|].
  vm_compute. split; reflexivity.
Qed.

(** With the constants of the code the margin is of this many records. *)
Example C135_constants : c_N cf80 + 2 + 14 = c_min cf80.
Proof. reflexivity. Qed.

Lemma holed_counted6 : counted_as (holed 10 3 6) (o_holed 10 3) o_reg /\ gapless cf6 (holed 10 3 6).
Proof. split; [apply holed_counted|]. intros j H. apply (holed_gapless j). exact H. Qed.

(** Each record without a position uses up a surface located in advance, since
    the loop processes a surface for it without reading a burst: without the
    margin, bursts that see a surface are missing from its stack. *)
Theorem C135_margin_refuted :
  ~ (forall cf o o' lo hi cancel input s b,
      regular cf o' lo hi -> counted_as input o o' -> c_N cf + 2 <= c_min cf ->
      (forall x l, input = x :: l -> x <> Nothing) -> gapless cf input ->
      In (s, b) (w_done (s_out (final (run cf o cancel input)))) ->
      bursts_of s = seeing_valid o input s).
Proof.
  intro H.
  assert (E : exists s b, In (s, b) (w_done (s_out (final (run cf6 (o_holed 10 3) no_cancel (holed 10 3 6))))) /\
     bursts_of s = [13; 14] /\ seeing_valid (o_holed 10 3) (holed 10 3 6) s = [9; 13; 14]).
  { eexists. eexists. split; [vm_compute; do 10 right; left; reflexivity|]. split; vm_compute; reflexivity. }
  destruct E as (s & b & I & E1 & E2).
  assert (R : regular cf6 o_reg pred S) by (apply o_reg_regular; lia).
  assert (C : c_N cf6 + 2 <= c_min cf6) by (cbn; lia).
  assert (F : forall x l, holed 10 3 6 = x :: l -> x <> Nothing) by (intros x l E; unfold holed, track in E; cbn in E; inversion E; discriminate).
  pose proof (H cf6 (o_holed 10 3) o_reg pred S no_cancel (holed 10 3 6) s b R (proj1 holed_counted6) C F (proj2 holed_counted6) I) as X.
  rewrite E1, E2 in X. discriminate.
Qed.
Print Assumptions C135_margin_refuted.

(** More such records in a row empty the queue of surfaces, and the run ends as
    if the file had: the bursts after them are never read. *)
Theorem C135_rest_refuted :
  exists fs, run cf6 (o_holed 10 5) no_cancel (holed 10 5 6) = OEnd fs false /\
    rank (holed 10 5 6) (i_n (s_in fs)) = 10 /\ valid_count (holed 10 5 6) = 16.
Proof. eexists. split; [vm_compute; reflexivity|]. split; vm_compute; reflexivity. Qed.
Print Assumptions C135_rest_refuted.

(** The same happens at once when the very first record has no position: nothing
    of the file is processed, whatever follows. *)
Theorem C135_first_refuted : forall cf o cancel l, c_min cf <> 0 ->
  exists fs, run cf o cancel (Nothing :: l) = OEnd fs false /\ i_n (s_in fs) = 1 /\ w_done (s_out fs) = [] /\
    written (run cf o cancel (Nothing :: l)) = [].
Proof.
  intros cf o cancel l C.
  assert (Z : Nat.leb (c_min cf) 0 = false) by (apply Nat.leb_gt; lia).
  unfold run, run_from, written.
  assert (EN : exists f, enough [] (Nothing :: l) = S f) by (unfold enough; cbn; eexists; reflexivity).
  destruct EN as [f ->]. cbn [loop]. unfold body, read_phase. cbn [init s_in s_q s_out s_mon i_gap i_resume i_rest i_n i_sp i_cur i_pt q_surfs].
  unfold handle_packet. cbn [i_cur i_sp i_gap q_surfs length orb s_q init]. rewrite Z. cbn.
  eexists. split; [reflexivity|]. cbn. auto.
Qed.
Print Assumptions C135_first_refuted.
