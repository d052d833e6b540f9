(** C01-C12, C16, C61 and the run-level forms of C13, C14. *)
From Coq Require Import List ZArith QArith Bool Lia Arith Sorted Lqa Permutation.
From Coq Require Import ZifyBool ZifyNat.
From Verif Require Import Common BeamModel BeamSpec BeamProofs ChainModel ChainSpec ChainAux
  ChainProofs ChainInv ChainMain ChainFacts ChainEnd.
Import ListNotations.
Local Open Scope nat_scope.

(* ------------------------------------------------------------------ *)
(** * Concrete runs used as witnesses *)

(** [n] valid records one second apart starting at time [t]. *)
Definition track (t : Z) (n : nat) : list item :=
  map (fun k => Valid (inject_Z (t + Z.of_nat k))) (seq 0 n).

Lemma track_valid : forall t n, all_valid (track t n).
Proof.
  intros t n. apply Forall_forall. intros x Hx. apply in_map_iff in Hx.
  destruct Hx as (k & <- & _). eexists. reflexivity.
Qed.
Lemma tracks_valid : forall t n t' n', all_valid (track t n ++ track t' n').
Proof. intros. apply Forall_app. split; apply track_valid. Qed.
Lemma no_read_fail : forall l, forallb (fun i => match i with ReadFail => false | _ => true end) l = true -> ~ In ReadFail l.
Proof. intros l H I. rewrite forallb_forall in H. specialize (H _ I). discriminate. Qed.

Definition ended (r : outcome) : bool := match r with OEnd _ false => true | _ => false end.
Lemma ended_spec : forall r, ended r = true -> r = OEnd (final r) false.
Proof. intros [s [|]|e s|s]; cbn; congruence. Qed.
Definition insufficient (r : outcome) : bool := match r with ORaise EInsufficient _ => true | _ => false end.
Lemma insufficient_spec : forall r, insufficient r = true -> r = ORaise EInsufficient (final r).
Proof. intros [s c|[] s|s]; cbn; congruence. Qed.

(** The values fixed in the code: 64 pulses, 80 surfaces before processing
    starts; looks and threshold chosen. *)
Definition cf80 : cfg := mk_cfg 64 4 80 (3 # 2) false true.
(** A small configuration. *)
Definition cf3 : cfg := mk_cfg 4 4 3 (3 # 2) false true.

(** A surface at every burst, each burst sees the surfaces at distance <= 1;
    nothing fails. *)
Definition near (s p : nat) : bool := Nat.leb s (p + 1) && Nat.leb p (s + 1).
Definition o_near : oracle :=
  mk_oracle (fun _ _ => true) near (fun _ => false) (fun _ => false) (fun _ => false) (fun _ => false).

(** Six records, an invalid one, six more after a gap. *)
Definition ex_input : list item := track 0 6 ++ Nothing :: track 20 6.
Definition ex_run : outcome := run cf3 o_near no_cancel ex_input.

Lemma ex_run_ends : exists s, ex_run = OEnd s false.
Proof. eexists. vm_compute. reflexivity. Qed.
Example ex_written : numbers (written ex_run) = [0; 1; 2; 3; 4; 7; 8; 9; 10; 11]
  /\ map bursts_of (written ex_run) =
     [[0; 1]; [0; 1; 2]; [1; 2; 3]; [3; 4]; [4; 5];
      [7; 8]; [7; 8; 9]; [9; 10]; [10; 11]; [11; 12]]
  /\ map s_loc (written ex_run) = [0; 1; 2; 3; 4; 8; 9; 10; 11; 12]
  /\ written_l1bs ex_run = written ex_run
  /\ map (fun x => (s_counter (fst x), snd x)) (w_done (s_out (final ex_run)))
     = [(0, true); (1, true); (2, true); (3, true); (4, true); (5, false); (6, false);
        (7, true); (8, true); (9, true); (10, true); (11, true)].
Proof. vm_compute. repeat split. Qed.
Example ex_gap : gap_at (c_gap cf3) ex_input 7.
Proof. exists (20 # 1), (5 # 1). repeat split. intro H. vm_compute in H. discriminate H. Qed.

(* ------------------------------------------------------------------ *)
(** * C01 *)

(** After at most 1 + 3*records + left-over surfaces iterations the loop has
    returned or raised; allowing more iterations changes nothing. *)
Theorem C01_run_terminates : forall cf o cancel surfs0 packs0 base snext input fuel,
  1 + 3 * length input + length surfs0 <= fuel ->
  let r := loop cf o base cancel fuel 0 (init surfs0 packs0 snext input) in
  ((exists s c, r = OEnd s c) \/ (exists e s, r = ORaise e s))
  /\ r = run_from cf o cancel surfs0 packs0 base snext input.
Proof.
  intros cf o cancel surfs0 packs0 base snext input fuel Hf r.
  assert (E : r = run_from cf o cancel surfs0 packs0 base snext input).
  { unfold r, run_from. replace fuel with (enough surfs0 input + (fuel - enough surfs0 input))
      by (unfold enough; lia).
    apply loop_more_fuel. intros s'. apply run_from_terminates. }
  split; auto. rewrite E.
  destruct (run_from cf o cancel surfs0 packs0 base snext input) as [s c|e s|s] eqn:R; eauto.
  exfalso. exact (run_from_terminates _ _ _ _ _ _ _ _ _ R).
Qed.
Print Assumptions C01_run_terminates.
Example C01_ex : exists s, loop cf3 o_near 0 no_cancel 40 0 (init [] [] 0 ex_input) = OEnd s false.
Proof. eexists. vm_compute. reflexivity. Qed.
(** The bound is needed: with ten iterations the run is not over. *)
Example C01_ex_not_instant : exists s, loop cf3 o_near 0 no_cancel 10 0 (init [] [] 0 ex_input) = OFuel s.
Proof. eexists. vm_compute. reflexivity. Qed.

(* ------------------------------------------------------------------ *)
(** * C02 *)

(** Whatever the outcome, the surfaces in L1B are strictly increasing in number
    and in the record at which they were located. *)
Theorem C02_output_order : forall cf o cancel input,
  increasing (numbers (written (run cf o cancel input)))
  /\ increasing (map s_loc (written (run cf o cancel input)))
  /\ NoDup (numbers (written (run cf o cancel input))).
Proof.
  intros cf o cancel input. destruct (written_order cf o cancel input).
  repeat split; auto. apply increasing_NoDup; auto.
Qed.
Print Assumptions C02_output_order.

(** L1BS receives the same sequence; the only exception is a run that raised
    while writing to L1BS itself: then L1B has that one surface more. *)
Theorem C02_l1bs_same : forall cf o cancel input,
  let r := run cf o cancel input in
  (c_l1bs cf = false -> written_l1bs r = []) /\
  (c_l1bs cf = true ->
     written_l1bs r = written r \/
     (exists s x, r = ORaise EWriteL1BS s /\ written r = written_l1bs r ++ [x])).
Proof. intros. split; [apply l1bs_none|apply l1bs_same]. Qed.
Print Assumptions C02_l1bs_same.
Example C02_ex : c_l1bs cf3 = true /\ numbers (written ex_run) = [0; 1; 2; 3; 4; 7; 8; 9; 10; 11]
  /\ numbers (written_l1bs ex_run) = [0; 1; 2; 3; 4; 7; 8; 9; 10; 11].
Proof. vm_compute. repeat split. Qed.
Example C02_ex_raise :
  let o := mk_oracle (fun _ _ => true) near (fun _ => false) (fun _ => false) (fun _ => false)
             (fun s => Nat.eqb s 2) in
  exists s, run cf3 o no_cancel ex_input = ORaise EWriteL1BS s
    /\ numbers (w_l1b (s_out s)) = [0; 1; 2] /\ numbers (w_l1bs (s_out s)) = [0; 1].
Proof. eexists. vm_compute. repeat split. Qed.

(* ------------------------------------------------------------------ *)
(** * C03 *)

(** [q_az] lists the bursts for which beam forming was executed, in order. *)
Theorem C03_beamed_once : forall cf o cancel input,
  let s := final (run cf o cancel input) in
  increasing (map a_uid (q_az (s_q s))) /\ NoDup (map a_uid (q_az (s_q s))).
Proof.
  intros. pose proof (beamed_once cf o cancel input). split; auto. apply increasing_NoDup; auto.
Qed.
Print Assumptions C03_beamed_once.

Theorem C03_stack_once : forall cf o cancel input s,
  In s (known_surfaces (final (run cf o cancel input))) \/ In s (written (run cf o cancel input)) ->
  increasing (bursts_of s) /\ NoDup (bursts_of s).
Proof.
  intros cf o cancel input s Hs.
  assert (I : In s (known_surfaces (final (run cf o cancel input)))).
  { destruct Hs; auto. eapply subseq_in; [apply written_subseq|auto]. }
  pose proof (stack_once cf o cancel input s I). split; auto. apply increasing_NoDup; auto.
Qed.
Print Assumptions C03_stack_once.
Example C03_ex : map a_uid (q_az (s_q (final ex_run))) = [0; 1; 2; 3; 4; 5; 7; 8; 9; 10; 11; 12].
Proof. vm_compute. reflexivity. Qed.

(* ------------------------------------------------------------------ *)
(** * C04 *)

(** [w_done] lists the surfaces taken from the queue, in order. *)
Theorem C04_written_iff_enough_looks : forall cf o cancel input s b,
  In (s, b) (w_done (s_out (final (run cf o cancel input)))) ->
  (In s (written (run cf o cancel input)) <-> c_looks cf / 2 <= length (s_stack s))
  /\ (b = true <-> c_looks cf / 2 <= length (s_stack s)).
Proof. intros. split; [eapply written_kept; eauto|eapply decided_iff; eauto]. Qed.
Print Assumptions C04_written_iff_enough_looks.

(** Nothing else is written: every written surface has enough looks, and every
    located surface is either still queued or was decided, exactly once. *)
Theorem C04_written_enough_looks : forall cf o cancel input s,
  In s (written (run cf o cancel input)) -> c_looks cf / 2 <= length (s_stack s).
Proof. exact written_enough. Qed.
Print Assumptions C04_written_enough_looks.

Theorem C04_decided_once : forall cf o cancel input,
  let s := final (run cf o cancel input) in
  numbers (map fst (w_done (s_out s)) ++ q_surfs (s_q s)) = seq 0 (q_count (s_q s)).
Proof. exact known_numbers. Qed.
Print Assumptions C04_decided_once.
Example C04_ex : exists s s', In (s, true) (w_done (s_out (final ex_run)))
   /\ In (s', false) (w_done (s_out (final ex_run)))
   /\ length (s_stack s) = 2 /\ length (s_stack s') = 1.
Proof.
  exists (mk_surface 0 0 0 [mk_entry 0 0 0 0%Z; mk_entry 1 1 0 (-1)%Z]).
  exists (mk_surface 5 5 5 [mk_entry 5 5 1 (-1)%Z]). vm_compute. tauto.
Qed.

(* ------------------------------------------------------------------ *)
(** * C05 *)

Theorem C05_no_burst_after_gap : forall cf o cancel input s e j,
  In s (known_surfaces (final (run cf o cancel input))) \/ In s (written (run cf o cancel input)) ->
  In e (s_stack s) ->
  gap_at (c_gap cf) input j -> s_loc s < j -> e_uid e < j.
Proof.
  intros cf o cancel input s e j Hs He Hj Hl. apply (no_later_burst cf o cancel input s e j); auto.
  destruct Hs; auto. eapply subseq_in; [apply written_subseq|auto].
Qed.
Print Assumptions C05_no_burst_after_gap.
(** The run of [ex_written] has surfaces before and after the gap at record 7;
    without the gap, burst 7 would see surface 6. *)
Example C05_ex : gap_at (c_gap cf3) ex_input 7 /\ o_vis o_near 6 7 = true
  /\ map s_loc (written ex_run) = [0; 1; 2; 3; 4; 8; 9; 10; 11; 12].
Proof. split; [exact ex_gap|]. vm_compute. split; reflexivity. Qed.

(* ------------------------------------------------------------------ *)
(** * C06 *)

(** Refuted: bursts left unprocessed when the surfaces before the gap are
    drained stay queued and are beam-formed for surfaces after the gap. *)
Definition o_c06 : oracle :=
  mk_oracle (fun _ p => Nat.leb 3 p)
    (fun s p => Nat.leb 1 p && Nat.leb s p && Nat.leb p (s + 3))
    (fun _ => false) (fun _ => false) (fun _ => false) (fun _ => false).
Definition in_c06 : list item := track 0 3 ++ track 20 81.
Theorem C06_no_burst_before_gap_refuted : exists cf o input st s e j,
  c_min cf = 80 /\ c_N cf = 64 /\ no_failures o /\ all_valid input /\
  run cf o no_cancel input = OEnd st false /\
  In s (written (run cf o no_cancel input)) /\ In e (s_stack s) /\
  gap_at (c_gap cf) input j /\ j <= s_loc s /\ e_uid e < j.
Proof.
  exists cf80, o_c06, in_c06, (final (run cf80 o_c06 no_cancel in_c06)).
  exists (mk_surface 1 1 3 [mk_entry 1 1 0 31%Z; mk_entry 2 2 0 30%Z; mk_entry 3 3 0 29%Z; mk_entry 4 4 0 28%Z]).
  exists (mk_entry 1 1 0 31%Z), 3.
  split; [reflexivity|]. split; [reflexivity|]. split; [repeat split|].
  split; [apply tracks_valid|].
  split; [apply ended_spec; vm_compute; reflexivity|].
  split; [vm_compute; left; reflexivity|].
  split; [vm_compute; left; reflexivity|].
  split; [exists (20 # 1), (2 # 1); repeat split; intro H; vm_compute in H; discriminate H|].
  split; vm_compute; repeat constructor.
Qed.
Print Assumptions C06_no_burst_before_gap_refuted.

(** What does hold: a burst enters a stack only if it sees the surface, so no
    pre-gap burst contributes when none sees a post-gap surface. *)
Theorem C06_no_burst_before_gap_partial : forall cf o cancel input s e j,
  In s (known_surfaces (final (run cf o cancel input))) -> In e (s_stack s) ->
  gap_at (c_gap cf) input j -> j <= s_loc s ->
  (forall p, p < j -> o_vis o (s_uid s) p = false) ->
  j <= e_uid e.
Proof.
  intros cf o cancel input s e j Hs He Hj Hl Hv.
  destruct (stack_entry cf o cancel input s e Hs He) as (V & _).
  destruct (Nat.le_gt_cases j (e_uid e)); auto. rewrite Hv in V by auto. discriminate.
Qed.
Print Assumptions C06_no_burst_before_gap_partial.
Example C06_ex : gap_at (c_gap cf3) ex_input 7
  /\ In 8 (map s_loc (known_surfaces (final ex_run)))
  /\ forallb (fun p => negb (o_vis o_near 7 p)) [0; 1; 2; 3; 4; 5] = true.
Proof. split; [exact ex_gap|]. split; [vm_compute; tauto|reflexivity]. Qed.

(* ------------------------------------------------------------------ *)
(** * C07 *)

(** Refuted: the first burst after a gap is calibrated when the gap is found
    and once more when it enters the queue. *)
Theorem C07_calibrated_once_refuted : exists cf o input st x,
  c_min cf = 80 /\ no_failures o /\ all_valid input /\
  run cf o no_cancel input = OEnd st false /\
  In x (map a_uid (q_az (s_q st))) /\
  count_occ Nat.eq_dec (m_cals (s_mon st)) x = 2.
Proof.
  exists cf80, o_c06, in_c06, (final (run cf80 o_c06 no_cancel in_c06)), 3.
  split; [reflexivity|]. split; [repeat split|]. split; [apply tracks_valid|].
  split; [apply ended_spec; vm_compute; reflexivity|].
  split; vm_compute; tauto.
Qed.
Print Assumptions C07_calibrated_once_refuted.

(** What does hold: every burst used is calibrated once, except the first one
    after a gap, which is calibrated exactly twice. *)
Theorem C07_calibrated_once_partial : forall cf o cancel input x,
  let s := final (run cf o cancel input) in
  In x (map a_uid (q_az (s_q s))) ->
  (~ gap_at (c_gap cf) input x -> count_occ Nat.eq_dec (m_cals (s_mon s)) x = 1) /\
  (gap_at (c_gap cf) input x -> count_occ Nat.eq_dec (m_cals (s_mon s)) x = 2).
Proof.
  intros cf o cancel input x s Hx. destruct (run_cals cf o input cancel) as (HC & HA). fold s in HC, HA.
  apply in_map_iff in Hx. destruct Hx as (a & <- & Ha). destruct (HA a Ha) as (B & t & V).
  rewrite (HC (a_uid a)). unfold cal_count, validb. rewrite V.
  assert (LT : a_uid a <? i_n (s_in s) = true).
  { unfold bound in B. destruct (i_gap (s_in s) || i_resume (s_in s)); lia. }
  rewrite LT. cbn [andb]. pose proof (gapb_spec cf input (a_uid a)) as GB.
  replace (a_uid a <? bound (s_in s)) with true by lia. rewrite andb_true_r.
  destruct (gapb cf input (a_uid a)); split; intro H; auto; exfalso.
  - apply H. apply GB; auto.
  - apply GB in H. discriminate.
Qed.
Print Assumptions C07_calibrated_once_partial.
Example C07_ex : In 5 (map a_uid (q_az (s_q (final ex_run)))) /\ In 7 (map a_uid (q_az (s_q (final ex_run))))
  /\ m_cals (s_mon (final ex_run)) = [0; 1; 2; 3; 4; 5; 7; 7; 8; 9; 10; 11; 12].
Proof. vm_compute. tauto. Qed.

(* ------------------------------------------------------------------ *)
(** * C08 *)

Theorem C08_nothing_pending : forall cf o cancel input s,
  run cf o cancel input = OEnd s false ->
  q_surfs (s_q s) = [] /\
  numbers (map fst (w_done (s_out s))) = seq 0 (q_count (s_q s)) /\
  forall x b, In (x, b) (w_done (s_out s)) ->
    (b = true /\ In x (w_l1b (s_out s))) \/ (b = false /\ length (s_stack x) < c_looks cf / 2).
Proof.
  intros cf o cancel input s E. destruct (end_drained cf o cancel input s E) as (A & B).
  split; auto. split; auto. intros x b H.
  pose proof (decided_iff cf o cancel input x b) as D. pose proof (written_kept cf o cancel input x b) as W.
  unfold written in W. rewrite E in D, W. cbn in D, W. specialize (D H). specialize (W H).
  destruct b.
  - left. split; auto. apply W. apply D; auto.
  - right. split; auto. destruct (Nat.le_gt_cases (c_looks cf / 2) (length (s_stack x))); auto.
    apply D in H0. discriminate.
Qed.
Print Assumptions C08_nothing_pending.
Example C08_ex : exists s, run cf3 o_near no_cancel ex_input = OEnd s false /\ q_count (s_q s) = 12.
Proof. eexists. vm_compute. split; reflexivity. Qed.

(* ------------------------------------------------------------------ *)
(** * C09 *)

(** Refuted: an invalid (or out-of-region) record at the start ends the run. *)
Definition in_c09 : list item := Nothing :: track 0 100.
Theorem C09_whole_input_read_refuted : exists cf o input st,
  c_min cf = 80 /\ no_failures o /\ ~ In ReadFail input /\
  run cf o no_cancel input = OEnd st false /\
  length (i_rest (s_in st)) = 100 /\ written (run cf o no_cancel input) = [].
Proof.
  exists cf80, o_near, in_c09, (final (run cf80 o_near no_cancel in_c09)).
  split; [reflexivity|]. split; [repeat split|]. split; [apply no_read_fail; reflexivity|].
  split; [apply ended_spec; vm_compute; reflexivity|].
  split; vm_compute; reflexivity.
Qed.
Print Assumptions C09_whole_input_read_refuted.

(** What does hold: a run ends normally only after the last record or at an
    invalid (out-of-region) record; with valid records only, everything is read. *)
Theorem C09_whole_input_read_partial : forall cf o cancel input s,
  2 <= c_min cf ->
  run cf o cancel input = OEnd s false ->
  (i_rest (s_in s) = [] /\ i_n (s_in s) = length input)
  \/ exists k, i_n (s_in s) = S k /\ nth_error input k = Some Nothing.
Proof.
  intros cf o cancel input s HM E.
  destruct (run_end cf o input cancel s HM E) as [R|R]; auto.
  left. split; auto. destruct (run_read cf o input cancel) as (A & B). rewrite E in A, B. cbn in A, B.
  rewrite R in A. symmetry in A. apply (f_equal (@length _)) in A. rewrite skipn_length in A. cbn in A. lia.
Qed.
Print Assumptions C09_whole_input_read_partial.

Theorem C09_all_valid_partial : forall cf o cancel input s,
  2 <= c_min cf -> all_valid input ->
  run cf o cancel input = OEnd s false -> i_n (s_in s) = length input.
Proof.
  intros cf o cancel input s HM HV E.
  destruct (C09_whole_input_read_partial cf o cancel input s HM E) as [(_ & R)|(k & _ & R)]; auto.
  exfalso. unfold all_valid in HV. rewrite Forall_forall in HV. apply nth_error_In in R.
  destruct (HV _ R). discriminate.
Qed.
Print Assumptions C09_all_valid_partial.
Example C09_ex : exists s, run cf3 o_near no_cancel (track 0 6 ++ track 20 6) = OEnd s false
  /\ all_valid (track 0 6 ++ track 20 6) /\ i_n (s_in s) = 12.
Proof.
  eexists. split; [vm_compute; reflexivity|]. split; [apply tracks_valid|reflexivity].
Qed.

(* ------------------------------------------------------------------ *)
(** * C10 *)

(** Refuted: a track with fewer than 80 surfaces (here 79 records) raises, so
    does a gap followed by fewer than 80 surfaces. *)
Theorem C10_closed_products_refuted : exists cf o input st,
  c_min cf = 80 /\ c_N cf = 64 /\ no_failures o /\ all_valid input /\ length input = 79 /\
  run cf o no_cancel input = ORaise EInsufficient st.
Proof.
  exists cf80, o_near, (track 0 79), (final (run cf80 o_near no_cancel (track 0 79))).
  split; [reflexivity|]. split; [reflexivity|]. split; [repeat split|]. split; [apply track_valid|].
  split; [reflexivity|]. apply insufficient_spec. vm_compute. reflexivity.
Qed.
Print Assumptions C10_closed_products_refuted.

Theorem C10_closed_products_after_gap_refuted : exists cf o input st,
  c_min cf = 80 /\ c_N cf = 64 /\ no_failures o /\ all_valid input /\ length input = 190 /\
  run cf o no_cancel input = ORaise EInsufficient st /\ 0 < length (w_l1b (s_out st)).
Proof.
  exists cf80, o_near, (track 0 120 ++ track 200 70),
    (final (run cf80 o_near no_cancel (track 0 120 ++ track 200 70))).
  split; [reflexivity|]. split; [reflexivity|]. split; [repeat split|]. split; [apply tracks_valid|].
  split; [reflexivity|]. split; [apply insufficient_spec; vm_compute; reflexivity|].
  apply Nat.ltb_lt. vm_compute. reflexivity.
Qed.
Print Assumptions C10_closed_products_after_gap_refuted.

(** What does hold: the complete list of causes for not ending normally when no
    numerical or writing step fails. *)
Theorem C10_causes_partial : forall cf o cancel input,
  1 <= c_min cf -> 2 <= c_looks cf -> no_failures o -> ~ In ReadFail input ->
  (exists s c, run cf o cancel input = OEnd s c) \/
  (* fewer than c_min surfaces since the start or the last gap, all input read *)
  (exists s, run cf o cancel input = ORaise EInsufficient s /\ i_rest (s_in s) = [] /\
     length (q_surfs (s_q s)) < c_min cf) \/
  (* the queue of bursts was emptied before *)
  (exists s p, run cf o cancel input = ORaise EPrevBurst s /\ q_packs (s_q s) = [p]) \/
  (* approximate method and a burst that sees no surface *)
  (exists s a, run cf o cancel input = ORaise EAzimuth s /\ c_approx cf = true /\
     In a (q_az (s_q s)) /\ a_seen a = []).
Proof.
  intros cf o cancel input HM HL (F1 & F2 & F3 & F4) HR.
  destruct (run_cases cf o cancel input) as [H|(e & s & E)]; auto. right.
  pose proof (run_why cf o input cancel e s E) as W.
  destruct e; cbn in W.
  - left. exists s. destruct W as (W1 & W2). split; auto. split; auto.
    destruct W2 as [W2|W2]; auto. rewrite W2. cbn. lia.
  - exfalso. destruct W as (k & _ & W). apply nth_error_In in W. contradiction.
  - lia.
  - right; left. destruct W as (p & W). eauto.
  - right; right. destruct W as (a & Ha & [W|(W1 & W2)]); [rewrite F1 in W; discriminate|].
    exists s, a. repeat split; auto.
    destruct (run_trends cf o cancel input) as (T & L). rewrite E in T, L. cbn in T, L.
    destruct (In_nth_error _ _ Ha) as (k & Hk).
    assert (S1 : nth_error (map (fun a => length (a_seen a)) (q_az (s_q s))) k = Some (length (a_seen a))).
    { rewrite nth_error_map, Hk. reflexivity. }
    assert (S2 : nth_error (trends (c_N cf) (map (fun a => length (a_seen a)) (q_az (s_q s)))) k = Some (a_trend a)).
    { rewrite <- T, nth_error_map, Hk. reflexivity. }
    pose proof (trends_zero_iff _ _ _ _ _ S1 S2) as OK.
    destruct (a_seen a) as [|c l] eqn:SE; auto. exfalso.
    rewrite <- SE in *.
    destruct (nadir_beam_ok_any (c_N cf) (a_seen a) (a_trend a)) as (b & B & _); auto.
    { specialize (L a Ha). rewrite SE in L |- *. cbn in L |- *. lia. }
    rewrite B in W2. discriminate.
  - exfalso. destruct W as (x & l & _ & W). rewrite F2 in W. discriminate.
  - exfalso. destruct W as (x & l & _ & W). rewrite F3 in W. discriminate.
  - exfalso. destruct W as (x & l & _ & W). rewrite F4 in W. discriminate.
  - lia.
Qed.
Print Assumptions C10_causes_partial.
Example C10_ex : no_failures o_near /\ ~ In ReadFail ex_input /\ (exists s, run cf3 o_near no_cancel ex_input = OEnd s false)
  /\ (exists s, run cf3 o_near no_cancel (track 0 2) = ORaise EInsufficient s)
  /\ (exists s, run (mk_cfg 4 4 3 (3#2) true true)
        (mk_oracle (fun _ _ => true) (fun s p => Nat.leb 3 p) (fun _ => false) (fun _ => false) (fun _ => false) (fun _ => false))
        no_cancel (track 0 9) = ORaise EAzimuth s).
Proof.
  split; [repeat split|]. split.
  { apply no_read_fail. reflexivity. }
  repeat split; eexists; vm_compute; reflexivity.
Qed.

(* ------------------------------------------------------------------ *)
(** * C11 *)

(** A cancelled run either is the uncancelled run or ended with its products
    closed and holding a prefix of them. *)
Theorem C11_cancel_truncates : forall cf o cancel surfs0 packs0 base snext input,
  let r := run_from cf o cancel surfs0 packs0 base snext input in
  let r0 := run_from cf o no_cancel surfs0 packs0 base snext input in
  r = r0 \/
  (exists s, r = OEnd s true /\ prefix (written r) (written r0) /\ prefix (written_l1bs r) (written_l1bs r0)).
Proof.
  intros. destruct (loop_cancel cf o base cancel (enough surfs0 input) 0 (init surfs0 packs0 snext input))
    as [E|(s & E & P1 & P2)]; [left; exact E|right].
  exists s. split; [exact E|]. assert (X : r = OEnd s true) by exact E. rewrite X. split; auto.
Qed.
Print Assumptions C11_cancel_truncates.

(** Once cancellation is observed in iteration [k], at most one more surface is
    written than by the first [k] iterations of the uncancelled run. *)
Theorem C11_cancel_prompt : forall cf o cancel surfs0 packs0 base snext input k,
  cancel k = true ->
  length (written (run_from cf o cancel surfs0 packs0 base snext input))
  <= S (length (written (loop cf o base no_cancel k 0 (init surfs0 packs0 snext input)))).
Proof.
  intros. apply loop_cancel_prompt. rewrite Nat.add_0_r. auto.
Qed.
Print Assumptions C11_cancel_prompt.
Example C11_ex : exists s,
  run cf3 o_near (fun k => Nat.eqb k 4) ex_input = OEnd s true /\ numbers (w_l1b (s_out s)) = [0; 1; 2]
  /\ length (written (loop cf3 o_near 0 no_cancel 4 0 (init [] [] 0 ex_input))) = 2.
Proof. eexists. vm_compute. repeat split. Qed.

(* ------------------------------------------------------------------ *)
(** * C12 *)

(** Refuted: bursts left over by a normally completed run enter the stacks of
    the next file. [base]/[snext] number the objects of the second run. *)
Definition o_c12 : oracle :=
  mk_oracle (fun _ p => Nat.ltb p 80 || Nat.leb 100 p) (fun s _ => Nat.leb 80 s)
    (fun _ => false) (fun _ => false) (fun _ => false) (fun _ => false).
Theorem C12_run_independent_refuted : exists cf o in1 in2 s1,
  c_min cf = 80 /\ no_failures o /\ all_valid in1 /\ all_valid in2 /\
  run cf o no_cancel in1 = OEnd s1 false /\
  let second s p := run_from cf o no_cancel s p (length in1) (q_next (s_q s1)) in2 in
  map bursts_of (written (second (q_surfs (s_q s1)) (q_packs (s_q s1))))
  <> map bursts_of (written (second [] [])).
Proof.
  exists cf80, o_c12, (track 0 100), (track 0 80), (final (run cf80 o_c12 no_cancel (track 0 100))).
  split; [reflexivity|]. split; [repeat split|]. split; [apply track_valid|]. split; [apply track_valid|].
  split; [apply ended_spec; vm_compute; reflexivity|].
  intros second H. apply (f_equal (fun l => length (nth 0 l []))) in H.
  vm_compute in H. discriminate H.
Qed.
Print Assumptions C12_run_independent_refuted.

(* ------------------------------------------------------------------ *)
(** * C16 *)

(** [a_seen a] is the list of surfaces the beams of burst [a] are steered to:
    the beam index stored with a stack entry selects the very surface, and the
    absolute look index is that of this beam. *)
Theorem C16_beam_of_surface : forall cf o cancel input s e,
  let st := final (run cf o cancel input) in
  In s (known_surfaces st) \/ In s (written (run cf o cancel input)) ->
  In e (s_stack s) ->
  exists a, In a (q_az (s_q st)) /\ a_uid a = e_uid e /\
    nth_error (a_seen a) (e_beam e) = Some (s_counter s) /\
    e_abs e = abs_index (c_N cf) (e_beam e) (a_trend a) (length (a_seen a)).
Proof.
  intros cf o cancel input s e st Hs He.
  assert (I : In s (known_surfaces st)).
  { destruct Hs; auto. eapply subseq_in; [apply written_subseq|auto]. }
  apply (stack_entry cf o cancel input s e I He).
Qed.
Print Assumptions C16_beam_of_surface.

(** Conversely every burst that steered a beam to a surface is in its stack. *)
Theorem C16_stack_complete : forall cf o cancel input s a,
  let st := final (run cf o cancel input) in
  In s (known_surfaces st) -> In a (q_az (s_q st)) ->
  In (s_counter s) (a_seen a) -> In (a_uid a) (bursts_of s).
Proof. exact stack_complete. Qed.
Print Assumptions C16_stack_complete.
Example C16_ex : map (fun a => (a_uid a, a_seen a, a_trend a)) (firstn 3 (q_az (s_q (final ex_run))))
   = [(0, [0; 1], 1%Z); (1, [0; 1; 2], 1%Z); (2, [1; 2], (-1)%Z)]
  /\ map (fun e => (e_uid e, e_beam e, e_abs e)) (s_stack (nth 1 (written ex_run) (mk_surface 0 0 0 [])))
   = [(0, 1, 1%Z); (1, 1, 0%Z); (2, 0, (-2)%Z)].
Proof. vm_compute. split; reflexivity. Qed.

(** C13 for the bursts of a run: the trends stored are those of the
    independent description, for the history of beam-list sizes. *)
Theorem C13_run_trends : forall cf o cancel input k,
  let az := q_az (s_q (final (run cf o cancel input))) in
  option_map a_trend (nth_error az k)
  = trend_spec (c_N cf) (map (fun a => length (a_seen a)) az) k.
Proof.
  intros cf o cancel input k az. destruct (run_trends cf o cancel input) as (T & _).
  fold az in T. rewrite <- trends_spec, <- T, nth_error_map. reflexivity.
Qed.
Print Assumptions C13_run_trends.
Example C13_run_ex : map a_trend (q_az (s_q (final ex_run)))
  = [1; 1; -1; -1; -1; -1; 1; -1; -1; -1; -1; -1]%Z
  /\ map (fun a => length (a_seen a)) (q_az (s_q (final ex_run))) = [2; 3; 2; 2; 2; 2; 3; 2; 2; 2; 2; 1].
Proof. vm_compute. split; reflexivity. Qed.

(* ------------------------------------------------------------------ *)
(** * C61 *)

(** Refuted: a gap adds the work of its sub-task to one unit per record. The
    total announced is the number of records. *)
Theorem C61_progress_bounded_refuted : exists cf o input st,
  c_min cf = 80 /\ no_failures o /\ all_valid input /\
  run cf o no_cancel input = OEnd st false /\
  (inject_Z (Z.of_nat (length input)) < m_work (s_mon st))%Q.
Proof.
  exists cf80, o_near, (track 0 100 ++ track 200 100),
    (final (run cf80 o_near no_cancel (track 0 100 ++ track 200 100))).
  split; [reflexivity|]. split; [repeat split|]. split; [apply tracks_valid|].
  split; [apply ended_spec; vm_compute; reflexivity|].
  vm_compute. reflexivity.
Qed.
Print Assumptions C61_progress_bounded_refuted.

(** What does hold: the work never exceeds the number of records read plus one
    unit for every gap among them. *)
Theorem C61_progress_bounded_partial : forall cf o cancel input gaps,
  let s := final (run cf o cancel input) in
  NoDup gaps -> (forall j, In j gaps <-> j < i_n (s_in s) /\ gap_at (c_gap cf) input j) ->
  i_n (s_in s) <= length input /\
  (m_work (s_mon s) <= inject_Z (Z.of_nat (i_n (s_in s) + length gaps)))%Q.
Proof.
  intros cf o cancel input gaps s ND HG.
  destruct (run_read cf o input cancel) as (_ & B). fold s in B. split; auto.
  assert (W : WE cf input s).
  { apply loop_work; [apply init_inv|]. split; cbn; [|discriminate]. unfold Qle; cbn. lia. }
  assert (L : length gaps = G cf input (i_n (s_in s))).
  { apply Permutation_length. apply NoDup_Permutation; auto.
    - apply NoDup_filter. apply seq_NoDup.
    - intro x. rewrite HG, filter_In, in_seq, gapb_spec. intuition lia. }
  rewrite L. fold (q_of (i_n (s_in s) + G cf input (i_n (s_in s)))). rewrite q_of_plus.
  unfold WE, tot, bound in W.
  destruct (i_gap (s_in s) || i_resume (s_in s)) eqn:GR; [|lra].
  pose proof (run_ok cf o input cancel) as H.
  destruct (i_n (s_in s)) as [|k] eqn:N.
  - (* nothing read: no gap *)
    exfalso. subst s. destruct (run cf o cancel input) as [s c|e s|s] eqn:E; cbn in *.
    + destruct c; destruct H as (H & _); destruct (ii_cur _ _ _ _ _ _ _ H GR) as (k & _ & X & _); lia.
    + destruct (ir_gap _ _ _ _ _ H GR) as (k & X & _). lia.
    + destruct H as (H & _); destruct (ii_cur _ _ _ _ _ _ _ H GR) as (k & _ & X & _); lia.
  - assert (GK : gapb cf input k = true).
    { apply gapb_spec. subst s. destruct (run cf o cancel input) as [s c|e s|s] eqn:E; cbn in *.
      + destruct c; destruct H as (H & _); destruct (ii_cur _ _ _ _ _ _ _ H GR) as (k' & t & X & _ & _ & Y & _);
          replace k with k' by lia; auto.
      + destruct (ir_gap _ _ _ _ _ H GR) as (k' & X & Y). replace k with k' by lia; auto.
      + destruct H as (H & _); destruct (ii_cur _ _ _ _ _ _ _ H GR) as (k' & t & X & _ & _ & Y & _);
          replace k with k' by lia; auto. }
    rewrite G_S, GK, q_of_plus. replace (S k - 1) with k in W by lia. change (q_of 1) with 1%Q. lra.
Qed.
Print Assumptions C61_progress_bounded_partial.

Theorem C61_no_gap_partial : forall cf o cancel input,
  (forall j, ~ gap_at (c_gap cf) input j) ->
  (m_work (s_mon (final (run cf o cancel input))) <= inject_Z (Z.of_nat (length input)))%Q.
Proof.
  intros cf o cancel input NG.
  destruct (C61_progress_bounded_partial cf o cancel input []) as (A & B).
  - constructor.
  - intro j. split; [intros []|intros (_ & X); exact (NG j X)].
  - eapply Qle_trans; [exact B|]. cbn [length]. rewrite <- Zle_Qle. lia.
Qed.
Print Assumptions C61_no_gap_partial.
Example C61_ex :
  (m_work (s_mon (final (run cf3 o_near no_cancel (track 0 6 ++ track 20 6)))) == 12 + (1 # 2))%Q.
Proof. vm_compute. reflexivity. Qed.
