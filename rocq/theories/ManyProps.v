(** C136: stacks when bursts see more surfaces than they have pulses. *)
From Coq Require Import List ZArith QArith Bool Lia Arith.
From Coq Require Import ZifyBool ZifyNat.
From Verif Require Import Common ChainModel ChainSpec ChainAux ChainInv ChainMain ChainFacts ChainProps FullSpec FullProofs FullProps HeldSpec.
From Verif Require Import HoleSpec HoleProofs HoleProps ManySpec ManyProofs.
Import ListNotations.
Local Open Scope nat_scope.

Lemma count_next : forall cf o cancel input, let fs := final (run cf o cancel input) in q_count (s_q fs) = q_next (s_q fs).
Proof.
  intros cf o cancel input fs. unfold fs. pose proof (run_ok cf o input cancel) as H. destruct (run cf o cancel input) as [s1 c|e s1|s1]; cbn in *.
  - destruct c; destruct H as (H & _); apply (k_count _ _ _ _ _ (ii_K _ _ _ _ _ _ _ H)).
  - apply (k_count _ _ _ _ _ (ir_K _ _ _ _ _ H)).
  - destruct H as (H & _). apply (k_count _ _ _ _ _ (ii_K _ _ _ _ _ _ _ H)).
Qed.

(** The stack of a surface holds the bursts that see it, in order, except those
    that also see the surface [N] further ([N] the number of pulses). *)
Theorem C136_stack : forall cf M o o' lo hi cancel input s b,
  sighted (c_N cf) M o' lo hi -> counted_as input o o' -> M + 2 + holes input <= c_min cf ->
  (forall x l, input = x :: l -> x <> Nothing) -> gapless cf input ->
  let fs := final (run cf o cancel input) in
  In (s, b) (w_done (s_out fs)) ->
  bursts_of s = kept_by (c_N cf) (q_count (s_q fs)) o input s.
Proof.
  intros cf M o o' lo hi cancel input s b R A C F G fs I. unfold fs. rewrite (count_next cf o cancel input).
  apply (run_kept_h cf o o' input lo hi M R A C F G cancel). unfold decided. now apply (in_map fst) in I.
Qed.
Print Assumptions C136_stack.

(** So, when the run ends by itself: every located surface is dealt with, no
    valid burst is left unread, and a surface is written when enough such bursts
    remain. *)
Theorem C136_every_surface : forall cf M o o' lo hi cancel input fs,
  sighted (c_N cf) M o' lo hi -> counted_as input o o' -> M + 2 + holes input <= c_min cf ->
  (forall x l, input = x :: l -> x <> Nothing) -> gapless cf input ->
  run cf o cancel input = OEnd fs false ->
  rank input (i_n (s_in fs)) = valid_count input /\
  numbers (map fst (w_done (s_out fs))) = seq 0 (q_count (s_q fs)) /\
  forall s b, In (s, b) (w_done (s_out fs)) ->
    bursts_of s = kept_by (c_N cf) (q_count (s_q fs)) o input s /\
    (b = true <-> c_looks cf / 2 <= length (kept_by (c_N cf) (q_count (s_q fs)) o input s)).
Proof.
  intros cf M o o' lo hi cancel input fs R A C F G E. split.
  { exact (proj1 (proj2 (run_h cf o o' input lo hi M R A C F G cancel)) fs E). }
  split; [exact (proj2 (end_drained cf o cancel input fs E))|].
  intros s b I. assert (J : In (s, b) (w_done (s_out (final (run cf o cancel input))))) by (rewrite E; exact I).
  pose proof (C136_stack cf M o o' lo hi cancel input s b R A C F G J) as X. rewrite E in X. cbn [final] in X. split; [exact X|].
  rewrite (decided_iff cf o cancel input s b J), <- X. unfold bursts_of. now rewrite map_length.
Qed.
Print Assumptions C136_every_surface.

(** Nothing is lost as long as no burst sees [N] + 1 surfaces, ... *)
Theorem C136_regular : forall cf o lo hi, c_N cf <> 0 -> regular cf o lo hi -> sighted (c_N cf) (c_N cf) o lo hi.
Proof.
  intros cf o lo hi NZ R. destruct R as [V L H J F LC CP]. constructor; auto.
  intro s. assert (LM : forall a b, a <= b -> lo a <= lo b) by (intros a b X; induction X; auto; specialize (L m); lia).
  assert (HM : forall a b, a <= b -> hi a <= hi b) by (intros a b X; induction X; auto; specialize (H m); lia).
  destruct (Nat.le_gt_cases (lo (s + c_N cf)) (lo s)) as [X|X]; [|exact X]. exfalso.
  assert (LH : forall z, lo z <= hi z).
  { intros [|z]; [apply V in F; lia|]. specialize (J z). specialize (H z). lia. }
  assert (A : o_vis o s (lo s) = true) by (apply V; specialize (LH s); lia).
  assert (B : o_vis o (s + c_N cf) (lo s) = true).
  { apply V. pose proof (HM s (s + c_N cf) ltac:(lia)). specialize (LH s). lia. }
  pose proof (CP _ _ _ A B). lia.
Qed.
Print Assumptions C136_regular.

(** ... and with no more than [M] in sight a burst is missing from the stacks of
    at most [M] - [N] surfaces. *)
Theorem C136_lost : forall N M o lo hi located input p ss,
  sighted N M o lo hi -> NoDup ss ->
  (forall s, In s ss -> In p (valid_numbers input (length input)) /\ o_vis o (s_uid s) p = true /\
     ~ In p (kept_by N located o input s)) -> NoDup (map s_uid ss) ->
  length ss <= M - N.
Proof.
  intros N M o lo hi located input p ss R ND H NU.
  assert (V : forall s, In s ss -> o_vis o (s_uid s) p = true /\ o_vis o (s_uid s + N) p = true).
  { intros s I. destruct (H s I) as (A & B & D). split; [exact B|]. destruct (o_vis o (s_uid s + N) p) eqn:W; [reflexivity|].
    elim D. apply filter_In. split; [exact A|]. rewrite B, W, andb_false_r. reflexivity. }
  destruct ss as [|s0 ss']; [cbn; lia|]. set (ss := s0 :: ss') in *.
  (* the surfaces lie between the lowest and the highest that is seen *)
  assert (MIN : exists m, In m ss /\ forall s, In s ss -> s_uid m <= s_uid s).
  { clear - ss. subst ss. induction ss' as [|y l IH] in s0 |- *.
    - exists s0. split; [now left|]. intros s [<-|[]]. lia.
    - destruct (IH y) as (m & M1 & M2). destruct (Nat.le_gt_cases (s_uid s0) (s_uid m)) as [L|L].
      + exists s0. split; [now left|]. intros s [<-|I]; [lia|]. specialize (M2 s I). lia.
      + exists m. split; [now right|]. intros s [<-|I]; [lia|]. now apply M2. }
  destruct MIN as (m & M1 & M2). destruct (V m M1) as (V1 & _).
  assert (INC : incl (map s_uid ss) (seq (s_uid m) (M - N))).
  { intros z I. apply in_map_iff in I as (s & <- & I). apply in_seq. specialize (M2 s I). destruct (V s I) as (_ & W).
    pose proof (g_cap _ _ _ _ _ R _ _ _ V1 W). lia. }
  pose proof (NoDup_incl_length NU INC) as X. rewrite map_length, seq_length in X. exact X.
Qed.
Print Assumptions C136_lost.

(** Witness: two pulses, three surfaces in sight. *)
Definition cf2 : cfg := mk_cfg 2 2 6 (3 # 2) false true.
Lemma o_reg_sighted : sighted 2 3 o_reg pred S.
Proof. constructor; cbn; unfold near; intros; lia. Qed.
Example C136_example :
  sighted (c_N cf2) 3 o_reg pred S /\ 3 + 2 + holes (track 0 8) <= c_min cf2 /\ gapless cf2 (track 0 8)
  /\ ended (run cf2 o_reg no_cancel (track 0 8)) = true
  /\ map bursts_of (written (run cf2 o_reg no_cancel (track 0 8)))
     = [[0]; [0; 1]; [1; 2]; [2; 3]; [3; 4]; [4; 5]; [5; 6; 7]; [6; 7]].
Proof.
  split; [apply o_reg_sighted|]. split; [vm_compute; lia|]. split; [apply track_gapless|].
  vm_compute. split; reflexivity.
Qed.
