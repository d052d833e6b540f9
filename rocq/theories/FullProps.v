(** C112: the stack of a surface holds every burst that sees it. *)
From Coq Require Import List ZArith QArith Bool Lia Arith.
From Coq Require Import ZifyBool ZifyNat.
From Verif Require Import Common ChainModel ChainSpec ChainAux ChainInv ChainMain ChainFacts ChainProps FullSpec FullProofs.
Import ListNotations.
Local Open Scope nat_scope.

(** On a pass without gaps or invalid records, whatever the moment of
    cancellation and whatever fails, the stack gathered for every surface taken
    from the queue consists of exactly the bursts of the file that see it, in
    order. *)
Theorem C112_stack_complete : forall cf o lo hi cancel input s b,
  regular cf o lo hi -> c_N cf + 2 <= c_min cf -> all_valid input -> gapless cf input ->
  In (s, b) (w_done (s_out (final (run cf o cancel input)))) ->
  bursts_of s = seeing o input s.
Proof.
  intros cf o lo hi cancel input s b R C V G I.
  apply (run_seeing cf o input lo hi R C V G cancel). unfold decided. now apply (in_map fst) in I.
Qed.
Print Assumptions C112_stack_complete.

(** So have the records of the products, when the run ends without an error. *)
Theorem C112_products_complete : forall cf o lo hi cancel input fs c s,
  regular cf o lo hi -> c_N cf + 2 <= c_min cf -> all_valid input -> gapless cf input ->
  run cf o cancel input = OEnd fs c ->
  (In s (written (run cf o cancel input)) \/ In s (written_l1bs (run cf o cancel input))) ->
  bursts_of s = seeing o input s.
Proof.
  intros cf o lo hi cancel input fs c s R C V G E I.
  apply (run_seeing cf o input lo hi R C V G cancel).
  pose proof (run_ok cf o input cancel) as H. unfold written, written_l1bs in I. rewrite E in *. cbn in *.
  assert (O : OI cf (s_out fs)) by (destruct c; [destruct H as (H & _)|destruct H as (H & _)]; apply (ii_O _ _ _ _ _ _ _ H)).
  apply (subseq_in _ _ (kept_subseq _)).
  destruct I as [I|I]; [now rewrite (oi_l1b _ _ O) in I|].
  rewrite (oi_l1bs _ _ O) in I. destruct (c_l1bs cf); [exact I|destruct I].
Qed.
Print Assumptions C112_products_complete.

(** When it ends by itself every located surface has been dealt with and has all
    its bursts. *)
Theorem C112_every_surface : forall cf o lo hi cancel input fs,
  regular cf o lo hi -> c_N cf + 2 <= c_min cf -> all_valid input -> gapless cf input ->
  run cf o cancel input = OEnd fs false ->
  numbers (map fst (w_done (s_out fs))) = seq 0 (q_count (s_q fs)) /\
  forall s b, In (s, b) (w_done (s_out fs)) ->
    bursts_of s = seeing o input s /\ (b = true <-> c_looks cf / 2 <= length (seeing o input s)).
Proof.
  intros cf o lo hi cancel input fs R C V G E. split; [exact (proj2 (end_drained cf o cancel input fs E))|].
  intros s b I. assert (J : In (s, b) (w_done (s_out (final (run cf o cancel input))))) by (rewrite E; exact I).
  pose proof (C112_stack_complete cf o lo hi cancel input s b R C V G J) as X. split; [exact X|].
  rewrite (decided_iff cf o cancel input s b J), <- X. unfold bursts_of. now rewrite map_length.
Qed.
Print Assumptions C112_every_surface.

(** The error for a missing previous burst cannot occur on such a pass. *)
Theorem C112_no_missing_burst : forall cf o lo hi cancel input fs,
  regular cf o lo hi -> c_N cf + 2 <= c_min cf -> all_valid input -> gapless cf input ->
  run cf o cancel input <> ORaise EPrevBurst fs.
Proof. intros cf o lo hi cancel input fs R C V G. apply (run_full cf o input lo hi R C V G cancel). Qed.
Print Assumptions C112_no_missing_burst.

(** The constants of the code satisfy the condition on the number of surfaces
    located in advance. *)
Example C112_constants : c_N cf80 + 2 <= c_min cf80.
Proof. vm_compute. lia. Qed.

(** Witness: a surface at every burst, seen from the burst before to the burst
    after it. *)
Definition cf6 : cfg := mk_cfg 4 4 6 (3 # 2) false true.
Definition o_reg : oracle :=
  mk_oracle (fun s p => Nat.leb (S s) p && Nat.leb p (S s + 1)) near (fun _ => false) (fun _ => false) (fun _ => false) (fun _ => false).
Lemma o_reg_regular : forall N c l g b1 b2, 3 <= N -> regular (mk_cfg N l c g b1 b2) o_reg pred S.
Proof.
  intros. constructor; cbn; unfold near; intros; lia.
Qed.
Lemma track_last : forall n t x, last_valid_from x (track t n) = match n with O => x | S k => Some (inject_Z (t + Z.of_nat k)) end.
Proof.
  induction n as [|n IH]; intros t x; [reflexivity|].
  unfold track. rewrite seq_S, map_app. fold (track t n). cbn [map plus].
  assert (A : forall l x y, last_valid_from x (l ++ [Valid y]) = Some y).
  { induction l as [|[z| |] l IHl]; intros; cbn; auto. }
  now rewrite A.
Qed.
Lemma track_firstn : forall n t j, j <= n -> firstn j (track t n) = track t j.
Proof.
  intros n t j H. unfold track. rewrite firstn_map. f_equal. replace n with (j + (n - j)) by lia.
  rewrite seq_app, firstn_app, seq_length, Nat.sub_diag. cbn. rewrite app_nil_r.
  rewrite firstn_all2; [reflexivity|rewrite seq_length; lia].
Qed.
Lemma track_gapless : forall N l c b1 b2 t n, gapless (mk_cfg N l c (3 # 2) b1 b2) (track t n).
Proof.
  intros N l c b1 b2 t n j (x & y & H1 & H2 & H3). cbn in H3.
  assert (L : j < n).
  { assert (Z : j < length (track t n)) by (apply nth_error_Some; congruence). unfold track in Z. now rewrite map_length, seq_length in Z. }
  unfold track in H1. rewrite nth_error_map in H1.
  rewrite (nth_error_nth' _ 0) in H1 by (rewrite seq_length; lia). rewrite seq_nth in H1 by lia. cbn in H1. injection H1 as <-.
  rewrite track_firstn in H2 by lia. unfold last_valid in H2. rewrite track_last in H2.
  destruct j as [|k]; [discriminate|]. injection H2 as <-.
  apply H3. unfold Qlt, inject_Z, Qminus, Qplus, Qopp. cbn. lia.
Qed.
Example C112_example :
  regular cf6 o_reg pred S /\ c_N cf6 + 2 <= c_min cf6 /\ all_valid (track 0 8) /\ gapless cf6 (track 0 8)
  /\ ended (run cf6 o_reg no_cancel (track 0 8)) = true
  /\ map bursts_of (written (run cf6 o_reg no_cancel (track 0 8)))
     = [[0; 1]; [0; 1; 2]; [1; 2; 3]; [2; 3; 4]; [3; 4; 5]; [4; 5; 6]; [5; 6; 7]; [6; 7]].
Proof.
  split; [apply o_reg_regular; lia|]. split; [vm_compute; lia|]. split; [apply track_valid|]. split; [apply track_gapless|].
  vm_compute. split; reflexivity.
Qed.

(** Locating surfaces far enough ahead is needed: with three surfaces located in
    advance, bursts that see a surface are missing from its stack. *)
Theorem C112_lookahead_needed :
  ~ (forall cf o lo hi cancel input s b,
      regular cf o lo hi -> 2 <= c_min cf -> all_valid input -> gapless cf input ->
      In (s, b) (w_done (s_out (final (run cf o cancel input)))) ->
      bursts_of s = seeing o input s).
Proof.
  intro H.
  assert (E : exists s b, In (s, b) (w_done (s_out (final (run cf3 o_reg no_cancel (track 0 8))))) /\
     bursts_of s = [3; 4] /\ seeing o_reg (track 0 8) s = [2; 3; 4]).
  { eexists. eexists. split; [vm_compute; right; right; right; left; reflexivity|]. split; vm_compute; reflexivity. }
  destruct E as (s & b & I & E1 & E2).
  assert (R : regular cf3 o_reg pred S) by (apply o_reg_regular; lia).
  assert (C : 2 <= c_min cf3) by (cbn; lia).
  pose proof (H cf3 o_reg pred S no_cancel (track 0 8) s b R C (track_valid _ _) (track_gapless _ _ _ _ _ _ _) I) as X.
  rewrite E1, E2 in X. discriminate.
Qed.
Print Assumptions C112_lookahead_needed.
