(** How often the records of a stack are calibrated. *)
From Coq Require Import List ZArith QArith Reals Bool Lia Arith Lra.
From Verif Require Import Common Cplx GeoModel BeamModel ChainModel ChainSpec ChainAux ChainProofs ChainInv ChainMain ChainEnd ChainFacts ChainProps
  WholeModel WholeSpec WholeChain WholeProofs.
From Verif Require SurfModel DopModel LinModel PointModel DftModel DftProofs.
Import ListNotations.
Local Open Scope nat_scope.

(** * Gaps *)
Lemma after_gap_last : forall gap l b p, (forall k, k < p -> nth_error l k <> Some ReadFail) ->
  after_gap gap b l p =
  match nth_error l p, last_valid_from b (firstn p l) with
  | Some (Valid t), Some t0 => negb (lt_q (t - t0)%Q gap)
  | _, _ => false
  end.
Proof.
  intros gap. induction l as [|i l IH]; intros b p H; [destruct p; reflexivity|].
  assert (H' : forall k, S k < S (pred p) -> k < pred p -> nth_error l k <> Some ReadFail) by (intros k _ L; apply (H (S k)); lia).
  destruct i as [t| |], p as [|p]; cbn [after_gap nth_error firstn last_valid_from]; try reflexivity.
  - apply IH. intros k L. apply (H (S k)). lia.
  - apply IH. intros k L. apply (H (S k)). lia.
  - exfalso. apply (H 0); [lia|reflexivity].
Qed.
Lemma after_gap_is : forall cf items p, (forall k, k < p -> nth_error items k <> Some ReadFail) ->
  after_gap (c_gap cf) None items p = gapb cf items p.
Proof. intros cf items p H. rewrite after_gap_last by exact H. reflexivity. Qed.

(** * No record is used after one that cannot be read *)
Section Clean.
Variables (cf : cfg) (o : oracle) (items : list item).
Definition clean (n : nat) : Prop := forall k, k < n -> nth_error items k <> Some ReadFail.
Definition sound_st (s : st) : Prop := i_rest (s_in s) = skipn (i_n (s_in s)) items /\ clean (i_n (s_in s)).
Lemma skipn_head : forall n (x : item) r, x :: r = skipn n items -> nth_error items n = Some x /\ r = skipn (S n) items.
Proof.
  intros n x r. revert n. induction items as [|y l IH]; intros [|n] E; cbn in E; try discriminate.
  - injection E as -> ->. split; reflexivity.
  - exact (IH n E).
Qed.
Lemma clean_next : forall n x, clean n -> nth_error items n = Some x -> x <> ReadFail -> clean (S n).
Proof.
  intros n x C E N k L. destruct (Nat.eq_dec k n) as [->|D]; [congruence|]. apply C. lia.
Qed.
Definition read_in (r : read_res) : inp := match r with RGo i _ _ => i | RContinue i _ _ => i | RRaise _ i _ _ => i end.
Lemma handle_in : forall i q m, i_n (read_in (handle_packet cf o i q m)) = i_n i /\ i_rest (read_in (handle_packet cf o i q m)) = i_rest i.
Proof.
  intros i q m. unfold handle_packet. destruct (i_cur i) as [p|]; [|split; reflexivity].
  destruct (match i_pt i with None => true | Some t0 => lt_q (p_time p - t0)%Q (c_gap cf) end); [|split; reflexivity].
  destruct (locate o (i_resume i) p q) as [[[|]|] q1]; split; reflexivity.
Qed.
Lemma read_sound : forall s, sound_st s ->
  match read_phase cf o 0 s with
  | RRaise _ i _ _ => clean (pred (i_n i))
  | r => i_rest (read_in r) = skipn (i_n (read_in r)) items /\ clean (i_n (read_in r))
  end.
Proof.
  intros s (R & C).
  assert (K : forall i q m, i_rest i = skipn (i_n i) items -> clean (i_n i) ->
    match handle_packet cf o i q m with
    | RRaise _ i _ _ => clean (pred (i_n i))
    | r => i_rest (read_in r) = skipn (i_n (read_in r)) items /\ clean (i_n (read_in r))
    end).
  { intros i q m R' C'. destruct (handle_in i q m) as (H1 & H2).
    destruct (handle_packet cf o i q m) as [j q' m'|j q' m'|e j q' m']; cbn [read_in] in *.
    - rewrite H1, H2. split; assumption.
    - rewrite H1, H2. split; assumption.
    - rewrite H1. intros k L. apply C'. lia. }
  unfold read_phase. destruct (i_gap (s_in s)); [split; assumption|]. destruct (i_resume (s_in s)); [apply K; assumption|].
  destruct (i_rest (s_in s)) as [|[t| |] r] eqn:E.
  - destruct (i_sp (s_in s)); [apply K; cbn; assumption|]. cbn [i_n]. intros k L. apply C. lia.
  - destruct (skipn_head _ _ _ R) as (N1 & N2). apply K; cbn [i_rest i_n]; [exact N2|]. eapply clean_next; [exact C|exact N1|discriminate].
  - destruct (skipn_head _ _ _ R) as (N1 & N2). apply K; cbn [i_rest i_n]; [exact N2|]. eapply clean_next; [exact C|exact N1|discriminate].
  - cbn [i_n pred]. exact C.
Qed.
Lemma end_sound : forall i q w m, i_rest i = skipn (i_n i) items -> clean (i_n i) ->
  match end_phase i q w m with BRaise _ s => clean (pred (i_n (s_in s))) | r => sound_st (step_st r) end.
Proof.
  intros i q w m R C. unfold end_phase. destruct (q_surfs q); [destruct (i_gap i)|]; split; assumption.
Qed.
Lemma body_sound : forall s, sound_st s ->
  match body cf o 0 s with BRaise _ s => clean (pred (i_n (s_in s))) | r => sound_st (step_st r) end.
Proof.
  intros s S0. pose proof (read_sound s S0) as K. unfold body.
  destruct (read_phase cf o 0 s) as [i q m|i q m|e i q m]; cbn [read_in] in K; [|split; apply K|exact K].
  destruct K as (K1 & K2). destruct (_ || _).
  - destruct (surface_phase cf o q (s_out s)) as [[[e|] q1] w1].
    + cbn [s_in i_n]. intros k L. apply K2. lia.
    + apply end_sound; assumption.
  - apply end_sound; assumption.
Qed.
Lemma loop_sound : forall cancel f k s, sound_st s -> clean (pred (i_n (s_in (final (loop cf o 0 cancel f k s))))).
Proof.
  intros cancel. induction f as [|f IH]; intros k s S0; cbn [loop final].
  - intros j L. apply S0. lia.
  - pose proof (body_sound s S0) as B. destruct (body cf o 0 s) as [s1|s1|e s1]; cbn [step_st] in B.
    + destruct (cancel k); [|apply IH; exact B]. cbn [final]. intros j L. apply B. lia.
    + cbn [final]. intros j L. apply B. lia.
    + exact B.
Qed.
Lemma run_sound : forall cancel, clean (pred (i_n (s_in (final (run cf o cancel items))))).
Proof.
  intros cancel. apply loop_sound. split; [reflexivity|]. intros k L. cbn in L. lia.
Qed.
Lemma calibrations : forall cancel x, let s := final (run cf o cancel items) in
  In x (map a_uid (q_az (s_q s))) ->
  count_occ Nat.eq_dec (m_cals (s_mon s)) x = if after_gap (c_gap cf) None items x then 2 else 1.
Proof.
  intros cancel x s Hx. assert (G : after_gap (c_gap cf) None items x = gapb cf items x).
  { apply after_gap_is. destruct (run_cals cf o items cancel) as (_ & HA). fold s in HA. apply in_map_iff in Hx.
    destruct Hx as (a & <- & Ha). destruct (HA a Ha) as (B & _). intros k L. apply (run_sound cancel). fold s.
    unfold bound in B. destruct (i_gap (s_in s) || i_resume (s_in s)); lia. }
  destruct (C07_calibrated_once_partial cf o cancel items x Hx) as (H1 & H2). rewrite G.
  pose proof (gapb_spec cf items x) as GB. destruct (gapb cf items x).
  - apply H2, GB. reflexivity.
  - apply H1. intros K. apply GB in K. discriminate.
Qed.
End Clean.
