(** C74: the factor in power units. *)
From Coq Require Import List Reals Lra Lia Arith.
From Verif Require Import GcorrModel GcorrProps.
Import ListNotations.
Open Scope R_scope.

Lemma ten_log10 : forall x, 0 < x -> Rpower 10 (log10 x) = x.
Proof.
  intros x H. unfold Rpower, log10. replace (ln x / ln 10 * ln 10) with (ln x).
  - apply exp_ln. exact H.
  - field. assert (0 < ln 10); [rewrite <- ln_1; apply ln_increasing; lra|lra].
Qed.
(** Read as decibels, the factor is the power ratio of the radar equation,
    with gains and corrections in decibels as factors. *)
Theorem C74_power : forall q agc rng speed pri,
  0 < q_pi q -> 0 < q_ptx q -> 0 < q_lam q -> (0 < q_np q)%nat -> 0 < rng ->
  0 < surface_area q rng speed pri ->
  Rpower 10 (sigma0_beam q agc rng speed pri / 10)
  = q_ptx q * (q_lam q * q_lam q) * surface_area q rng speed pri
    / (64 * (q_pi q * q_pi q * q_pi q) * (rng * rng * (rng * rng)) * INR (q_np q))
    * Rpower 10 ((2 * q_gain q - q_trc q + agc) / 10).
Proof.
  intros q agc rng speed pri H1 H2 H3 H4 H5 H6. rewrite C74_radar_equation by assumption.
  assert (Hn : 0 < INR (q_np q)) by (apply lt_0_INR; lia).
  set (A := q_ptx q * (q_lam q * q_lam q) * surface_area q rng speed pri).
  set (B := 64 * (q_pi q * q_pi q * q_pi q) * (rng * rng * (rng * rng)) * INR (q_np q)).
  assert (PA : 0 < A) by (unfold A; apply Rmult_lt_0_compat; [apply Rmult_lt_0_compat; [|apply Rmult_lt_0_compat]|]; assumption).
  assert (PB : 0 < B) by (unfold B; apply Rmult_lt_0_compat; [|exact Hn]; apply Rmult_lt_0_compat; repeat apply Rmult_lt_0_compat; first [assumption | lra]).
  replace ((10 * log10 A - 10 * log10 B + 2 * q_gain q - q_trc q + agc) / 10)
    with (log10 A + - log10 B + (2 * q_gain q - q_trc q + agc) / 10) by field.
  rewrite !Rpower_plus, Rpower_Ropp, (ten_log10 A PA), (ten_log10 B PB). reflexivity.
Qed.
Print Assumptions C74_power.
Example C74_power_example : Rpower 10 (log10 64) = 64 /\ 0 < surface_area ex_q 1 1 1.
Proof. split; [apply ten_log10; lra|apply C74_ex]. Qed.
