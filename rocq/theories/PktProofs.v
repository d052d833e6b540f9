(** Lemmas for C90 and C91. *)
From Coq Require Import String List ZArith Reals Bool Lra Lia.
From Verif Require Import Common WriterModel SchModel SchSpec SchProofs PktModel PktSpec.
Import ListNotations.
Open Scope string_scope.
Open Scope R_scope.

(** The variables a keyword argument reads. *)
Fixpoint reads (s : asrc) : list string :=
  match s with
  | AVar v => [v]
  | ARad a => reads a
  | AChd _ | AConst _ => []
  | ADelay => ["range_ku_l1a_echo_sar_ku"; "pitch_sat_pointing_l1a_echo_sar_ku"; "cog_cor_l1a_echo_sar_ku"]
  end.
Lemma aeval_reads : forall x l l' s, (forall v, In v (reads s) -> l_var l v = l_var l' v) ->
  aeval x l s = aeval x l' s.
Proof.
  intros x l l'. induction s as [v|a IH|c|z| ]; intros H; cbn [aeval reads] in *.
  - apply H. left. reflexivity.
  - rewrite IH by exact H. reflexivity.
  - reflexivity.
  - reflexivity.
  - unfold win_delay, range_cog, zcog. rewrite !H; [reflexivity|cbn; tauto..].
Qed.
Lemma pointing_unread : forallb (fun kv => (fst kv =? "win_delay_sar_ku")%string ||
  negb (existsb (fun v => memb v pointing) (reads (snd kv)))) attributes = true.
Proof. vm_compute. reflexivity. Qed.

Lemma delay_error : forall x l, a_c x <> 0 ->
  win_delay x l * a_c x / 2 - range_spec (range_of l) (cog_of l) (pitch_of l) =
  (cos (pitch_of l) - cos (pitch_of l * PI / 180)) * cog_of l.
Proof.
  intros x l Hc. unfold win_delay, range_cog, zcog, range_spec, range_of, cog_of, pitch_of. field. exact Hc.
Qed.

Lemma cos_sandwich : forall p, -1 <= p <= 1 -> cos p <= cos (p * PI / 180) <= 1.
Proof.
  intros p Hp. pose proof PI_RGT_0 as P0. pose proof PI_4 as P4.
  pose proof PI2_1 as P2.
  assert (A : forall q, 0 <= q <= 1 -> cos q <= cos (q * PI / 180)).
  { intros q Hq. assert (B : q * PI / 180 <= q) by nra.
    assert (D : 0 <= q * PI / 180) by nra.
    destruct (Rle_lt_or_eq_dec _ _ B) as [L|E]; [|rewrite E; lra].
    left. apply cos_decreasing_1; lra. }
  split; [|apply COS_bound].
  destruct (Rle_dec 0 p) as [L|L]; [apply A; lra|].
  rewrite <- (cos_neg p), <- (cos_neg (p * PI / 180)).
  replace (- (p * PI / 180)) with (- p * PI / 180) by lra. apply A. lra.
Qed.
