(** Proofs for C19. *)
From Coq Require Import List ZArith Lia Reals Lra Bool.
From Coq Require Import ZifyNat ZifyBool.
From Verif Require Import Common WindowModel WindowSpec.
Import ListNotations.
Ltac Zify.zify_post_hook ::= Z.div_mod_to_equations.

Lemma clip_in : forall n k, k <= n -> py_clip n (Z.of_nat k) = k.
Proof. intros n k H. unfold py_clip. destruct (0 <=? Z.of_nat k)%Z eqn:E; lia. Qed.

Lemma start_nat : forall N w, w <= N ->
  (Z.of_nat (N/2) - Z.of_nat (w/2))%Z = Z.of_nat (first_in N w).
Proof. intros. unfold first_in. lia. Qed.

Lemma first_in_bound : forall N w, w <= N -> first_in N w + w <= N.
Proof. intros. unfold first_in. lia. Qed.

(** the window is centred to within one pulse *)
Lemma first_in_centred : forall N w, w <= N ->
  first_in N w = N - (first_in N w + w) \/ first_in N w + 1 = N - (first_in N w + w)
  \/ first_in N w = N - (first_in N w + w) + 1.
Proof. intros. unfold first_in. lia. Qed.

Lemma assign_exact : forall A (l : list A) lo hi vals,
  length vals = hi - lo ->
  assign_slice l lo hi vals = Ok (firstn lo l ++ vals ++ skipn (lo + (hi - lo)) l).
Proof. intros. unfold assign_slice. rewrite H, Nat.eqb_refl. reflexivity. Qed.

Lemma assign_scalar : forall A (l : list A) lo hi v,
  assign_slice l lo hi [v] = Ok (firstn lo l ++ repeat v (hi - lo) ++ skipn (lo + (hi - lo)) l).
Proof.
  intros. unfold assign_slice. cbn [length].
  destruct (Nat.eqb 1 (hi - lo)) eqn:E; auto.
  apply Nat.eqb_eq in E. rewrite <- E. reflexivity.
Qed.

Lemma cos_weights_length : forall cpi a b w, length (cos_weights cpi a b w) = w.
Proof. intros. unfold cos_weights. rewrite map_length, seq_length. reflexivity. Qed.

Lemma firstn_repeat' : forall A (x : A) k n, k <= n -> firstn k (repeat x n) = repeat x k.
Proof. induction k; intros [|n] H; cbn; auto; try lia. f_equal. apply IHk. lia. Qed.
Lemma skipn_repeat' : forall A (x : A) k n, skipn k (repeat x n) = repeat x (n - k).
Proof. induction k; intros [|n]; cbn; auto. Qed.

Definition framed (N w : nat) (vals : list weight) : list weight :=
  repeat (Num 0) (first_in N w) ++ vals ++ repeat (Num 0) (N - (first_in N w + w)).

Lemma window_put : forall N w vals, w <= N -> length vals = w ->
  assign_slice (repeat (Num 0) N)
    (py_clip N (Z.of_nat (N/2) - Z.of_nat (w/2)))
    (py_clip N (Z.of_nat (N/2) - Z.of_nat (w/2) + Z.of_nat w)) vals
  = Ok (framed N w vals).
Proof.
  intros N w vals Hw Hl. pose proof (first_in_bound N w Hw) as Hb.
  rewrite start_nat, <- Nat2Z.inj_add, !clip_in by lia.
  rewrite assign_exact by lia. unfold framed. f_equal.
  rewrite firstn_repeat' by lia. rewrite skipn_repeat'. do 3 f_equal. lia.
Qed.

Lemma window_boxcar : forall cpi N w, w <= N ->
  azimuth_window cpi N Boxcar w = Ok (framed N w (repeat (Num 1) w)).
Proof.
  intros cpi N w Hw. pose proof (first_in_bound N w Hw) as Hb. unfold azimuth_window.
  rewrite assign_scalar. rewrite start_nat, <- Nat2Z.inj_add, !clip_in by lia.
  unfold framed. f_equal.
  rewrite firstn_repeat' by lia. rewrite skipn_repeat'.
  replace (first_in N w + w - first_in N w) with w by lia. reflexivity.
Qed.

Lemma window_hamming : forall cpi N w, w <= N ->
  azimuth_window cpi N Hamming w = Ok (framed N w (cos_weights cpi (5/10) (5/10) w)).
Proof. intros. unfold azimuth_window. apply window_put; auto using cos_weights_length. Qed.
Lemma window_hanning : forall cpi N w, w <= N ->
  azimuth_window cpi N Hanning w = Ok (framed N w (cos_weights cpi (54/100) (46/100) w)).
Proof. intros. unfold azimuth_window. apply window_put; auto using cos_weights_length. Qed.

Lemma framed_length : forall N w vals, w <= N -> length vals = w -> length (framed N w vals) = N.
Proof.
  intros. pose proof (first_in_bound N w H). unfold framed.
  rewrite !app_length, !repeat_length. lia.
Qed.

Lemma framed_outside : forall N w vals i, w <= N -> length vals = w -> i < N ->
  (i < first_in N w \/ first_in N w + w <= i) ->
  nth_error (framed N w vals) i = Some (Num 0).
Proof.
  intros N w vals i Hw Hl Hi Ho. unfold framed.
  assert (R : forall k n, k < n -> nth_error (repeat (Num 0) n) k = Some (Num 0)).
  { clear. induction k; intros [|n] H; cbn; auto; try lia. apply IHk. lia. }
  destruct Ho.
  - rewrite nth_error_app1 by (rewrite repeat_length; lia). apply R; auto.
  - rewrite nth_error_app2 by (rewrite repeat_length; lia). rewrite repeat_length.
    rewrite nth_error_app2 by lia. apply R. pose proof (first_in_bound N w Hw). lia.
Qed.

Lemma framed_inside : forall N w vals k, length vals = w -> k < w ->
  nth_error (framed N w vals) (first_in N w + k) = nth_error vals k.
Proof.
  intros N w vals k Hl Hk. unfold framed.
  rewrite nth_error_app2 by (rewrite repeat_length; lia). rewrite repeat_length.
  replace (first_in N w + k - first_in N w) with k by lia.
  apply nth_error_app1. lia.
Qed.

Lemma cos_weights_at : forall cpi a b w k, k < w ->
  nth_error (cos_weights cpi a b w) k
  = Some (if Nat.eqb w 1 then NaN
          else Num (a - b * cos (2 * cpi * INR k / (INR w - 1)))%R).
Proof.
  intros. unfold cos_weights.
  rewrite nth_error_map.
  replace (nth_error (seq 0 w) k) with (Some k). { reflexivity. }
  symmetry. rewrite nth_error_nth' with (d := 0) by (rewrite seq_length; lia).
  f_equal. rewrite seq_nth by lia. lia.
Qed.

Lemma repeat_at : forall A (x : A) k n, k < n -> nth_error (repeat x n) k = Some x.
Proof. induction k; intros [|n] H; cbn; auto; try lia. apply IHk. lia. Qed.

(** all results of a non-failing call *)
Lemma window_all : forall cpi N sh w l, w <= N -> azimuth_window cpi N sh w = Ok l ->
  length l = N /\
  (sh <> Disabled -> forall i, i < N -> i < first_in N w \/ first_in N w + w <= i ->
     nth_error l i = Some (Num 0)).
Proof.
  intros cpi N sh w l Hw H. destruct sh.
  - cbn in H. inversion H. rewrite repeat_length. split; congruence.
  - rewrite window_boxcar in H by auto. inversion H.
    split; [apply framed_length | intros; apply framed_outside]; rewrite ?repeat_length; auto.
  - rewrite window_hamming in H by auto. inversion H.
    split; [apply framed_length | intros; apply framed_outside]; auto using cos_weights_length.
  - rewrite window_hanning in H by auto. inversion H.
    split; [apply framed_length | intros; apply framed_outside]; auto using cos_weights_length.
  - discriminate.
Qed.

Lemma window_ok : forall cpi N sh w, w <= N -> sh <> Other ->
  exists l, azimuth_window cpi N sh w = Ok l.
Proof.
  intros. destruct sh; [eexists; reflexivity | | | | congruence].
  - rewrite window_boxcar by auto; eauto.
  - rewrite window_hamming by auto; eauto.
  - rewrite window_hanning by auto; eauto.
Qed.

Lemma INR_pred : forall w, 1 <= w -> (INR w - 1 = INR (w - 1))%R.
Proof. intros. rewrite minus_INR by lia. reflexivity. Qed.

Lemma cos_mirror : forall m k, 0 < m -> k <= m ->
  (cos (2 * PI * INR (m - k) / INR m) = cos (2 * PI * INR k / INR m))%R.
Proof.
  intros m k Hm Hk. assert (INR m <> 0)%R by (apply not_0_INR; lia).
  rewrite minus_INR by auto.
  replace (2 * PI * (INR m - INR k) / INR m)%R with (- (2 * PI * INR k / INR m) + 2 * PI)%R
    by (field; auto).
  rewrite cos_plus, cos_2PI, sin_2PI, cos_neg. ring.
Qed.

Lemma windowed_ones : forall (wfm : list (list (R * R))),
  windowed mul_weight (repeat (Num 1) (length wfm)) wfm = Ok (map (map (@Some _)) wfm).
Proof.
  induction wfm as [|r wfm IH]; cbn; auto. rewrite IH. cbn. do 2 f_equal.
  apply map_ext. intros [x y]. cbn. rewrite !Rmult_1_r. reflexivity.
Qed.

Lemma windowed_length : forall A (f : weight -> A -> option A) w wfm,
  (exists r, windowed f w wfm = Ok r) <-> length w = length wfm.
Proof.
  induction w as [|x w IH]; intros [|r wfm]; cbn; split; intros H; try lia; eauto.
  - destruct H; discriminate.
  - destruct H; discriminate.
  - destruct H as [y H]. destruct (windowed f w wfm) eqn:E; cbn in H; [|discriminate].
    f_equal. apply IH. eauto.
  - destruct (proj2 (IH wfm)) as [y E]. { lia. } rewrite E. cbn. eauto.
Qed.
