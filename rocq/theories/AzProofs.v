From Coq Require Import List ZArith Reals Bool Lia Lra Arith.
From Verif Require Import Common Cplx BeamModel BeamSpec BeamProofs DftModel DftSpec DftProofs AzModel.
Import ListNotations.
Local Open Scope R_scope.

Lemma phase_shift_length : forall r a wfm p, length (phase_shift_from r a p wfm) = length wfm.
Proof. induction wfm; cbn; intros; auto. Qed.

Lemma phase_shift_nth : forall r a wfm p0 p, (p < length wfm)%nat ->
  nth p (phase_shift_from r a p0 wfm) [] = map (Cmul (cis (steer_phase r a (p0 + p)))) (nth p wfm []).
Proof.
  induction wfm; intros p0 p Hp; cbn in Hp; [lia|]. destruct p; cbn [phase_shift_from nth].
  - rewrite Nat.add_0_r. auto.
  - rewrite IHwfm by lia. replace (S p0 + p)%nat with (p0 + S p)%nat by lia. reflexivity.
Qed.

Lemma nth_map_Cmul : forall c l s, nth s (map (Cmul c) l) C0 = Cmul c (nth s l C0).
Proof.
  intros. transitivity (nth s (map (Cmul c) l) (Cmul c C0)).
  - f_equal. ring.
  - apply map_nth.
Qed.

Lemma az_fft_length : forall ns wfm, length (az_fft ns wfm) = length wfm.
Proof. intros. unfold az_fft. rewrite fftshift_length, map_length, seq_length. auto. Qed.

Lemma az_fft_row : forall ns wfm k, (k < length wfm)%nat ->
  nth k (az_fft ns wfm) [] =
  map (fun s => Cscal (/ sqrt (INR (length wfm)))
                  (dft (length wfm) (fun p => nth s (nth p wfm []) C0) (freq_of (length wfm) k)))
      (seq 0 ns).
Proof.
  intros ns wfm k Hk. unfold az_fft.
  rewrite nth_fftshift by (rewrite map_length, seq_length; auto).
  rewrite map_length, seq_length. rewrite nth_map_seq by (apply freq_of_lt; lia). auto.
Qed.

Lemma freq_of_half : forall n, (0 < n)%nat -> freq_of n (n / 2) = 0%nat.
Proof.
  intros n Hn. unfold freq_of. pose proof (half_le n).
  replace (n / 2 + (n - n / 2))%nat with n by lia. apply Nat.mod_same. lia.
Qed.

(** sample s of row k of the steered transform *)
Lemma steered_sample : forall r a ns wfm k s, (k < length wfm)%nat -> (s < ns)%nat ->
  nth s (nth k (az_fft ns (phase_shift r a wfm)) []) C0
  = Cscal (/ sqrt (INR (length wfm)))
      (csum (fun p => Cmul (cis (steer_phase r a p
                                 - 2 * PI * INR p * INR (freq_of (length wfm) k) / INR (length wfm)))
                           (nth s (nth p wfm []) C0)) (length wfm)).
Proof.
  intros r a ns wfm k s Hk Hs. unfold phase_shift.
  rewrite az_fft_row by (rewrite phase_shift_length; auto).
  rewrite nth_map_seq by auto. rewrite phase_shift_length. f_equal. unfold dft.
  apply csum_ext. intros p Hp. rewrite phase_shift_nth by auto. rewrite nth_map_Cmul.
  cbn [Nat.add]. unfold Rminus. rewrite cis_add. ring.
Qed.

Lemma nth_error_nth' : forall A (l : list A) i d a, nth_error l i = Some a -> nth i l d = a.
Proof. intros. apply nth_error_nth with (d := d) in H. auto. Qed.
