From Coq Require Import List ZArith Reals Bool Lia Lra Arith.
From Verif Require Import Common Cplx DftModel DftSpec.
Import ListNotations.
Local Open Scope R_scope.

Lemma fftshift_length : forall A (l : list A), length (fftshift l) = length l.
Proof.
  intros. unfold fftshift. rewrite app_length, skipn_length, firstn_length.
  pose proof (Nat.div_le_upper_bound (length l) 2 (length l)). lia.
Qed.
Lemma ifftshift_length : forall A (l : list A), length (ifftshift l) = length l.
Proof.
  intros. unfold ifftshift. rewrite app_length, skipn_length, firstn_length.
  pose proof (Nat.div_le_upper_bound (length l) 2 (length l)). lia.
Qed.

Lemma rot_inv : forall A (l : list A) a, (a <= length l)%nat ->
  let r := skipn a l ++ firstn a l in
  skipn (length l - a) r ++ firstn (length l - a) r = l.
Proof.
  intros A l a Ha. cbv zeta.
  assert (E : length (skipn a l) = (length l - a)%nat) by apply skipn_length.
  rewrite <- E. rewrite skipn_app, firstn_app, Nat.sub_diag.
  rewrite skipn_all, firstn_all. cbn [skipn firstn app]. rewrite app_nil_r.
  apply firstn_skipn.
Qed.

Lemma half_le : forall n, (Nat.div n 2 <= n)%nat.
Proof. intros. apply Nat.div_le_upper_bound; lia. Qed.

Lemma ifftshift_fftshift : forall A (l : list A), ifftshift (fftshift l) = l.
Proof.
  intros. unfold ifftshift. rewrite fftshift_length. unfold fftshift.
  pose proof (half_le (length l)) as H.
  pose proof (rot_inv A l (length l - length l / 2)) as R. cbv zeta in R.
  replace (length l - (length l - length l / 2))%nat with (length l / 2)%nat in R by lia.
  apply R. lia.
Qed.

Lemma fftshift_ifftshift : forall A (l : list A), fftshift (ifftshift l) = l.
Proof.
  intros. unfold fftshift. rewrite ifftshift_length. unfold ifftshift.
  pose proof (half_le (length l)) as H. apply (rot_inv A l (length l / 2)). lia.
Qed.

Lemma nth_firstn_lt : forall A (l : list A) n i d, (i < n)%nat -> nth i (firstn n l) d = nth i l d.
Proof. induction l; intros [|n] [|i] d H; cbn; auto; try lia. apply IHl. lia. Qed.
Lemma nth_skipn_add : forall A (l : list A) n i d, nth i (skipn n l) d = nth (n + i) l d.
Proof. induction l; intros [|n] i d; cbn; auto. destruct i; auto. Qed.

Lemma nth_fftshift : forall A (l : list A) t d, (t < length l)%nat ->
  nth t (fftshift l) d = nth (freq_of (length l) t) l d.
Proof.
  intros A l t d Ht. unfold fftshift, freq_of. set (n := length l) in *.
  pose proof (half_le n) as Hh. set (s := (n / 2)%nat) in *.
  assert (L : length (skipn (n - s) l) = s) by (rewrite skipn_length; fold n; lia).
  destruct (Nat.lt_ge_cases t s).
  - rewrite app_nth1 by lia. rewrite nth_skipn_add. f_equal. rewrite Nat.mod_small; lia.
  - rewrite app_nth2 by lia. rewrite L. rewrite nth_firstn_lt by lia. f_equal.
    replace (t + (n - s))%nat with (t - s + 1 * n)%nat by lia.
    rewrite Nat.mod_add by lia. rewrite Nat.mod_small; lia.
Qed.

Lemma nth_ifftshift : forall A (l : list A) f d, (f < length l)%nat ->
  nth f (ifftshift l) d = nth (Nat.modulo (f + length l / 2) (length l)) l d.
Proof.
  intros A l f d Hf. unfold ifftshift. set (n := length l) in *.
  pose proof (half_le n) as Hh. set (s := (n / 2)%nat) in *.
  assert (L : length (skipn s l) = (n - s)%nat) by (rewrite skipn_length; reflexivity).
  destruct (Nat.lt_ge_cases f (n - s)).
  - rewrite app_nth1 by lia. rewrite nth_skipn_add. f_equal. rewrite Nat.mod_small; lia.
  - rewrite app_nth2 by lia. rewrite L. rewrite nth_firstn_lt by lia. f_equal.
    replace (f + s)%nat with (f - (n - s) + 1 * n)%nat by lia.
    rewrite Nat.mod_add by lia. rewrite Nat.mod_small; lia.
Qed.

Lemma freq_of_lt : forall n t, (0 < n)%nat -> (freq_of n t < n)%nat.
Proof. intros. unfold freq_of. apply Nat.mod_upper_bound. lia. Qed.

Lemma freq_of_inv : forall n f, (f < n)%nat -> freq_of n (Nat.modulo (f + n / 2) n) = f.
Proof.
  intros n f Hf. unfold freq_of. rewrite Nat.add_mod_idemp_l by lia.
  pose proof (half_le n). replace (f + n / 2 + (n - n / 2))%nat with (f + 1 * n)%nat by lia.
  rewrite Nat.mod_add by lia. apply Nat.mod_small. lia.
Qed.
Lemma freq_of_inv' : forall n t, (t < n)%nat -> Nat.modulo (freq_of n t + n / 2) n = t.
Proof.
  intros n f Hf. unfold freq_of. rewrite Nat.add_mod_idemp_l by lia.
  pose proof (half_le n). replace (f + (n - n / 2) + n / 2)%nat with (f + 1 * n)%nat by lia.
  rewrite Nat.mod_add by lia. apply Nat.mod_small. lia.
Qed.

Lemma nth_map_seq : forall A (f : nat -> A) n i d, (i < n)%nat -> nth i (map f (seq 0 n)) d = f i.
Proof.
  intros. rewrite nth_indep with (d' := f 0%nat) by (rewrite map_length, seq_length; auto).
  rewrite map_nth, seq_nth; auto.
Qed.
Lemma np_fft_length : forall n row, length (np_fft n row) = n.
Proof. intros. unfold np_fft. rewrite map_length, seq_length. auto. Qed.
Lemma np_ifft_length : forall n row, length (np_ifft n row) = n.
Proof. intros. unfold np_ifft. rewrite map_length, seq_length. auto. Qed.
Lemma nth_np_fft : forall n row k d, (k < n)%nat -> nth k (np_fft n row) d = spectrum n row k.
Proof. intros. unfold np_fft. rewrite nth_map_seq; auto. Qed.

Lemma zip2_length : forall A B D (f : A -> B -> D) a b,
  length (zip2 f a b) = Nat.min (length a) (length b).
Proof. induction a; destruct b; cbn; auto. Qed.
Lemma nth_zip2 : forall A B D (f : A -> B -> D) a b i da db dd,
  (i < length a)%nat -> (i < length b)%nat -> nth i (zip2 f a b) dd = f (nth i a da) (nth i b db).
Proof.
  induction a; destruct b; cbn; intros; try lia. destruct i; auto. apply IHa; lia.
Qed.

Lemma list_ext : forall A (a b : list A) d, length a = length b ->
  (forall i, (i < length a)%nat -> nth i a d = nth i b d) -> a = b.
Proof. intros. eapply nth_ext; eauto. Qed.

(** The spectrum of the inverse transform. *)
Lemma spectrum_ifft : forall n X f, (f < n)%nat -> spectrum n (np_ifft n X) f = nth f X C0.
Proof.
  intros n X f Hf. unfold spectrum.
  assert (Hn : INR n <> 0) by (apply not_0_INR; lia).
  rewrite (dft_ext n _ (fun j => Cscal (/ INR n) (idft n (fun k => nth k X C0) j))).
  - rewrite dft_scal, dft_idft, Cscal_scal by auto.
    rewrite Rinv_l by auto. apply Cscal_1.
  - intros j Hj. unfold np_ifft. rewrite nth_map_seq; auto.
Qed.

Lemma ifft_fft : forall n row, length row = n -> np_ifft n (np_fft n row) = row.
Proof.
  intros n row H. apply list_ext with (d := C0).
  - rewrite np_ifft_length. auto.
  - rewrite np_ifft_length. intros i Hi.
    assert (Hn : INR n <> 0) by (apply not_0_INR; lia).
    unfold np_ifft. rewrite nth_map_seq by auto.
    rewrite (idft_ext n _ (dft n (fun j => nth j row C0))).
    + rewrite idft_dft, Cscal_scal, Rinv_l by auto. apply Cscal_1.
    + intros k Hk. apply nth_np_fft. auto.
Qed.

Lemma cal2_row_spectrum : forall n table row f, length table = n -> (f < n)%nat ->
  spectrum n (cal2_row n table row) f
  = Cscal (/ sqrt (nth (Nat.modulo (f + n / 2) n) table 0)) (spectrum n row f).
Proof.
  intros n table row f Ht Hf. unfold cal2_row. rewrite spectrum_ifft by auto.
  set (c := zip2 (fun z t => Cscal (/ sqrt t) z) (fftshift (np_fft n row)) table).
  assert (Lc : length c = n).
  { unfold c. rewrite zip2_length, fftshift_length, np_fft_length. lia. }
  rewrite nth_ifftshift by lia. rewrite Lc.
  assert (Hm : (Nat.modulo (f + n / 2) n < n)%nat) by (apply Nat.mod_upper_bound; lia).
  unfold c. rewrite nth_zip2 with (da := C0) (db := 0);
    [|rewrite fftshift_length, np_fft_length; auto|lia].
  f_equal. rewrite nth_fftshift by (rewrite np_fft_length; auto).
  rewrite np_fft_length, freq_of_inv by auto. apply nth_np_fft. auto.
Qed.

Lemma cal2_row_ones : forall n row, length row = n -> cal2_row n (repeat 1 n) row = row.
Proof.
  intros n row H. unfold cal2_row.
  replace (zip2 (fun z t => Cscal (/ sqrt t) z) (fftshift (np_fft n row)) (repeat 1 n))
    with (fftshift (np_fft n row)).
  - rewrite ifftshift_fftshift. apply ifft_fft. auto.
  - apply list_ext with (d := C0).
    + rewrite zip2_length, fftshift_length, np_fft_length, repeat_length. lia.
    + rewrite fftshift_length, np_fft_length. intros i Hi.
      rewrite nth_zip2 with (da := C0) (db := 1);
        [|rewrite fftshift_length, np_fft_length; auto|rewrite repeat_length; auto].
      rewrite nth_repeat. rewrite sqrt_1, Rinv_1, Cscal_1. auto.
Qed.

Lemma positive_true : forall x, positive x = true <-> 0 < x.
Proof. intros. unfold positive. destruct (Rlt_dec 0 x); split; auto; discriminate. Qed.
Lemma nonnegative_true : forall x, nonnegative x = true <-> 0 <= x.
Proof. intros. unfold nonnegative. destruct (Rle_dec 0 x); split; auto; discriminate. Qed.
Lemma forallb_positive : forall l, forallb positive l = true <-> Forall (fun t => 0 < t) l.
Proof.
  intros. rewrite forallb_forall, Forall_forall. split; intros H x Hx; apply positive_true; auto.
Qed.
Lemma forallb_nonnegative : forall l, forallb nonnegative l = true <-> Forall (fun t => 0 <= t) l.
Proof.
  intros. rewrite forallb_forall, Forall_forall. split; intros H x Hx; apply nonnegative_true; auto.
Qed.

(** energy *)
Lemma energy_app : forall a b, energy (a ++ b) = energy a + energy b.
Proof. induction a; cbn; intros. - ring. - rewrite IHa. ring. Qed.
Lemma energy_rot : forall n l, energy (skipn n l ++ firstn n l) = energy l.
Proof.
  intros. rewrite energy_app. rewrite <- (firstn_skipn n l) at 3. rewrite energy_app. ring.
Qed.
Lemma energy_fftshift : forall l, energy (fftshift l) = energy l.
Proof. intros. apply energy_rot. Qed.
Lemma energy_snoc : forall l z, energy (l ++ [z]) = energy l + Cnorm2 z.
Proof. intros. rewrite energy_app. unfold Cnorm2. cbn. ring. Qed.
Lemma energy_map_seq : forall f n, energy (map f (seq 0 n)) = rsum (fun k => Cnorm2 (f k)) n.
Proof.
  induction n; cbn [rsum]. - reflexivity.
  - rewrite seq_S, map_app. cbn [map]. rewrite energy_snoc, IHn. reflexivity.
Qed.
Lemma list_as_seq : forall (l : list C) n, (length l <= n)%nat ->
  energy l = rsum (fun k => Cnorm2 (nth k l C0)) n.
Proof.
  intros l n H. rewrite <- energy_map_seq.
  assert (E : map (fun k => nth k l C0) (seq 0 n) = l ++ repeat C0 (n - length l)).
  { apply list_ext with (d := C0).
    - rewrite map_length, seq_length, app_length, repeat_length. lia.
    - rewrite map_length, seq_length. intros i Hi. rewrite nth_map_seq by auto.
      destruct (Nat.lt_ge_cases i (length l)).
      + rewrite app_nth1; auto.
      + rewrite app_nth2 by auto. rewrite nth_repeat. rewrite nth_overflow; auto. }
  rewrite E, energy_app.
  assert (Z : forall m, energy (repeat C0 m) = 0).
  { induction m; cbn; auto. rewrite IHm. ring. }
  rewrite Z. ring.
Qed.

Lemma range_row_energy : forall p beam, (0 < p)%nat -> (length beam <= p)%nat ->
  energy (range_row p beam) = energy beam.
Proof.
  intros p beam Hp Hl. unfold range_row. rewrite energy_fftshift. unfold np_fft. rewrite map_map.
  assert (Hn : 0 < INR p) by (apply lt_0_INR; lia).
  assert (Hs : 0 < sqrt (INR p)) by (apply sqrt_lt_R0; auto).
  rewrite energy_map_seq.
  rewrite (rsum_ext _ (fun k => / INR p * Cnorm2 (dft p (fun j => nth j beam C0) k))).
  - rewrite rsum_scal, parseval. rewrite <- list_as_seq by auto. field. lra.
  - intros k _. unfold Cnorm2, Cscal. cbn.
    set (u := fst (dft p (fun j => nth j beam C0) k)).
    set (v := snd (dft p (fun j => nth j beam C0) k)).
    replace (/ INR p) with (/ sqrt (INR p) * / sqrt (INR p)).
    + ring.
    + rewrite <- Rinv_mult. rewrite sqrt_def by lra. auto.
Qed.

Lemma range_row_length : forall p beam, length (range_row p beam) = p.
Proof. intros. unfold range_row. rewrite fftshift_length, map_length, np_fft_length. auto. Qed.

Lemma range_row_sample : forall p beam m, (m < p)%nat ->
  nth m (range_row p beam) C0 = Cscal (/ sqrt (INR p)) (spectrum p beam (freq_of p m)).
Proof.
  intros p beam m Hm. unfold range_row.
  rewrite nth_fftshift by (rewrite map_length, np_fft_length; auto).
  rewrite map_length, np_fft_length.
  assert (Hf : (freq_of p m < p)%nat) by (apply freq_of_lt; lia).
  rewrite nth_indep with (d' := Cscal (/ sqrt (INR p)) C0)
    by (rewrite map_length, np_fft_length; auto).
  rewrite map_nth. f_equal. apply nth_np_fft. auto.
Qed.

Lemma power_row_nth : forall row m, (m < length row)%nat ->
  nth m (power_row row) 0 = Cnorm2 (nth m row C0).
Proof.
  intros row m Hm. unfold power_row.
  rewrite nth_indep with (d' := Rsqr (sqrt (Cnorm2 C0))) by (rewrite map_length; auto).
  rewrite (map_nth (fun z => Rsqr (sqrt (Cnorm2 z)))). apply Rsqr_sqrt, Cnorm2_nonneg.
Qed.
Lemma power_row_total : forall row, total (power_row row) = energy row.
Proof.
  induction row; cbn; auto. rewrite Rsqr_sqrt by apply Cnorm2_nonneg.
  unfold power_row in IHrow. rewrite IHrow. unfold Cnorm2. ring.
Qed.
