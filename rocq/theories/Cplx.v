(** Complex numbers as pairs of reals, finite sums, and the discrete Fourier
    transform.  Mathematics only, no repository code. *)
From Coq Require Import List Reals Lra Lia Arith Bool.
Import ListNotations.
Local Open Scope R_scope.

Definition C : Type := (R * R)%type.
Definition C0 : C := (0, 0).
Definition C1 : C := (1, 0).
Definition Cadd (a b : C) : C := (fst a + fst b, snd a + snd b).
Definition Copp (a : C) : C := (- fst a, - snd a).
Definition Csub (a b : C) : C := (fst a - fst b, snd a - snd b).
Definition Cmul (a b : C) : C := (fst a * fst b - snd a * snd b, fst a * snd b + snd a * fst b).
Definition Cscal (r : R) (a : C) : C := (r * fst a, r * snd a).
Definition Cconj (a : C) : C := (fst a, - snd a).
(** squared modulus *)
Definition Cnorm2 (a : C) : R := fst a * fst a + snd a * snd a.
(** cos x + i sin x *)
Definition cis (x : R) : C := (cos x, sin x).

Lemma C_eq : forall a b : C, fst a = fst b -> snd a = snd b -> a = b.
Proof. intros [a1 a2] [b1 b2]; cbn; congruence. Qed.

Lemma C_ring : ring_theory C0 C1 Cadd Cmul Csub Copp (@eq C).
Proof.
  constructor; intros; apply C_eq; cbn; ring.
Qed.
Add Ring Cring : C_ring.

Lemma Cscal_mul : forall r a, Cscal r a = Cmul (r, 0) a.
Proof. intros. apply C_eq; cbn; ring. Qed.
Lemma Cscal_1 : forall a, Cscal 1 a = a.
Proof. intros. apply C_eq; cbn; ring. Qed.
Lemma Cscal_scal : forall r s a, Cscal r (Cscal s a) = Cscal (r * s) a.
Proof. intros. apply C_eq; cbn; ring. Qed.

Lemma Cnorm2_mul : forall a b, Cnorm2 (Cmul a b) = Cnorm2 a * Cnorm2 b.
Proof. intros. unfold Cnorm2, Cmul. cbn. ring. Qed.
Lemma Cnorm2_zero : forall a, Cnorm2 a = 0 -> a = C0.
Proof.
  intros [x y] H. unfold Cnorm2 in H. cbn in H. apply C_eq; cbn; nra.
Qed.
Lemma Cnorm2_nonneg : forall a, 0 <= Cnorm2 a.
Proof. intros [x y]. unfold Cnorm2. cbn. nra. Qed.
Lemma Cmul_integral : forall a b, Cmul a b = C0 -> a = C0 \/ b = C0.
Proof.
  intros a b H. assert (E : Cnorm2 a * Cnorm2 b = 0).
  { rewrite <- Cnorm2_mul, H. unfold Cnorm2; cbn; ring. }
  apply Rmult_integral in E. destruct E; [left|right]; apply Cnorm2_zero; auto.
Qed.

Lemma cis_0 : cis 0 = C1.
Proof. unfold cis. rewrite cos_0, sin_0. reflexivity. Qed.
Lemma cis_add : forall x y, cis (x + y) = Cmul (cis x) (cis y).
Proof. intros. unfold cis, Cmul. cbn. rewrite cos_plus, sin_plus. apply C_eq; cbn; ring. Qed.
Lemma cis_norm : forall x, Cnorm2 (cis x) = 1.
Proof. intros. unfold Cnorm2, cis. cbn. pose proof (sin2_cos2 x). unfold Rsqr in *. lra. Qed.
Lemma cis_neg : forall x, cis (- x) = Cconj (cis x).
Proof. intros. unfold cis, Cconj. cbn. rewrite cos_neg, sin_neg. reflexivity. Qed.
Lemma cis_2PI_n : forall n : nat, cis (2 * PI * INR n) = C1.
Proof.
  induction n as [|n IH].
  - cbn. rewrite Rmult_0_r. apply cis_0.
  - rewrite S_INR. replace (2 * PI * (INR n + 1)) with (2 * PI * INR n + 2 * PI) by ring.
    rewrite cis_add, IH. unfold cis. rewrite cos_2PI, sin_2PI. apply C_eq; cbn; ring.
Qed.

(** finite sums *)
Fixpoint csum (f : nat -> C) (n : nat) : C :=
  match n with
  | O => C0
  | S m => Cadd (csum f m) (f m)
  end.
Fixpoint rsum (f : nat -> R) (n : nat) : R :=
  match n with
  | O => 0
  | S m => rsum f m + f m
  end.

Lemma csum_ext : forall f g n, (forall k, (k < n)%nat -> f k = g k) -> csum f n = csum g n.
Proof. induction n; cbn; intros; auto. rewrite IHn, H; auto. Qed.
Lemma rsum_ext : forall f g n, (forall k, (k < n)%nat -> f k = g k) -> rsum f n = rsum g n.
Proof. induction n; cbn; intros; auto. rewrite IHn, H; auto. Qed.
Lemma csum_zero : forall n, csum (fun _ => C0) n = C0.
Proof. induction n; cbn; auto. rewrite IHn. ring. Qed.
Lemma csum_mul_l : forall c f n, csum (fun k => Cmul c (f k)) n = Cmul c (csum f n).
Proof. induction n; cbn [csum]. - ring. - rewrite IHn. ring. Qed.
Lemma csum_mul_r : forall c f n, csum (fun k => Cmul (f k) c) n = Cmul (csum f n) c.
Proof. induction n; cbn [csum]. - ring. - rewrite IHn. ring. Qed.
Lemma csum_add : forall f g n, csum (fun k => Cadd (f k) (g k)) n = Cadd (csum f n) (csum g n).
Proof. induction n; cbn [csum]. - ring. - rewrite IHn. ring. Qed.
Lemma csum_swap : forall f n m,
  csum (fun i => csum (fun j => f i j) m) n = csum (fun j => csum (fun i => f i j) n) m.
Proof.
  induction n; intros m; cbn [csum].
  - rewrite csum_zero. auto.
  - rewrite IHn, <- csum_add. reflexivity.
Qed.
Lemma csum_const1 : forall n, csum (fun _ => C1) n = (INR n, 0).
Proof.
  induction n; cbn [csum]. - reflexivity.
  - rewrite IHn, S_INR. apply C_eq; cbn; ring.
Qed.
(** a sum with a single non-zero term *)
Lemma csum_single : forall f n k, (k < n)%nat -> (forall j, (j < n)%nat -> j <> k -> f j = C0) ->
  csum f n = f k.
Proof.
  induction n as [|n IH]; intros k Hk Hz; [lia|]. cbn [csum].
  destruct (Nat.eq_dec k n) as [->|].
  - rewrite (csum_ext f (fun _ => C0)), csum_zero. { ring. }
    intros j Hj. apply Hz; lia.
  - rewrite (IH k); [|lia|intros; apply Hz; lia]. rewrite (Hz n); [|lia|lia]. ring.
Qed.
Lemma csum_fst : forall f n, fst (csum f n) = rsum (fun k => fst (f k)) n.
Proof. induction n; cbn; auto. rewrite IHn. auto. Qed.
Lemma rsum_scal : forall c f n, rsum (fun k => c * f k) n = c * rsum f n.
Proof. induction n; cbn. - ring. - rewrite IHn. ring. Qed.
Lemma csum_conj : forall f n, Cconj (csum f n) = csum (fun k => Cconj (f k)) n.
Proof. induction n; cbn [csum]. - apply C_eq; cbn; ring. - rewrite <- IHn. apply C_eq; cbn; ring. Qed.

(** Powers of the n-th root of unity add up to zero. *)
Lemma cis_geometric : forall t n,
  Cmul (csum (fun k => cis (t * INR k)) n) (Csub C1 (cis t)) = Csub C1 (cis (t * INR n)).
Proof.
  induction n as [|n IH].
  - cbn [csum INR]. rewrite Rmult_0_r, cis_0. ring.
  - cbn [csum]. replace (Cmul (Cadd (csum (fun k => cis (t * INR k)) n) (cis (t * INR n))) (Csub C1 (cis t)))
      with (Cadd (Cmul (csum (fun k => cis (t * INR k)) n) (Csub C1 (cis t)))
                 (Cmul (cis (t * INR n)) (Csub C1 (cis t)))) by ring.
    rewrite IH. rewrite S_INR.
    replace (t * (INR n + 1)) with (t * INR n + t) by ring. rewrite cis_add. ring.
Qed.

Lemma cis_not_one : forall x, 0 < x < 2 * PI -> cis x <> C1.
Proof.
  intros x [H1 H2] E. assert (Hc : cos x = 1) by (apply (f_equal fst) in E; exact E).
  replace x with (2 * (x / 2)) in Hc by field. rewrite cos_2a_sin in Hc.
  assert (sin (x / 2) = 0) by nra.
  assert (0 < sin (x / 2)) by (apply sin_gt_0; lra). lra.
Qed.

Lemma root_sum : forall n d, (0 < d < n)%nat ->
  csum (fun k => cis (2 * PI * INR d / INR n * INR k)) n = C0.
Proof.
  intros n d Hd. assert (Hn : INR n <> 0) by (apply not_0_INR; lia).
  assert (Hnp : 0 < INR n) by (apply lt_0_INR; lia).
  assert (Hdp : 0 < INR d) by (apply lt_0_INR; lia).
  assert (Hdn : INR d < INR n) by (apply lt_INR; lia).
  pose proof (cis_geometric (2 * PI * INR d / INR n) n) as G.
  replace (2 * PI * INR d / INR n * INR n) with (2 * PI * INR d) in G by (field; auto).
  rewrite cis_2PI_n in G. replace (Csub C1 C1) with C0 in G by ring.
  apply Cmul_integral in G. destruct G as [G|G]; auto. exfalso.
  apply (cis_not_one (2 * PI * INR d / INR n)).
  - pose proof PI_RGT_0. split.
    + apply Rmult_lt_0_compat; [nra|]. apply Rinv_0_lt_compat; auto.
    + apply Rmult_lt_reg_r with (INR n); auto.
      replace (2 * PI * INR d / INR n * INR n) with (2 * PI * INR d) by (field; auto). nra.
  - apply C_eq; [apply (f_equal fst) in G | apply (f_equal snd) in G]; cbn in *; lra.
Qed.

(** orthogonality of the characters *)
Lemma root_orth : forall n a b, (a < n)%nat -> (b < n)%nat ->
  csum (fun k => Cmul (cis (- (2 * PI * INR a * INR k / INR n))) (cis (2 * PI * INR b * INR k / INR n))) n
  = if Nat.eqb a b then (INR n, 0) else C0.
Proof.
  intros n a b Ha Hb. assert (Hn : INR n <> 0) by (apply not_0_INR; lia).
  destruct (Nat.eqb_spec a b) as [->|Hne].
  - rewrite <- csum_const1. apply csum_ext. intros k _. rewrite <- cis_add.
    replace (- (2 * PI * INR b * INR k / INR n) + 2 * PI * INR b * INR k / INR n) with 0 by ring.
    apply cis_0.
  - destruct (le_lt_dec a b) as [L|L].
    + rewrite <- (root_sum n (b - a)) by lia. apply csum_ext. intros k _. rewrite <- cis_add.
      rewrite minus_INR by lia. f_equal. field. auto.
    + transitivity (Cconj (csum (fun k => cis (2 * PI * INR (a - b) / INR n * INR k)) n)).
      * rewrite csum_conj. apply csum_ext. intros k _. rewrite <- cis_add, <- cis_neg.
        rewrite minus_INR by lia. f_equal. field. auto.
      * rewrite root_sum by lia. apply C_eq; cbn; ring.
Qed.

(** The transform of a sequence of length [n] and its inverse, before scaling. *)
Definition dft (n : nat) (x : nat -> C) (k : nat) : C :=
  csum (fun j => Cmul (x j) (cis (- (2 * PI * INR j * INR k / INR n)))) n.
Definition idft (n : nat) (X : nat -> C) (j : nat) : C :=
  csum (fun k => Cmul (X k) (cis (2 * PI * INR j * INR k / INR n))) n.

Lemma idft_dft : forall n x j, (j < n)%nat -> idft n (dft n x) j = Cscal (INR n) (x j).
Proof.
  intros n x j Hj. unfold idft, dft.
  transitivity (csum (fun k => csum (fun i => Cmul (x i)
     (Cmul (cis (- (2 * PI * INR i * INR k / INR n))) (cis (2 * PI * INR j * INR k / INR n)))) n) n).
  { apply csum_ext. intros k _. rewrite <- csum_mul_r. apply csum_ext. intros i _. ring. }
  rewrite csum_swap.
  transitivity (csum (fun i => Cmul (x i) (if Nat.eqb i j then (INR n, 0) else C0)) n).
  { apply csum_ext. intros i Hi. rewrite csum_mul_l. f_equal. apply root_orth; auto. }
  rewrite (csum_single _ n j); auto.
  - rewrite Nat.eqb_refl, Cscal_mul. ring.
  - intros i Hi Hne. destruct (Nat.eqb_spec i j); [congruence|]. ring.
Qed.

Lemma dft_idft : forall n X k, (k < n)%nat -> dft n (idft n X) k = Cscal (INR n) (X k).
Proof.
  intros n X k Hk. unfold idft, dft.
  transitivity (csum (fun j => csum (fun i => Cmul (X i)
     (Cmul (cis (- (2 * PI * INR k * INR j / INR n))) (cis (2 * PI * INR i * INR j / INR n)))) n) n).
  { apply csum_ext. intros j _. rewrite <- csum_mul_r. apply csum_ext. intros i _.
    replace (2 * PI * INR k * INR j / INR n) with (2 * PI * INR j * INR k / INR n) by (unfold Rdiv; ring).
    replace (2 * PI * INR i * INR j / INR n) with (2 * PI * INR j * INR i / INR n) by (unfold Rdiv; ring).
    ring. }
  rewrite csum_swap.
  transitivity (csum (fun i => Cmul (X i) (if Nat.eqb k i then (INR n, 0) else C0)) n).
  { apply csum_ext. intros i Hi. rewrite csum_mul_l. f_equal. apply root_orth; auto. }
  rewrite (csum_single _ n k); auto.
  - rewrite Nat.eqb_refl, Cscal_mul. ring.
  - intros i Hi Hne. destruct (Nat.eqb_spec k i); [congruence|]. ring.
Qed.

(** Parseval *)
Lemma Cnorm2_conj : forall a, (Cnorm2 a, 0) = Cmul a (Cconj a).
Proof. intros. unfold Cnorm2. apply C_eq; cbn; ring. Qed.

Lemma parseval : forall n x,
  rsum (fun k => Cnorm2 (dft n x k)) n = INR n * rsum (fun j => Cnorm2 (x j)) n.
Proof.
  intros n x.
  assert (E : csum (fun k => Cmul (dft n x k) (Cconj (dft n x k))) n
            = Cscal (INR n) (csum (fun j => Cmul (x j) (Cconj (x j))) n)).
  { transitivity (csum (fun k => csum (fun i => Cmul (Cconj (x i))
       (Cmul (dft n x k) (cis (2 * PI * INR i * INR k / INR n)))) n) n).
    { apply csum_ext. intros k _. unfold dft at 2. rewrite csum_conj, <- csum_mul_l.
      apply csum_ext. intros i _.
      replace (cis (2 * PI * INR i * INR k / INR n))
        with (Cconj (cis (- (2 * PI * INR i * INR k / INR n)))).
      - apply C_eq; cbn; ring.
      - rewrite <- cis_neg. f_equal. ring. }
    rewrite csum_swap.
    transitivity (csum (fun i => Cmul (INR n, 0) (Cmul (x i) (Cconj (x i)))) n).
    { apply csum_ext. intros i Hi. rewrite csum_mul_l.
      change (csum (fun i0 => Cmul (dft n x i0) (cis (2 * PI * INR i * INR i0 / INR n))) n)
        with (idft n (dft n x) i).
      rewrite idft_dft by auto. rewrite Cscal_mul. ring. }
    rewrite csum_mul_l, <- Cscal_mul. reflexivity. }
  apply (f_equal fst) in E. rewrite csum_fst in E. cbn [fst Cscal] in E. rewrite csum_fst in E.
  rewrite <- (rsum_ext (fun k => fst (Cmul (dft n x k) (Cconj (dft n x k))))).
  - rewrite E. f_equal. apply rsum_ext. intros j _. rewrite <- Cnorm2_conj. reflexivity.
  - intros k _. rewrite <- Cnorm2_conj. reflexivity.
Qed.

Lemma dft_ext : forall n x y k, (forall j, (j < n)%nat -> x j = y j) -> dft n x k = dft n y k.
Proof. intros. unfold dft. apply csum_ext. intros. rewrite H; auto. Qed.
Lemma idft_ext : forall n x y k, (forall j, (j < n)%nat -> x j = y j) -> idft n x k = idft n y k.
Proof. intros. unfold idft. apply csum_ext. intros. rewrite H; auto. Qed.
Lemma dft_scal : forall n r x k, dft n (fun j => Cscal r (x j)) k = Cscal r (dft n x k).
Proof.
  intros. unfold dft. rewrite Cscal_mul, <- csum_mul_l. apply csum_ext. intros.
  rewrite Cscal_mul. ring.
Qed.
Lemma idft_scal : forall n r x k, idft n (fun j => Cscal r (x j)) k = Cscal r (idft n x k).
Proof.
  intros. unfold idft. rewrite Cscal_mul, <- csum_mul_l. apply csum_ext. intros.
  rewrite Cscal_mul. ring.
Qed.
