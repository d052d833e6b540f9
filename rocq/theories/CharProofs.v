(** Lemmas for C93-C96. *)
From Coq Require Import List ZArith Reals Bool Lra Lia.
From Verif Require Import Common CharModel CharSpec.
Import ListNotations.
Open Scope R_scope.

(** * The central beam *)

Lemma argmin_from_spec : forall l best at_ i, (at_ < i)%nat ->
  let r := argmin_from best at_ i l in
  (r = at_ /\ forall x, In x l -> best <= x) \/
  (exists j x, r = (i + j)%nat /\ nth_error l j = Some x /\ x < best /\
     (forall k y, nth_error l k = Some y -> x <= y /\ ((k < j)%nat -> x < y))).
Proof.
  induction l as [|x l IH]; intros best at_ i Hi; cbn [argmin_from].
  - left. split; [reflexivity|]. intros x [].
  - destruct (Rlt_dec x best) as [L|L].
    + destruct (IH x i (S i) ltac:(lia)) as [[E F]|(j & y & E & N & Ly & F)].
      * right. exists 0%nat, x. split; [rewrite E; lia|]. split; [reflexivity|]. split; [exact L|].
        intros [|k] y Hk.
        -- injection Hk as <-. split; [lra|lia].
        -- split; [apply F; apply (nth_error_In l k); exact Hk|lia].
      * right. exists (S j), y. split; [rewrite E; lia|]. split; [exact N|]. split; [lra|].
        intros [|k] z Hk.
        -- injection Hk as <-. split; [lra|intros _; lra].
        -- cbn in Hk. destruct (F k z Hk) as [F1 F2]. split; [exact F1|]. intro Hl. apply F2. lia.
    + destruct (IH best at_ (S i) ltac:(lia)) as [[E F]|(j & y & E & N & Ly & F)].
      * left. split; [exact E|]. intros y [<-|Hy]; [lra|apply F; exact Hy].
      * right. exists (S j), y. split; [rewrite E; lia|]. split; [exact N|]. split; [exact Ly|].
        intros [|k] z Hk.
        -- injection Hk as <-. split; [lra|intros _; lra].
        -- cbn in Hk. destruct (F k z Hk) as [F1 F2]. split; [exact F1|]. intro Hl. apply F2. lia.
Qed.

Lemma argmin_spec : forall l m, argmin l = Some m -> exists x, nth_error l m = Some x /\
  forall k y, nth_error l k = Some y -> x <= y /\ ((k < m)%nat -> x < y).
Proof.
  intros [|x l] m H; [discriminate|]. injection H as <-.
  destruct (argmin_from_spec l x 0 1 ltac:(lia)) as [[E F]|(j & y & E & N & Ly & F)].
  - exists x. rewrite E. split; [reflexivity|]. intros [|k] y Hk.
    + injection Hk as <-. split; [lra|lia].
    + split; [apply F; apply (nth_error_In l k); exact Hk|lia].
  - exists y. rewrite E. split; [exact N|]. intros [|k] z Hk.
    + injection Hk as <-. split; [lra|intros _; lra].
    + cbn in Hk. destruct (F k z Hk) as [F1 F2]. split; [exact F1|]. intro. apply F2. lia.
Qed.

Lemma argmin_some : forall l, (0 < length l)%nat -> exists m, argmin l = Some m.
Proof. intros [|x l] H; [cbn in H; lia|]. eexists. reflexivity. Qed.

(** The padding is never closer than a beam. *)
Lemma argmin_central : forall nlooks s m, gathered nlooks s ->
  argmin (complementary PI s) = Some m -> central s m.
Proof.
  intros nlooks s m (Hs & La & _ & _ & _ & Hr & Hp) H.
  apply argmin_spec in H. destruct H as (x & Hx & F). unfold complementary in *.
  assert (P := PI_RGT_0).
  assert (Hm : (m < nlooks)%nat).
  { rewrite <- La. rewrite <- (map_length (fun a => Rabs (PI / 2 - a))). apply nth_error_Some.
    rewrite Hx. discriminate. }
  assert (N : forall i, (i < nlooks)%nat -> exists a, nth_error (k_angles s) i = Some a).
  { intros i Hi. destruct (nth_error (k_angles s) i) as [a|] eqn:E; [exists a; reflexivity|].
    apply nth_error_None in E. lia. }
  destruct (N m Hm) as [a Ha].
  rewrite (map_nth_error _ _ _ Ha) in Hx. injection Hx as <-.
  assert (Hk : (m < k_size s)%nat).
  { destruct (Nat.lt_ge_cases m (k_size s)) as [L|L]; [exact L|exfalso].
    rewrite (Hp m ltac:(lia)) in Ha. injection Ha as <-.
    destruct (N 0%nat ltac:(lia)) as [b Hb].
    specialize (Hr 0%nat b ltac:(lia) Hb).
    destruct (F 0%nat _ (map_nth_error (fun a => Rabs (PI / 2 - a)) _ _ Hb)) as [_ F2].
    specialize (F2 ltac:(lia)). rewrite Rminus_0_r, (Rabs_right (PI / 2)) in F2 by lra.
    assert (Rabs (PI / 2 - b) <= PI / 2) by (apply Rabs_le; lra). lra. }
  split; [exact Hk|]. exists a. split; [exact Ha|]. intros i b Hi Hb.
  apply (F i). apply (map_nth_error (fun a => Rabs (PI / 2 - a)) _ _ Hb).
Qed.

(** * The window *)


Lemma nth_error_slice : forall A first n (l : list A) i, (i < n)%nat ->
  nth_error (slice first n l) i = nth_error l (first + i).
Proof.
  intros A first n l i Hi. unfold slice.
  assert (E : nth_error (firstn n (skipn first l)) i = nth_error (skipn first l) i).
  { rewrite <- (firstn_skipn n (skipn first l)) at 2.
    destruct (Nat.lt_ge_cases i (length (firstn n (skipn first l)))) as [L|L].
    - rewrite nth_error_app1 by exact L. reflexivity.
    - rewrite firstn_length in L.
      assert (Z : (length (skipn first l) <= i)%nat) by lia.
      transitivity (@None A).
      + apply nth_error_None. rewrite firstn_length. lia.
      + symmetry. apply nth_error_None. rewrite firstn_skipn. exact Z. }
  rewrite E. clear E. revert l. induction first as [|f IH]; intro l; [reflexivity|].
  destruct l as [|x l]; [cbn; destruct i; reflexivity|]. cbn. apply IH.
Qed.

Lemma slice_entries : forall A first last (l : list A), (first <= last < length l)%nat ->
  entries first last l (slice first (last + 1 - first) l).
Proof.
  intros A first last l H. split.
  - unfold slice. rewrite firstn_length, skipn_length. lia.
  - intros i Hi. apply nth_error_slice. exact Hi.
Qed.

Lemma window_spec : forall c size first n, (c < size)%nat -> window c size = (first, n) ->
  exists f l, first = Z.of_nat f /\ n = Z.of_nat (l + 1 - f) /\
  (f <= c <= l)%nat /\ (l < size)%nat /\
  ((f = 0 /\ c <= 124) \/ c = f + 124)%nat /\
  ((l + 1 = size /\ l <= c + 124) \/ l = c + 124)%nat.
Proof.
  intros c size first n Hc H. unfold window in H. injection H as <- <-.
  exists (c - 124)%nat, (Nat.min (c + 124) (size - 1)). lia.
Qed.

(** * Powers *)

Lemma max_power_ge : forall ps m, m <= fold_left (fun m p => if Rlt_dec m p then p else m) ps m /\
  (forall p, In p ps -> p <= fold_left (fun m p => if Rlt_dec m p then p else m) ps m).
Proof.
  induction ps as [|q ps IH]; intro m; cbn [fold_left].
  - split; [lra|intros p []].
  - destruct (IH (if Rlt_dec m q then q else m)) as [I1 I2].
    destruct (Rlt_dec m q) as [L|L].
    + split; [lra|]. intros p [<-|Hp]; [exact I1|apply I2; exact Hp].
    + split; [exact I1|]. intros p [<-|Hp]; [lra|apply I2; exact Hp].
Qed.
Lemma max_power_in : forall ps m, fold_left (fun m p => if Rlt_dec m p then p else m) ps m = m \/
  In (fold_left (fun m p => if Rlt_dec m p then p else m) ps m) ps.
Proof.
  induction ps as [|q ps IH]; intro m; cbn [fold_left]; [left; reflexivity|].
  destruct (Rlt_dec m q) as [L|L].
  - destruct (IH q) as [E|E]; right; [left; symmetry; exact E|right; exact E].
  - destruct (IH m) as [E|E]; [left; exact E|right; right; exact E].
Qed.
Lemma max_power_scale : forall k ps m, 0 < k ->
  fold_left (fun m p => if Rlt_dec m p then p else m) (map (Rmult k) ps) (k * m) =
  k * fold_left (fun m p => if Rlt_dec m p then p else m) ps m.
Proof.
  intros k ps. induction ps as [|q ps IH]; intros m Hk; cbn [fold_left map]; [reflexivity|].
  destruct (Rlt_dec (k * m) (k * q)) as [L|L]; destruct (Rlt_dec m q) as [M|M].
  - apply IH. exact Hk.
  - exfalso. apply M. apply Rmult_lt_reg_l with k; assumption.
  - exfalso. apply L. apply Rmult_lt_compat_l; assumption.
  - apply IH. exact Hk.
Qed.

Lemma sum_scale : forall k l, sum (map (Rmult k) l) = k * sum l.
Proof.
  intros k l. unfold sum. induction l as [|x l IH]; cbn; [lra|]. rewrite IH. lra.
Qed.
Lemma sum_nonneg : forall l, (forall x, In x l -> 0 <= x) -> 0 <= sum l.
Proof.
  intros l. unfold sum. induction l as [|x l IH]; intro H; cbn; [lra|].
  pose proof (H x (or_introl eq_refl)). assert (0 <= fold_right Rplus 0 l) by (apply IH; intros; apply H; right; assumption).
  lra.
Qed.

Lemma powers_scale : forall k nlooks nsamp zp s,
  beam_powers nlooks nsamp zp (amplified k s) = map (Rmult k) (beam_powers nlooks nsamp zp s).
Proof.
  intros. unfold beam_powers. cbn [k_size amplified k_rows].
  rewrite firstn_map, !map_map. apply map_ext. intro r. rewrite firstn_map. apply sum_scale.
Qed.

Lemma powers_nonneg : forall nlooks nsamp zp s p, no_negative s ->
  In p (beam_powers nlooks nsamp zp s) -> 0 <= p.
Proof.
  intros nlooks nsamp zp s p Hn Hp. unfold beam_powers in Hp. apply in_map_iff in Hp.
  destruct Hp as (r & <- & Hr).
  assert (In1 : forall A (x : A) n l, In x (firstn n l) -> In x l).
  { intros A x n l H. rewrite <- (firstn_skipn n l). apply in_or_app. left. exact H. }
  apply sum_nonneg. intros x Hx. apply (Hn r x); [apply (In1 _ _ _ _ Hr)|apply (In1 _ _ _ _ Hx)].
Qed.

Lemma fitting_scale : forall k cpi nlooks nsamp zp s, 0 < k ->
  fitting cpi nlooks nsamp zp (amplified k s) = fitting cpi nlooks nsamp zp s.
Proof.
  intros k cpi nlooks nsamp zp s Hk. unfold fitting.
  replace (complementary cpi (amplified k s)) with (complementary cpi s) by reflexivity.
  cbn [k_size amplified k_looks k_points]. destruct (argmin (complementary cpi s)) as [m|]; [|reflexivity].
  rewrite powers_scale. destruct (window m (Nat.min nlooks (k_size s))) as [f n].
  destruct (n <? 0)%Z; [reflexivity|]. f_equal. f_equal.
  set (ps := beam_powers nlooks nsamp zp s).
  assert (E : max_power (map (Rmult k) ps) = k * max_power ps).
  { unfold max_power. rewrite <- max_power_scale by exact Hk. f_equal. lra. }
  rewrite E. unfold slice. rewrite skipn_map, firstn_map, map_map. apply map_ext. intro p.
  unfold normalise. destruct (Req_EM_T (k * max_power ps) 0) as [A|A];
    destruct (Req_EM_T (max_power ps) 0) as [B|B].
  - reflexivity.
  - exfalso. apply Rmult_integral in A. destruct A as [A|A]; lra.
  - exfalso. apply A. rewrite B. lra.
  - f_equal. field. split; [exact B|lra].
Qed.

(** * The curve *)

Lemma gauss_bell : forall a b c x, c <> 0 -> gauss a b c x = Some (bell a b (c / sqrt 2) x).
Proof.
  intros a b c x Hc. unfold gauss, bell. destruct (Req_EM_T c 0) as [E|E]; [contradiction|].
  do 3 f_equal. assert (S : sqrt 2 <> 0) by (pose proof (sqrt_lt_R0 2 ltac:(lra)); lra).
  replace ((c / sqrt 2) ^ 2) with (c ^ 2 / (sqrt 2 * sqrt 2)) by (field; exact S).
  rewrite sqrt_sqrt by lra. field. exact Hc.
Qed.

(** Two bells with positive peak and deviation coincide only if their
    parameters do. *)
Lemma bell_std : forall a b d a' b' d', 0 < a -> 0 < d -> 0 < d' ->
  (forall x, bell a b d x = bell a' b' d' x) -> a = a' /\ b = b' /\ d = d'.
Proof.
  intros a b d a' b' d' Ha Hd Hd' H. unfold bell in H.
  assert (Ha' : 0 < a').
  { specialize (H b). pose proof (exp_pos (- (b - b) ^ 2 / (2 * d ^ 2))).
    pose proof (exp_pos (- (b - b') ^ 2 / (2 * d' ^ 2))). nra. }
  assert (L : forall x, ln a - (x - b) ^ 2 / (2 * d ^ 2) = ln a' - (x - b') ^ 2 / (2 * d' ^ 2)).
  { intro x. specialize (H x). apply (f_equal ln) in H.
    rewrite !ln_mult, !ln_exp in H by (assumption || apply exp_pos). unfold Rdiv in *. nra. }
  assert (U : / (2 * d ^ 2) * (2 * d ^ 2) = 1) by (apply Rinv_l; nra).
  assert (V : / (2 * d' ^ 2) * (2 * d' ^ 2) = 1) by (apply Rinv_l; nra).
  unfold Rdiv in L. revert U V L. generalize (/ (2 * d ^ 2)), (/ (2 * d' ^ 2)). intros u v U V L.
  pose proof (L 0) as Q0. pose proof (L 1) as Q1. pose proof (L (-1)) as Q2.
  assert (E : u = v) by lra. subst v.
  assert (Hu : 0 < u) by nra.
  assert (Eb : u * (b - b') = 0) by lra.
  apply Rmult_integral in Eb. destruct Eb as [Eb|Eb]; [lra|].
  assert (b = b') by lra. subst b'.
  assert (Ea : ln a = ln a') by lra.
  split; [apply ln_inv; assumption|]. split; [reflexivity|].
  assert (Ed : u * ((d - d') * (d + d')) = 0) by lra.
  apply Rmult_integral in Ed. destruct Ed as [Ed|Ed]; [lra|].
  apply Rmult_integral in Ed. destruct Ed as [Ed|Ed]; lra.
Qed.

(** * Moments *)

Lemma sum_map_lin : forall A (f g : A -> R) p q l,
  sum (map (fun x => p * f x + q * g x) l) = p * sum (map f l) + q * sum (map g l).
Proof.
  intros A f g p q l. unfold sum. induction l as [|x l IH]; cbn; [lra|]. rewrite IH. lra.
Qed.
Lemma sum_const : forall A (q : R) (l : list A), sum (map (fun _ => q) l) = q * INR (length l).
Proof.
  intros A q l. unfold sum. induction l as [|x l IH]; [cbn; lra|].
  cbn [map fold_right length]. rewrite IH, S_INR. lra.
Qed.
Lemma sum_ext : forall A (f g : A -> R) l, (forall x, f x = g x) -> sum (map f l) = sum (map g l).
Proof. intros A f g l H. f_equal. apply map_ext. exact H. Qed.

Lemma len_pos : forall A (l : list A), l <> [] -> 0 < INR (length l).
Proof. intros A [|x l] H; [congruence|]. cbn [length]. apply lt_0_INR. lia. Qed.

Lemma var_nonneg : forall l : list R, l <> [] -> 0 <= mean (map (fun x => (x - mean l) ^ 2) l).
Proof.
  intros l Hl. unfold mean at 1. rewrite map_length. pose proof (len_pos _ l Hl).
  apply Rmult_le_pos; [|left; apply Rinv_0_lt_compat; assumption].
  apply sum_nonneg. intros x Hx. apply in_map_iff in Hx. destruct Hx as (y & <- & _).
  apply pow2_ge_0.
Qed.

Lemma std_sq : forall l : list R, l <> [] ->
  std l * std l = mean (map (fun x => (x - mean l) ^ 2) l).
Proof. intros l Hl. unfold std. apply sqrt_sqrt. apply var_nonneg. exact Hl. Qed.
Lemma std_nonneg : forall l : list R, 0 <= std l.
Proof. intro l. apply sqrt_pos. Qed.

Lemma mean_centred : forall l : list R, l <> [] -> sum (map (fun x => x - mean l) l) = 0.
Proof.
  intros l Hl. pose proof (len_pos _ l Hl).
  rewrite (sum_ext _ _ (fun x => 1 * x + (- mean l) * 1)) by (intro; lra).
  rewrite sum_map_lin, sum_const, map_id. unfold mean. field. lra.
Qed.

(** Standardised values: mean 0, mean square 1. *)
Lemma standard_sums : forall l : list R, l <> [] -> std l <> 0 ->
  let z := fun x => (x - mean l) / std l in
  sum (map z l) = 0 /\ sum (map (fun x => z x ^ 2) l) = INR (length l).
Proof.
  intros l Hl Hs. pose proof (len_pos _ l Hl). cbv zeta. split.
  - rewrite (sum_ext _ _ (fun x => / std l * (x - mean l) + 0 * 0)) by (intro; field; exact Hs).
    rewrite (sum_map_lin _ (fun x => x - mean l) (fun _ => 0)), mean_centred by exact Hl. lra.
  - rewrite (sum_ext _ _ (fun x => / (std l * std l) * ((x - mean l) ^ 2) + 0 * 0)) by (intro; field; exact Hs).
    rewrite (sum_map_lin _ (fun x => (x - mean l) ^ 2) (fun _ => 0)).
    pose proof (std_sq l Hl) as Q. unfold mean at 1 in Q. rewrite map_length in Q.
    replace (sum (map (fun x => (x - mean l) ^ 2) l)) with (std l * std l * INR (length l)).
    + field. exact Hs.
    + rewrite Q. field. lra.
Qed.

(** Pearson's inequality. *)
Lemma pearson : forall l : list R, l <> [] -> std l <> 0 ->
  moment 3 l ^ 2 + 1 <= moment 4 l.
Proof.
  intros l Hl Hs. pose proof (len_pos _ l Hl) as Hn.
  destruct (standard_sums l Hl Hs) as [S1 S2].
  unfold moment, mean at 1 3. rewrite !map_length.
  set (n := INR (length l)) in *. set (z := fun x => (x - mean l) / std l).
  change (sum (map z l) = 0) in S1. change (sum (map (fun x => z x ^ 2) l) = n) in S2.
  change (fun x => ((x - mean l) / std l) ^ 3) with (fun x => z x ^ 3).
  change (fun x => ((x - mean l) / std l) ^ 4) with (fun x => z x ^ 4).
  set (S3 := sum (map (fun x => z x ^ 3) l)). set (S4 := sum (map (fun x => z x ^ 4) l)).
  set (s := S3 / n).
  assert (P : 0 <= sum (map (fun x => (z x ^ 2 - s * z x - 1) ^ 2) l)).
  { apply sum_nonneg. intros x Hx. apply in_map_iff in Hx. destruct Hx as (y & <- & _).
    apply pow2_ge_0. }
  assert (E : sum (map (fun x => (z x ^ 2 - s * z x - 1) ^ 2) l) =
    S4 + (- 2 * s) * S3 + (s ^ 2 - 2) * n + 2 * s * 0 + n).
  { rewrite (sum_ext _ _ (fun x => 1 * (1 * (1 * z x ^ 4 + (-2 * s) * z x ^ 3) + (s ^ 2 - 2) * z x ^ 2) +
        1 * ((2 * s) * z x + 1 * 1))) by (intro; ring).
    rewrite (sum_map_lin _ (fun x => 1 * (1 * z x ^ 4 + (-2 * s) * z x ^ 3) + (s ^ 2 - 2) * z x ^ 2)
      (fun x => (2 * s) * z x + 1 * 1)).
    rewrite (sum_map_lin _ (fun x => 1 * z x ^ 4 + (-2 * s) * z x ^ 3) (fun x => z x ^ 2)).
    rewrite (sum_map_lin _ (fun x => z x ^ 4) (fun x => z x ^ 3)).
    rewrite (sum_map_lin _ z (fun _ => 1)). rewrite sum_const, S1, S2.
    fold n. fold S3 S4. ring. }
  rewrite E in P. assert (S3e : S3 = s * n) by (unfold s; field; lra).
  rewrite S3e in P.
  apply Rmult_le_reg_r with n; [exact Hn|].
  replace (S4 / n * n) with S4 by (field; lra).
  clearbody s. nra.
Qed.

(** Moments do not change when the values are multiplied by a positive
    factor. *)
Lemma mean_scale : forall k l, mean (map (Rmult k) l) = k * mean l.
Proof.
  intros k l. unfold mean. rewrite sum_scale, map_length. unfold Rdiv. ring.
Qed.
Lemma std_scale : forall k l, 0 < k -> std (map (Rmult k) l) = k * std l.
Proof.
  intros k l Hk. unfold std. rewrite mean_scale, map_map.
  rewrite (map_ext (fun x => (k * x - k * mean l) ^ 2) (fun x => k ^ 2 * (x - mean l) ^ 2))
    by (intro; ring).
  rewrite <- (map_map (fun x => (x - mean l) ^ 2) (Rmult (k ^ 2))), mean_scale.
  rewrite sqrt_mult_alt by nra. rewrite sqrt_pow2 by lra. reflexivity.
Qed.
Lemma moment_scale : forall k j l, 0 < k -> moment j (map (Rmult k) l) = moment j l.
Proof.
  intros k j l Hk. unfold moment. rewrite mean_scale, std_scale, map_map by exact Hk.
  f_equal. apply map_ext. intro x. f_equal.
  replace (k * x - k * mean l) with (k * (x - mean l)) by ring.
  unfold Rdiv. destruct (Req_dec (std l) 0) as [E|E].
  - rewrite E, Rmult_0_r. replace (/ 0) with (/ 0 * 1) by ring. unfold Rdiv.
    assert (Z : / 0 = 0) by apply Rinv_0. rewrite Z. ring.
  - field. split; [exact E|lra].
Qed.

Lemma moment_is : forall k l, l <> [] -> std l <> 0 -> is_moment k l (moment k l).
Proof.
  intros k l Hl Hs. exists (std l).
  split; [pose proof (std_nonneg l); lra|]. split.
  - replace (std l ^ 2) with (std l * std l) by ring. rewrite std_sq by exact Hl. reflexivity.
  - change (moment k l = mean (map (fun x => (x - mean l) ^ k) l) / std l ^ k). unfold moment.
    rewrite (map_ext (fun x => ((x - mean l) / std l) ^ k) (fun x => / std l ^ k * (x - mean l) ^ k)).
    + rewrite <- (map_map (fun x => (x - mean l) ^ k) (Rmult (/ std l ^ k))), mean_scale.
      unfold Rdiv. ring.
    + intro x. unfold Rdiv. rewrite Rpow_mult_distr, pow_inv. ring.
Qed.

Lemma all_some_map : forall A (f : A -> R) l, all_some (map (fun x => Some (f x)) l) = Some (map f l).
Proof.
  intros A f l. induction l as [|x l IH]; [reflexivity|].
  cbn [map all_some fold_right]. unfold all_some in IH. rewrite IH. reflexivity.
Qed.
