(** Proofs about the image of a point target. *)
From Coq Require Import List ZArith Reals Lra Lia Arith Psatz.
From Verif Require Import Common Cplx BeamModel DftModel DftSpec DftProofs AzModel AzProofs AzProps GcorrModel GcorrProps
  DftProps PointModel PointSpec.
Import ListNotations.
Local Open Scope R_scope.

(** * Sums of unit vectors *)

Definition Cabs (a : C) : R := sqrt (Cnorm2 a).
Lemma Cabs_pos : forall a, 0 <= Cabs a.
Proof. intros. apply sqrt_pos. Qed.
Lemma Cabs_sq : forall a, Cabs a * Cabs a = Cnorm2 a.
Proof. intros. apply sqrt_sqrt, Cnorm2_nonneg. Qed.
Lemma dot_le : forall a b, fst a * fst b + snd a * snd b <= Cabs a * Cabs b.
Proof.
  intros [a1 a2] [b1 b2]. unfold Cabs. rewrite <- sqrt_mult by apply Cnorm2_nonneg. cbn [fst snd].
  destruct (Rle_dec 0 (a1 * b1 + a2 * b2)) as [H|H].
  - rewrite <- (sqrt_square (a1 * b1 + a2 * b2)) by exact H. apply sqrt_le_1_alt.
    unfold Cnorm2. cbn [fst snd]. pose proof (Rle_0_sqr (a1 * b2 - a2 * b1)) as Q. unfold Rsqr in Q. nra.
  - pose proof (sqrt_pos (Cnorm2 (a1, a2) * Cnorm2 (b1, b2))). lra.
Qed.
Lemma Cabs_add : forall a b, Cabs (Cadd a b) <= Cabs a + Cabs b.
Proof.
  intros a b. pose proof (dot_le a b) as D. pose proof (Cabs_pos a). pose proof (Cabs_pos b).
  pose proof (Cabs_sq a) as A. pose proof (Cabs_sq b) as B.
  rewrite <- (sqrt_square (Cabs a + Cabs b)) by lra. unfold Cabs at 1. apply sqrt_le_1_alt.
  replace ((Cabs a + Cabs b) * (Cabs a + Cabs b)) with (Cabs a * Cabs a + Cabs b * Cabs b + 2 * (Cabs a * Cabs b)) by ring.
  rewrite A, B. revert D. generalize (Cabs a * Cabs b). intros q D.
  destruct a as [a1 a2], b as [b1 b2]. unfold Cnorm2, Cadd in *. cbn [fst snd] in *. lra.
Qed.
Lemma Cabs_cis : forall x, Cabs (cis x) = 1.
Proof. intros. unfold Cabs. rewrite cis_norm. apply sqrt_1. Qed.
Lemma sum_le : forall t n, Cabs (csum (fun j => cis (t * INR j)) n) <= INR n.
Proof.
  intros t n. induction n as [|n IH]; cbn [csum].
  - unfold Cabs, Cnorm2. cbn. replace (0 * 0 + 0 * 0) with 0 by ring. rewrite sqrt_0. lra.
  - rewrite S_INR. pose proof (Cabs_add (csum (fun j => cis (t * INR j)) n) (cis (t * INR n))) as A.
    rewrite Cabs_cis in A. lra.
Qed.
Lemma two_lt : forall t, cis t <> C1 -> Cabs (Cadd C1 (cis t)) < 2.
Proof.
  intros t H. assert (E : Cnorm2 (Cadd C1 (cis t)) = 2 + 2 * cos t).
  { unfold Cnorm2, Cadd, cis. cbn. pose proof (sin2_cos2 t) as S. unfold Rsqr in S. nra. }
  assert (L : cos t < 1).
  { destruct (Rle_lt_or_eq_dec (cos t) 1) as [L|L]; [apply COS_bound|exact L|].
    exfalso. apply H. unfold cis, C1. pose proof (sin2_cos2 t) as S. unfold Rsqr in S. rewrite L in S |- *.
    assert (Z : sin t = 0) by (apply Rsqr_0_uniq; unfold Rsqr; lra). rewrite Z. reflexivity. }
  unfold Cabs. rewrite E. apply Rlt_le_trans with (sqrt (2 * 2)); [|rewrite sqrt_square; lra]. apply sqrt_lt_1_alt.
  pose proof (COS_bound t). lra.
Qed.
Lemma sum_lt : forall t n, cis t <> C1 -> (2 <= n)%nat -> Cabs (csum (fun j => cis (t * INR j)) n) < INR n.
Proof.
  intros t n H Hn. induction n as [|[|[|n]] IH]; try lia.
  - cbn [csum INR]. rewrite Rmult_0_r, Rmult_1_r, cis_0.
    replace (Cadd (Cadd C0 C1) (cis t)) with (Cadd C1 (cis t)) by ring.
    pose proof (two_lt t H). lra.
  - assert (IH' : Cabs (csum (fun j => cis (t * INR j)) (S (S n))) < INR (S (S n))) by (apply IH; lia).
    remember (S (S n)) as m eqn:Em. cbn [csum]. rewrite S_INR.
    pose proof (Cabs_add (csum (fun j => cis (t * INR j)) m) (cis (t * INR m))) as A.
    rewrite Cabs_cis in A. lra.
Qed.
Lemma array_le : forall t n, array_power t n <= INR n * INR n.
Proof.
  intros t n. unfold array_power. rewrite <- Cabs_sq.
  pose proof (sum_le t n) as H. pose proof (Cabs_pos (csum (fun j => cis (t * INR j)) n)). nra.
Qed.
Lemma array_lt : forall t n, cis t <> C1 -> (2 <= n)%nat -> array_power t n < INR n * INR n.
Proof.
  intros t n H Hn. unfold array_power. rewrite <- Cabs_sq.
  pose proof (sum_lt t n H Hn) as L. pose proof (Cabs_pos (csum (fun j => cis (t * INR j)) n)). nra.
Qed.
Lemma array_one : forall t n, cis t = C1 -> array_power t n = INR n * INR n.
Proof.
  intros t n H. unfold array_power.
  assert (E : forall j : nat, cis (t * INR j) = C1).
  { induction j as [|j IH]; [cbn; rewrite Rmult_0_r; apply cis_0|].
    rewrite S_INR. replace (t * (INR j + 1)) with (t * INR j + t) by ring. rewrite cis_add, IH, H. ring. }
  rewrite (csum_ext _ (fun _ => C1)) by (intros; apply E). rewrite csum_const1. unfold Cnorm2. cbn. ring.
Qed.
Lemma array_zero : forall n, array_power 0 n = INR n * INR n.
Proof. intros. apply array_one, cis_0. Qed.
Lemma array_nonneg : forall t n, 0 <= array_power t n.
Proof. intros. apply Cnorm2_nonneg. Qed.
Lemma array_period : forall t (q : nat) n, array_power (t + 2 * PI * INR q) n = array_power t n.
Proof.
  intros t q n. unfold array_power. f_equal. apply csum_ext. intros j Hj.
  replace ((t + 2 * PI * INR q) * INR j) with (t * INR j + 2 * PI * INR (q * j)) by (rewrite mult_INR; ring).
  apply cis_period.
Qed.
(** [n] turns that close give nothing. *)
Lemma array_null : forall t n, cis t <> C1 -> cis (t * INR n) = C1 -> array_power t n = 0.
Proof.
  intros t n H1 H2. unfold array_power.
  assert (G : Cmul (Csub (cis t) C1) (csum (fun j => cis (t * INR j)) n) = Csub (cis (t * INR n)) C1).
  { induction n as [|n IH] in |- *.
    - cbn [csum INR]. rewrite Rmult_0_r, cis_0. ring.
    - cbn [csum]. rewrite S_INR. replace (t * (INR n + 1)) with (t * INR n + t) by ring. rewrite cis_add.
      replace (Cmul (Csub (cis t) C1) (Cadd (csum (fun j => cis (t * INR j)) n) (cis (t * INR n))))
        with (Cadd (Cmul (Csub (cis t) C1) (csum (fun j => cis (t * INR j)) n))
                   (Cmul (Csub (cis t) C1) (cis (t * INR n)))) by ring.
      rewrite IH. ring. }
  rewrite H2 in G. replace (Csub C1 C1) with C0 in G by ring.
  destruct (Cmul_integral _ _ G) as [Z|Z].
  - exfalso. apply H1. replace (cis t) with (Cadd (Csub (cis t) C1) C1) by ring. rewrite Z. ring.
  - rewrite Z. unfold Cnorm2. cbn. ring.
Qed.
Lemma csum_zeros : forall f n m, (n <= m)%nat -> (forall j, (n <= j < m)%nat -> f j = C0) -> csum f m = csum f n.
Proof.
  intros f n m H Hz. induction m as [|m IH]; [replace n with 0%nat by lia; reflexivity|].
  destruct (Nat.eq_dec n (S m)) as [->|N]; [reflexivity|]. cbn [csum]. rewrite IH by (intros; try apply Hz; lia).
  rewrite Hz by lia. ring.
Qed.
Lemma Cnorm2_scal : forall r a, Cnorm2 (Cscal r a) = r * r * Cnorm2 a.
Proof. intros. unfold Cnorm2, Cscal. cbn. ring. Qed.

(** * One look *)

Section Look.
Variables (k : gconst) (s : gsurf) (N zp : nat) (o : obs) (a A phi dist b : R).
Hypothesis Hk : sound k.
Hypothesis Ht0 : b_t0 o <> 0.
Hypothesis HN : (0 < N)%nat.
Hypothesis Hz : (0 < zp)%nat.
Hypothesis Hlen : (length (b_angles o) <= N)%nat.
Hypothesis Hpos : nth_error (b_angles o) (b_pos o) = Some b.
Hypothesis He : is_echo k N o A phi dist a.

(** Doppler difference between target and beam, per pulse. *)
Local Notation off_beam := (turn k o b a).
Definition focus_gain : C := csum (fun p => cis (off_beam * INR p)) N.

Lemma gathered_row : exists g, gathered k N o = Some g /\
  g_x g = b_x o /\ g_y g = b_y o /\ g_z g = b_z o /\ g_speed g = b_speed o /\ g_wd g = b_wd o /\ g_angle g = b /\
  g_t0 g = b_t0 o /\ length (g_row g) = k_n k /\
  forall j, (j < k_n k)%nat -> nth j (g_row g) C0 =
    Cmul (Cscal (A / sqrt (INR N)) (Cmul (cis phi) focus_gain))
         (cis (2 * PI * beat (k_c k) (k_lam k) (k_plen k) (k_bw k) o dist a * INR j / INR (k_n k))).
Proof.
  destruct Hk as (Kpi & Kc & Klam & Kbw & Kn). destruct He as (W1 & W2 & W3).
  destruct (C71_exact (obs_radar k o) N (k_n k) (b_angles o) (b_wfm o) (b_pos o) b HN W1 Hlen Hpos)
    as (rows & row & R1 & R2 & R3 & R4).
  unfold gathered. rewrite R1, Hpos, R2. eexists. split; [reflexivity|]. cbn.
  do 7 (split; [reflexivity|]). split; [exact R3|]. intros j Hj. rewrite (R4 j Hj). unfold coherent_sum. rewrite W1.
  set (bt := beat _ _ _ _ _ _ _) in *.
  rewrite (csum_ext _ (fun p => Cmul (Cmul (Cscal A (cis phi)) (cis (2 * PI * bt * INR j / INR (k_n k))))
     (cis (off_beam * INR p)))).
  - rewrite csum_mul_l. unfold focus_gain. generalize (csum (fun p => cis (off_beam * INR p)) N). intros S.
    rewrite !Cscal_mul. apply C_eq; unfold Cmul; cbn [fst snd]; unfold Rdiv; ring.
  - intros p Hp. rewrite (W3 p j Hp Hj). unfold echo_sample. fold bt. cbv beta.
    rewrite !Cscal_mul.
    replace (Cmul (Cmul (Cmul (A, 0) (cis phi)) (cis (2 * PI * bt * INR j / INR (k_n k)))) (cis (off_beam * INR p)))
      with (Cmul (A, 0) (Cmul (Cmul (cis phi) (cis (2 * PI * bt * INR j / INR (k_n k)))) (cis (off_beam * INR p)))) by ring.
    rewrite <- !cis_add.
    replace (Cmul (cis (- doppler_phase (obs_radar k o) b p))
      (Cmul (A, 0) (cis (phi + 2 * PI * doppler_hz (k_lam k) (b_speed o) a * (b_pri o * INR p) +
         2 * PI * bt * INR j / INR (k_n k)))))
      with (Cmul (A, 0) (Cmul (cis (- doppler_phase (obs_radar k o) b p))
        (cis (phi + 2 * PI * doppler_hz (k_lam k) (b_speed o) a * (b_pri o * INR p) +
         2 * PI * bt * INR j / INR (k_n k))))) by ring.
    rewrite <- cis_add. do 2 f_equal. unfold doppler_phase, turn, doppler_hz, obs_radar. cbn [cpi wavelength speed pri].
    rewrite Kpi. field. split; [lra|apply not_0_INR; lia].
Qed.

(** Delay of the target behind the surface, in samples. *)
Local Notation late := (lag k s o b dist a).

Lemma corrected_row : forall fl, f_doppler fl = true -> f_slant fl = true -> exists g, gathered k N o = Some g /\
  length (o_row (correct_beam fl k s g)) = k_n k /\
  forall j, (j < k_n k)%nat -> nth j (o_row (correct_beam fl k s g)) C0 =
    Cmul (Cscal (A / sqrt (INR N)) (Cmul (cis phi) focus_gain)) (cis (2 * PI * late * INR j / INR (k_n k))).
Proof.
  intros fl F1 F2. pose proof Hk as (Kpi & Kc & Klam & Kbw & Kn).
  destruct gathered_row as (g & G & Gx & Gy & Gz & Gv & Gw & Ga & Gt & Gl & Gr).
  exists g. split; [exact G|]. cbn [o_row correct_beam]. rewrite shift_row_length. split; [exact Gl|].
  intros j Hj. rewrite shift_row_nth by (rewrite Gl; exact Hj). rewrite Gr by exact Hj. cbn [Nat.add].
  set (S := Cscal (A / sqrt (INR N)) (Cmul (cis phi) focus_gain)).
  replace (Cmul (cis (2 * k_pi k / INR (k_n k) *
       (doppler_correction fl k g + slant_correction fl k s g + win_delay_correction (s_wd s) g) * INR j))
     (Cmul S (cis (2 * PI * beat (k_c k) (k_lam k) (k_plen k) (k_bw k) o dist a * INR j / INR (k_n k)))))
    with (Cmul S (Cmul (cis (2 * k_pi k / INR (k_n k) *
       (doppler_correction fl k g + slant_correction fl k s g + win_delay_correction (s_wd s) g) * INR j))
     (cis (2 * PI * beat (k_c k) (k_lam k) (k_plen k) (k_bw k) o dist a * INR j / INR (k_n k))))) by ring.
  rewrite <- cis_add. do 2 f_equal.
  unfold doppler_correction, slant_correction, win_delay_correction, lag, beat. rewrite F1, F2.
  assert (E : range_to s g = distance o (sx s) (sy s) (sz s)).
  { unfold range_to, distance. rewrite Gx, Gy, Gz. reflexivity. }
  rewrite E, Gv, Gw, Ga, Gt, Kpi. unfold doppler_hz. field.
  repeat split; try lra; try exact Ht0. apply not_0_INR. lia.
Qed.

(** The power of bin [m]. *)
Lemma compressed : forall fl, f_doppler fl = true -> f_slant fl = true -> exists g, gathered k N o = Some g /\
  forall m, (m < zp * k_n k)%nat ->
  nth m (power_row (range_row (zp * k_n k) (o_row (correct_beam fl k s g)))) 0 =
  A * A * (array_power off_beam N / INR N) *
    (array_power (2 * PI * (INR zp * late + INR (Nat.div (zp * k_n k) 2) - INR m) / INR (zp * k_n k)) (k_n k)
     / INR (zp * k_n k)).
Proof.
  intros fl F1 F2. pose proof Hk as (Kpi & Kc & Klam & Kbw & Kn).
  destruct (corrected_row fl F1 F2) as (g & G & L & Q). exists g. split; [exact G|]. intros m Hm.
  set (P := (zp * k_n k)%nat) in *. set (row := o_row (correct_beam fl k s g)) in *.
  assert (HP : (0 < P)%nat) by (unfold P; nia).
  assert (PP : 0 < INR P) by (apply lt_0_INR; exact HP).
  assert (NP : 0 < INR N) by (apply lt_0_INR; exact HN).
  rewrite power_row_nth by (rewrite range_row_length; exact Hm).
  rewrite range_row_sample by exact Hm. rewrite Cnorm2_scal.
  assert (E1 : / sqrt (INR P) * / sqrt (INR P) = / INR P).
  { rewrite <- Rinv_mult. rewrite sqrt_sqrt by lra. reflexivity. }
  rewrite E1. unfold spectrum, dft.
  rewrite (csum_zeros _ (k_n k) P); [|unfold P; nia|].
  2:{ intros j Hj. rewrite nth_overflow by (rewrite L; lia). ring. }
  set (S := Cscal (A / sqrt (INR N)) (Cmul (cis phi) focus_gain)) in *.
  rewrite (csum_ext _ (fun j => Cmul S (cis ((2 * PI * (INR zp * late + INR (P / 2) - INR m) / INR P) * INR j)))).
  - rewrite csum_mul_l, Cnorm2_mul. unfold S. rewrite Cnorm2_scal, Cnorm2_mul, cis_norm.
    fold (array_power (2 * PI * (INR zp * late + INR (P / 2) - INR m) / INR P) (k_n k)).
    fold (array_power off_beam N).
    assert (E2 : A / sqrt (INR N) * (A / sqrt (INR N)) = A * A / INR N).
    { replace (A / sqrt (INR N) * (A / sqrt (INR N))) with (A * A * / (sqrt (INR N) * sqrt (INR N))).
      - rewrite sqrt_sqrt by lra. reflexivity.
      - rewrite Rinv_mult. unfold Rdiv. ring. }
    rewrite E2. unfold focus_gain. fold (array_power off_beam N). field. split; lra.
  - intros j Hj. rewrite (Q j Hj).
    replace (Cmul (Cmul S (cis (2 * PI * late * INR j / INR (k_n k)))) (cis (- (2 * PI * INR j * INR (freq_of P m) / INR P))))
      with (Cmul S (Cmul (cis (2 * PI * late * INR j / INR (k_n k)))
                         (cis (- (2 * PI * INR j * INR (freq_of P m) / INR P))))) by ring.
    f_equal. rewrite <- cis_add.
    unfold freq_of. pose proof (Nat.div_mod (m + (P - P / 2)) P ltac:(lia)) as D.
    set (q := ((m + (P - P / 2)) / P)%nat) in *. set (r := ((m + (P - P / 2)) mod P)%nat) in *.
    assert (Hh : (P / 2 <= P)%nat) by (apply Nat.div_le_upper_bound; lia).
    assert (DR : INR m + (INR P - INR (P / 2)) = INR P * INR q + INR r).
    { rewrite <- minus_INR by exact Hh. rewrite <- mult_INR, <- !plus_INR. f_equal. exact D. }
    assert (N0 : INR (k_n k) <> 0) by (apply not_0_INR; lia).
    assert (Z0 : INR zp <> 0) by (apply not_0_INR; lia).
    assert (EP : INR P = INR zp * INR (k_n k)) by (unfold P; apply mult_INR).
    (* both sides differ by whole turns *)
    rewrite <- (cis_period (2 * PI * late * INR j / INR (k_n k) + - (2 * PI * INR j * INR r / INR P)) j).
    rewrite <- (cis_period (2 * PI * (INR zp * late + INR (P / 2) - INR m) / INR P * INR j) (j * q)).
    f_equal. rewrite mult_INR. replace (INR r) with (INR m + (INR P - INR (P / 2)) - INR P * INR q) by lra.
    rewrite EP. field. split; assumption.
Qed.
End Look.

(** * The stack *)

Lemma nth_error_firstn' : forall {X} (l : list X) m i,
  nth_error (firstn m l) i = if Nat.ltb i m then nth_error l i else None.
Proof.
  induction l as [|x l IH]; intros [|m] [|i]; cbn [firstn nth_error]; try reflexivity.
  - destruct (Nat.ltb (S i) (S m)); reflexivity.
  - rewrite IH. reflexivity.
Qed.

Lemma gathered_usable : forall k N o, (0 < N)%nat -> usable N o -> exists g, gathered k N o = Some g.
Proof.
  intros k N o HN ((b & Hp & Hl & _) & W).
  destruct (C71_exact (obs_radar k o) N (k_n k) (b_angles o) (b_wfm o) (b_pos o) b HN W Hl Hp)
    as (rows & row & R1 & R2 & _).
  unfold gathered. rewrite R1, Hp, R2. eauto.
Qed.
Lemma gathered_list : forall k N l, (0 < N)%nat -> Forall (usable N) l -> exists bs, gathered_all k N l = Some bs /\
  length bs = length l /\
  forall i o, nth_error l i = Some o -> exists g, nth_error bs i = Some g /\ gathered k N o = Some g.
Proof.
  intros k N l HN. induction 1 as [|o l Ho Hl IH]; cbn [gathered_all].
  - exists []. repeat split. intros [|i] o E; discriminate E.
  - destruct (gathered_usable k N o HN Ho) as (g & G). destruct IH as (bs & E & L & Q). rewrite G, E.
    exists (g :: bs). split; [reflexivity|]. cbn [length]. split; [congruence|].
    intros [|i] o' H; cbn in *.
    + injection H as <-. eauto.
    + apply Q. exact H.
Qed.
Lemma image_rows : forall fl k s N zp nlooks l, sound k -> (0 < N)%nat -> (0 < zp)%nat -> Forall (usable N) l ->
  exists rows, image fl k s N zp nlooks l = Some rows /\ length rows = Nat.min (length l) nlooks /\
  forall i o, nth_error l i = Some o -> (i < nlooks)%nat -> exists g, gathered k N o = Some g /\
    nth i rows [] = power_row (range_row (zp * k_n k) (o_row (correct_beam fl k s g))).
Proof.
  intros fl k s N zp nlooks l (_ & _ & _ & _ & Kn) HN Hz Hl. unfold image.
  destruct (gathered_list k N l HN Hl) as (bs & E & L & Q). rewrite E. cbv zeta. unfold range_compress.
  destruct (Nat.eqb_spec (zp * k_n k) 0); [nia|]. cbn [andb].
  assert (LG : (Nat.min (length bs) nlooks <= length (map o_row (geometry_corrections fl k s nlooks (length bs) bs)))%nat).
  { rewrite map_length. unfold geometry_corrections. rewrite app_length, map_length, firstn_length. lia. }
  eexists. split; [reflexivity|]. split.
  { rewrite !map_length, firstn_length. rewrite L in *. lia. }
  intros i o Ho Hi. destruct (Q i o Ho) as (g & G1 & G2). exists g. split; [exact G2|].
  assert (Hb : (i < length bs)%nat) by (apply nth_error_Some; congruence).
  rewrite map_map. erewrite nth_error_nth; [reflexivity|].
  rewrite nth_error_map. rewrite nth_error_firstn'.
  replace (Nat.ltb i (Nat.min (length bs) nlooks)) with true by (symmetry; apply Nat.ltb_lt; lia).
  rewrite nth_error_map, (gc_nth fl k s nlooks (length bs) bs i g G1) by lia. reflexivity.
Qed.

Lemma sum_strict : forall (rows : list (list R)) m m', rows <> [] ->
  (forall r, In r rows -> nth m r 0 < nth m' r 0) ->
  fold_right Rplus 0 (map (fun r => nth m r 0) rows) < fold_right Rplus 0 (map (fun r => nth m' r 0) rows).
Proof.
  intros rows m m' Hne. induction rows as [|r rows IH]; [congruence|]. intros H. cbn [map fold_right].
  pose proof (H r (or_introl eq_refl)). destruct rows as [|r' rows]; [cbn; lra|].
  assert (fold_right Rplus 0 (map (fun r => nth m r 0) (r' :: rows)) <
          fold_right Rplus 0 (map (fun r => nth m' r 0) (r' :: rows))).
  { apply IH; [congruence|]. intros q Hq. apply H. right. exact Hq. }
  lra.
Qed.
