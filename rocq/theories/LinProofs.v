(** Proofs for C119 and C120. *)
From Coq Require Import List ZArith QArith Reals Lra Lia Arith Bool Permutation.
From Verif Require Import Common Cplx BeamModel DftModel DftSpec DftProofs AzModel AzProofs AzProps GcorrModel GcorrProps
  PointModel PointSpec PointProofs MlookModel LinModel LinSpec.
Import ListNotations.
Local Open Scope R_scope.

(** * Amplification commutes with every linear step *)

Lemma fftshift_map : forall A B (f : A -> B) l, fftshift (map f l) = map f (fftshift l).
Proof.
  intros A B f l. unfold fftshift. rewrite map_length, map_app, firstn_map, skipn_map. reflexivity.
Qed.
Lemma ifftshift_map : forall A B (f : A -> B) l, ifftshift (map f l) = map f (ifftshift l).
Proof.
  intros A B f l. unfold ifftshift. rewrite map_length, map_app, firstn_map, skipn_map. reflexivity.
Qed.
Lemma nth_mul : forall g l j, nth j (map (Cmul g) l) C0 = Cmul g (nth j l C0).
Proof. intros. apply nth_map_Cmul. Qed.
Lemma dft_mul : forall n g x k, dft n (fun j => Cmul g (x j)) k = Cmul g (dft n x k).
Proof.
  intros. unfold dft. rewrite <- csum_mul_l. apply csum_ext. intros. ring.
Qed.
Lemma idft_mul : forall n g x k, idft n (fun j => Cmul g (x j)) k = Cmul g (idft n x k).
Proof.
  intros. unfold idft. rewrite <- csum_mul_l. apply csum_ext. intros. ring.
Qed.
Lemma Cscal_Cmul : forall r g z, Cscal r (Cmul g z) = Cmul g (Cscal r z).
Proof. intros. rewrite !Cscal_mul. ring. Qed.
Lemma fft_mul : forall n g row, np_fft n (map (Cmul g) row) = map (Cmul g) (np_fft n row).
Proof.
  intros. unfold np_fft. rewrite map_map. apply map_ext. intros k. rewrite <- dft_mul. apply dft_ext.
  intros. apply nth_mul.
Qed.
Lemma ifft_mul : forall n g row, np_ifft n (map (Cmul g) row) = map (Cmul g) (np_ifft n row).
Proof.
  intros. unfold np_ifft. rewrite map_map. apply map_ext. intros k. rewrite <- Cscal_Cmul, <- idft_mul. f_equal.
  apply idft_ext. intros. apply nth_mul.
Qed.
Lemma zip2_map_l : forall A A' B D (h : A -> A') (f : A' -> B -> D) a b,
  zip2 f (map h a) b = zip2 (fun x y => f (h x) y) a b.
Proof. induction a as [|x a IH]; intros [|y b]; cbn; try reflexivity. rewrite IH. reflexivity. Qed.
Lemma zip2_map_r : forall A B B' D (h : B -> B') (f : A -> B' -> D) a b,
  zip2 f a (map h b) = zip2 (fun x y => f x (h y)) a b.
Proof. induction a as [|x a IH]; intros [|y b]; cbn; try reflexivity. rewrite IH. reflexivity. Qed.
Lemma map_zip2 : forall A B D E (h : D -> E) (f : A -> B -> D) a b,
  map h (zip2 f a b) = zip2 (fun x y => h (f x y)) a b.
Proof. induction a as [|x a IH]; intros [|y b]; cbn; try reflexivity. rewrite IH. reflexivity. Qed.
Lemma zip2_ext : forall A B D (f g : A -> B -> D), (forall x y, f x y = g x y) -> forall a b, zip2 f a b = zip2 g a b.
Proof. intros A B D f g H. induction a as [|x a IH]; intros [|y b]; cbn; try reflexivity. rewrite H, IH. reflexivity. Qed.
Lemma cal2_row_mul : forall n table g row, cal2_row n table (map (Cmul g) row) = map (Cmul g) (cal2_row n table row).
Proof.
  intros. unfold cal2_row. rewrite fft_mul, fftshift_map, zip2_map_l, <- ifft_mul, <- ifftshift_map, map_zip2.
  do 2 f_equal. apply zip2_ext. intros. apply Cscal_Cmul.
Qed.
Definition onS {A B} (f : A -> B) (r : res dft_err (option A)) : res dft_err (option B) :=
  match r with Ok (Some a) => Ok (Some (f a)) | Ok None => Ok None | Err e => Err e end.
Lemma cal2_mul : forall flag N n table g wfm,
  cal2 flag N n table (map (map (Cmul g)) wfm) = onS (map (map (Cmul g))) (cal2 flag N n table wfm).
Proof.
  intros. unfold cal2. destruct flag; [|reflexivity]. destruct (Nat.eqb n 0); [reflexivity|].
  rewrite map_length. destruct (negb _); [reflexivity|]. destruct (forallb positive table); [|reflexivity].
  cbn [onS]. rewrite !map_map. do 2 f_equal. apply map_ext. intros. apply cal2_row_mul.
Qed.
Lemma forallb_map : forall A B (h : A -> B) f l, forallb f (map h l) = forallb (fun x => f (h x)) l.
Proof. induction l as [|x l IH]; cbn; [reflexivity|]. rewrite IH. reflexivity. Qed.
Lemma cal1_mul : forall flag n agc sig0 power phase g wfm,
  cal1 flag n agc sig0 power phase (map (map (Cmul g)) wfm) = onS (map (map (Cmul g))) (cal1 flag n agc sig0 power phase wfm).
Proof.
  intros. unfold cal1. destruct flag; [|reflexivity]. cbv zeta. rewrite map_length, forallb_map.
  replace (forallb (fun x => Nat.eqb (length (map (Cmul g) x)) n) wfm) with (forallb (fun r => Nat.eqb (length r) n) wfm).
  2:{ clear. induction wfm as [|r l IH]; cbn; [reflexivity|]. rewrite map_length, IH. reflexivity. }
  destruct (negb _); [reflexivity|]. destruct (forallb nonnegative power); [|reflexivity]. cbn [onS].
  rewrite zip2_map_r, map_zip2. do 2 f_equal. apply zip2_ext. intros x y. rewrite !map_map. apply map_ext. intros. ring.
Qed.

Lemma phase_shift_mul : forall r a g wfm p, phase_shift_from r a p (map (map (Cmul g)) wfm) =
  map (map (Cmul g)) (phase_shift_from r a p wfm).
Proof.
  induction wfm as [|row w IH]; intros p; cbn; [reflexivity|]. rewrite IH. f_equal. rewrite !map_map.
  apply map_ext. intros. ring.
Qed.
Lemma nth_nth_mul : forall g wfm p j, nth j (nth p (map (map (Cmul g)) wfm) []) C0 = Cmul g (nth j (nth p wfm []) C0).
Proof.
  intros. change (@nil C) with (map (Cmul g) []) at 1. rewrite map_nth. apply nth_mul.
Qed.
Lemma az_fft_mul : forall ns g wfm, az_fft ns (map (map (Cmul g)) wfm) = map (map (Cmul g)) (az_fft ns wfm).
Proof.
  intros. unfold az_fft. rewrite <- fftshift_map, map_map, map_length. f_equal. apply map_ext. intros k.
  rewrite map_map. apply map_ext. intros s. rewrite <- Cscal_Cmul, <- dft_mul. f_equal. apply dft_ext.
  intros. apply nth_nth_mul.
Qed.
Definition row_mul (g : C) (r : row (list C)) : row (list C) :=
  match r with Undef => Undef | Row l => Row (map (Cmul g) l) end.
Lemma map_rep : forall A B (f : A -> B) a n, map f (repeat a n) = repeat (f a) n.
Proof. induction n as [|n IH]; cbn; [reflexivity|]. rewrite IH. reflexivity. Qed.
Lemma exact_mul : forall r N ns angles g wfm, exact_method r N ns angles (map (map (Cmul g)) wfm) =
  match exact_method r N ns angles wfm with Ok rows => Ok (map (row_mul g) rows) | Err e => Err e end.
Proof.
  intros. unfold exact_method, exact_rows. destruct (Nat.ltb N (length angles)); [reflexivity|].
  rewrite map_app, map_map, map_rep. do 2 f_equal. apply map_ext. intros a. unfold phase_shift.
  rewrite phase_shift_mul, az_fft_mul, nth_error_map. destruct (nth_error _ _); reflexivity.
Qed.
Lemma approximate_mul : forall r N ns angles t g wfm, approximate_method r N ns angles t (map (map (Cmul g)) wfm) =
  match approximate_method r N ns angles t wfm with Ok rows => Ok (map (row_mul g) rows) | Err e => Err e end.
Proof.
  intros. unfold approximate_method. destruct (nadir_beam N angles t) as [a|e]; [|reflexivity]. cbn [bind]. f_equal.
  unfold phase_shift. rewrite phase_shift_mul, az_fft_mul. unfold approx_rows.
  rewrite map_app, map_rep, !map_map, skipn_map, firstn_map, map_map. reflexivity.
Qed.

Definition g_mul (g : C) (b : gbeam) : gbeam :=
  {| g_x := g_x b; g_y := g_y b; g_z := g_z b; g_speed := g_speed b; g_pri := g_pri b; g_wd := g_wd b;
     g_angle := g_angle b; g_t0 := g_t0 b; g_row := map (Cmul g) (g_row b) |}.
Definition o_mul (g : C) (o : obs) : obs := with_wfm o (map (map (Cmul g)) (b_wfm o)).
Lemma gathered_mul : forall k N g o, gathered k N (o_mul g o) = option_map (g_mul g) (gathered k N o).
Proof.
  intros. unfold gathered. cbn [b_angles b_pos b_wfm o_mul with_wfm].
  replace (obs_radar k (o_mul g o)) with (obs_radar k o) by reflexivity. rewrite exact_mul.
  destruct (exact_method _ _ _ _ _) as [rows|e]; [|reflexivity]. destruct (nth_error (b_angles o) (b_pos o)) as [a|]; [|reflexivity].
  rewrite nth_error_map. destruct (nth_error rows (b_pos o)) as [[|row]|]; reflexivity.
Qed.
Lemma shift_row_mul : forall k sh g row j, shift_row k sh j (map (Cmul g) row) = map (Cmul g) (shift_row k sh j row).
Proof. induction row as [|z row IH]; intros j; cbn; [reflexivity|]. rewrite IH. f_equal. ring. Qed.
Lemma correct_mul : forall fl k s g b, o_row (correct_beam fl k s (g_mul g b)) = map (Cmul g) (o_row (correct_beam fl k s b)).
Proof. intros. cbn [o_row correct_beam]. rewrite <- shift_row_mul. reflexivity. Qed.
Lemma range_row_mul : forall p g row, range_row p (map (Cmul g) row) = map (Cmul g) (range_row p row).
Proof.
  intros. unfold range_row. rewrite <- fftshift_map, fft_mul, !map_map. f_equal. apply map_ext. intros. apply Cscal_Cmul.
Qed.
Lemma power_row_mul : forall g row, power_row (map (Cmul g) row) = map (Rmult (Cnorm2 g)) (power_row row).
Proof.
  intros. unfold power_row. rewrite !map_map. apply map_ext. intros z.
  rewrite !Rsqr_sqrt by apply Cnorm2_nonneg. apply Cnorm2_mul.
Qed.

(** * The looks of a stack, one by one *)

Definition look_of (fl : gflags) (k : gconst) (s : gsurf) (zp : nat) (b : gbeam) : list C :=
  range_row (zp * k_n k) (o_row (correct_beam fl k s b)).
Lemma firstn_corrected : forall fl k s nlooks bs,
  firstn (Nat.min (length bs) nlooks) (map o_row (geometry_corrections fl k s nlooks (length bs) bs)) =
  map (fun b => o_row (correct_beam fl k s b)) (firstn nlooks bs).
Proof.
  intros. unfold geometry_corrections. rewrite map_app, map_map.
  assert (E : firstn (Nat.min (length bs) nlooks) bs = firstn nlooks bs).
  { destruct (Nat.le_ge_cases (length bs) nlooks).
    - rewrite Nat.min_l by assumption. rewrite !firstn_all2 by lia. reflexivity.
    - rewrite Nat.min_r by assumption. reflexivity. }
  rewrite E. rewrite firstn_app, map_length, firstn_length.
  replace (Nat.min (length bs) nlooks - Nat.min nlooks (length bs))%nat with 0%nat by lia. rewrite app_nil_r.
  apply firstn_all2. rewrite map_length, firstn_length. lia.
Qed.
Definition enough (zp : nat) (k : gconst) (nlooks : nat) {X} (l : list X) : bool :=
  negb (Nat.eqb (zp * k_n k) 0 && negb (Nat.eqb (Nat.min (length l) nlooks) 0)).
Lemma image_iq_eq : forall fl k s N zp nlooks l, image_iq fl k s N zp nlooks l =
  match gathered_all k N l with
  | Some bs => if enough zp k nlooks bs then Some (map (look_of fl k s zp) (firstn nlooks bs)) else None
  | None => None
  end.
Proof.
  intros. unfold image_iq. destruct (gathered_all k N l) as [bs|]; [|reflexivity]. cbv zeta. unfold range_compress, enough.
  destruct (Nat.eqb (zp * k_n k) 0 && negb (Nat.eqb (Nat.min (length bs) nlooks) 0)); [reflexivity|]. cbn [negb].
  rewrite firstn_corrected, map_map. reflexivity.
Qed.
Lemma image_power : forall fl k s N zp nlooks l,
  image fl k s N zp nlooks l = option_map (map power_row) (image_iq fl k s N zp nlooks l).
Proof.
  intros. unfold image, image_iq. destruct (gathered_all k N l) as [bs|]; [|reflexivity]. cbv zeta. unfold range_compress.
  destruct (_ && _); reflexivity.
Qed.
Lemma gathered_all_length : forall k N l bs, gathered_all k N l = Some bs -> length bs = length l.
Proof.
  induction l as [|o l IH]; intros bs; cbn; [intros H; injection H as <-; reflexivity|].
  destruct (gathered k N o); [|discriminate]. destruct (gathered_all k N l) as [t|]; [|discriminate].
  intros H. injection H as <-. cbn. rewrite (IH t eq_refl). reflexivity.
Qed.

(** ** Amplified stacks *)
Definition mul_each (gs : list C) (l : list obs) : list obs := zip2 o_mul gs l.
Lemma gathered_all_mul : forall k N gs l, length gs = length l ->
  gathered_all k N (zip2 o_mul gs l) = option_map (zip2 g_mul gs) (gathered_all k N l).
Proof.
  induction gs as [|g gs IH]; intros [|o l] L; try discriminate L; cbn [zip2 gathered_all]; [reflexivity|].
  rewrite gathered_mul, IH by (cbn in L; lia). destruct (gathered k N o); [|reflexivity].
  destruct (gathered_all k N l); reflexivity.
Qed.
Lemma louder_firstn : forall fl k s zp nlooks gs bs, length gs = length bs ->
  louder gs (map power_row (map (look_of fl k s zp) (firstn nlooks bs)))
            (map power_row (map (look_of fl k s zp) (firstn nlooks (zip2 g_mul gs bs)))).
Proof.
  intros fl k s zp. induction nlooks as [|m IH]; intros gs bs L; [constructor|].
  destruct gs as [|g gs], bs as [|b bs]; try discriminate L; [constructor|]. cbn [zip2 firstn map].
  assert (E : power_row (look_of fl k s zp (g_mul g b)) = map (Rmult (Cnorm2 g)) (power_row (look_of fl k s zp b))).
  { unfold look_of. rewrite correct_mul, range_row_mul, power_row_mul. reflexivity. }
  rewrite E. constructor. apply IH. cbn in L. lia.
Qed.
Lemma calibrated_mul : forall f1 f2 k N g r,
  calibrated f1 f2 k N (amplified g r) = option_map (o_mul g) (calibrated f1 f2 k N r).
Proof.
  intros. unfold calibrated. cbn [r_agc r_sig0 r_power r_phase r_table r_burst amplified b_wfm with_wfm].
  rewrite cal1_mul. destruct (cal1 _ _ _ _ _ _ _) as [[w|]|e]; cbn [onS]; try reflexivity.
  rewrite cal2_mul. destruct (cal2 _ _ _ _ _) as [[w'|]|e]; reflexivity.
Qed.
Lemma calibrated_all_mul : forall f1 f2 k N gs l, length gs = length l ->
  calibrated_all f1 f2 k N (zip2 amplified gs l) = option_map (zip2 o_mul gs) (calibrated_all f1 f2 k N l) /\
  (forall os, calibrated_all f1 f2 k N l = Some os -> length os = length l).
Proof.
  induction gs as [|g gs IH]; intros [|r l] L; try discriminate L; cbn [zip2 calibrated_all].
  - split; [reflexivity|]. intros os H. injection H as <-. reflexivity.
  - destruct (IH l ltac:(cbn in L; lia)) as (E & Q). rewrite calibrated_mul, E.
    destruct (calibrated f1 f2 k N r); [|split; [reflexivity|discriminate]].
    destruct (calibrated_all f1 f2 k N l) as [os'|]; [|split; [reflexivity|discriminate]].
    split; [reflexivity|]. intros os H. injection H as <-. cbn. rewrite (Q os' eq_refl). reflexivity.
Qed.

(** * Samples of a look as a sum over pulses and samples *)

Lemma gathered_sum : forall k N o b, (0 < N)%nat -> in_beam N o b -> length (b_wfm o) = N ->
  exists g, gathered k N o = Some g /\
    g_x g = b_x o /\ g_y g = b_y o /\ g_z g = b_z o /\ g_speed g = b_speed o /\ g_wd g = b_wd o /\ g_angle g = b /\
    g_t0 g = b_t0 o /\ length (g_row g) = k_n k /\
    forall j, (j < k_n k)%nat -> nth j (g_row g) C0 =
      Cscal (/ sqrt (INR N)) (csum (fun p => Cmul (cis (steer_phase (obs_radar k o) b p)) (sample o p j)) N).
Proof.
  intros k N o b HN (Hp & Hl & _) W.
  destruct (C71_exact (obs_radar k o) N (k_n k) (b_angles o) (b_wfm o) (b_pos o) b HN W Hl Hp)
    as (rows & row & R1 & R2 & R3 & R4).
  unfold gathered. rewrite R1, Hp, R2. eexists. split; [reflexivity|]. cbn.
  do 7 (split; [reflexivity|]). split; [exact R3|]. intros j Hj. rewrite (R4 j Hj). unfold coherent_sum. rewrite W.
  unfold sample, steer_phase, doppler_phase. f_equal. apply csum_ext. intros p _. do 2 f_equal. unfold Rdiv. ring.
Qed.
Lemma look_sum : forall fl k s zp g m, (m < zp * k_n k)%nat -> length (g_row g) = k_n k ->
  nth m (look_of fl k s zp g) C0 =
  Cscal (/ sqrt (INR (zp * k_n k)))
    (csum (fun j => Cmul (Cmul (cis (2 * k_pi k / INR (k_n k) *
         (doppler_correction fl k g + slant_correction fl k s g + win_delay_correction (s_wd s) g) * INR j))
         (nth j (g_row g) C0))
       (cis (- (2 * PI * INR j * INR (freq_of (zp * k_n k) m) / INR (zp * k_n k))))) (k_n k)).
Proof.
  intros fl k s zp g m Hm L. unfold look_of. rewrite range_row_sample by exact Hm. f_equal. unfold spectrum, dft.
  rewrite (csum_zeros _ (k_n k) (zp * k_n k)); [|clear -Hm; destruct zp; cbn in *; lia|].
  - apply csum_ext. intros j Hj. cbn [o_row correct_beam]. rewrite shift_row_nth by lia. reflexivity.
  - intros j Hj. rewrite nth_overflow; [ring|]. cbn [o_row correct_beam]. rewrite shift_row_length, L. lia.
Qed.
Lemma look_length : forall fl k s zp g, length (look_of fl k s zp g) = (zp * k_n k)%nat.
Proof. intros. apply range_row_length. Qed.
