(** C119, C120: how the looks and the waveform follow the echoes. *)
From Coq Require Import List ZArith QArith Reals Lra Lia Arith Bool Permutation.
From Verif Require Import Common Cplx BeamModel DftModel DftSpec DftProofs AzModel AzProofs AzProps GcorrModel GcorrProps
  PointModel PointSpec PointProofs MlookModel LinModel LinSpec LinProofs.
Import ListNotations.
Local Open Scope R_scope.

Definition both {A} (P : A -> A -> Prop) (x y : option A) : Prop :=
  match x, y with Some a, Some b => P a b | None, None => True | _, _ => False end.

Lemma zip2_combine : forall A B D (f : A -> B -> D) a b, map (fun p => f (fst p) (snd p)) (combine a b) = zip2 f a b.
Proof. induction a as [|x a IH]; intros [|y b]; cbn; try reflexivity. rewrite IH. reflexivity. Qed.

(** Multiplying the samples of each burst by a number of its own multiplies the
    powers of its look by the squared modulus of that number, through calibration,
    azimuth processing, geometry corrections and range compression; looks exist for
    both or for none. *)
Theorem C119_amplified : forall f1 f2 fl k s N zp nlooks gs l, length gs = length l ->
  both (louder gs) (looks f1 f2 fl k s N zp nlooks l)
       (looks f1 f2 fl k s N zp nlooks (map (fun p => amplified (fst p) (snd p)) (combine gs l))).
Proof.
  intros f1 f2 fl k s N zp nlooks gs l L. rewrite zip2_combine. unfold looks.
  destruct (calibrated_all_mul f1 f2 k N gs l L) as (E & Q). rewrite E.
  destruct (calibrated_all f1 f2 k N l) as [os|]; [|exact I]. cbn [option_map].
  assert (LO : length gs = length os) by (rewrite (Q os eq_refl); exact L).
  rewrite !image_power, !image_iq_eq, (gathered_all_mul k N gs os LO).
  destruct (gathered_all k N os) as [bs|] eqn:G; [|exact I]. cbn [option_map].
  assert (LB : length gs = length bs) by (rewrite (gathered_all_length _ _ _ _ G); exact LO).
  unfold enough. rewrite zip2_length, LB, Nat.min_id.
  destruct (negb _); [|exact I]. cbn [option_map both]. apply louder_firstn. exact LB.
Qed.
Print Assumptions C119_amplified.

(** With CAL1, the powers of a look fall by the decibels by which the automatic
    gain of its burst is higher. *)
Definition attenuation (d : R) : C := (Rpower 10 (- d / 20), 0).
Lemma root_power : forall x, sqrt (Rpower 10 x) = Rpower 10 (x / 2).
Proof.
  intros x. rewrite <- (Rpower_sqrt (Rpower 10 x)) by (unfold Rpower; apply exp_pos). rewrite Rpower_mult. f_equal.
Qed.
Lemma factor_gain : forall d fixed p ph, cal1_factor (fixed + d) p ph = Cmul (attenuation d) (cal1_factor fixed p ph).
Proof.
  intros d fixed p ph. unfold cal1_factor, attenuation, Cmul, Cscal, cis. cbn [fst snd]. rewrite !root_power.
  assert (E : sqrt p / Rpower 10 ((fixed + d) / 10 / 2) = Rpower 10 (- d / 20) * (sqrt p / Rpower 10 (fixed / 10 / 2))).
  { unfold Rdiv at 1 5. rewrite <- !Rpower_Ropp. rewrite (Rmult_comm (Rpower 10 (- d / 20))), Rmult_assoc, <- Rpower_plus.
    do 2 f_equal. field. }
  rewrite E. f_equal; ring.
Qed.
Lemma calibrated_gain : forall f2 k N d r, calibrated true f2 k N (regained d r) = calibrated true f2 k N (amplified (attenuation d) r).
Proof.
  intros f2 k N d r. unfold calibrated. cbn [r_agc r_sig0 r_power r_phase r_table r_burst amplified regained b_wfm with_wfm].
  assert (E : cal1 true (k_n k) (r_agc r + d) (r_sig0 r) (r_power r) (r_phase r) (b_wfm (r_burst r)) =
              cal1 true (k_n k) (r_agc r) (r_sig0 r) (r_power r) (r_phase r) (map (map (Cmul (attenuation d))) (b_wfm (r_burst r)))).
  { rewrite cal1_mul. unfold cal1. cbv zeta. destruct (negb _); [reflexivity|]. destruct (forallb nonnegative (r_power r)); [|reflexivity].
    cbn [onS]. rewrite map_zip2. do 2 f_equal. replace (r_agc r + d - r_sig0 r) with (r_agc r - r_sig0 r + d) by ring.
    set (fixed := r_agc r - r_sig0 r). generalize (r_phase r) as ph. generalize (b_wfm (r_burst r)) as w. induction (r_power r) as [|p l IH]; intros w ph; [reflexivity|].
    destruct ph as [|h ph]; [reflexivity|]. destruct w as [|row w]; [reflexivity|]. cbn [zip2]. rewrite IH. f_equal.
    rewrite map_map. apply map_ext. intros z. rewrite factor_gain. ring. }
  rewrite E. reflexivity.
Qed.
Theorem C119_gain : forall f2 fl k s N zp nlooks ds l, length ds = length l ->
  both (louder (map attenuation ds)) (looks true f2 fl k s N zp nlooks l)
       (looks true f2 fl k s N zp nlooks (map (fun p => regained (fst p) (snd p)) (combine ds l))) /\
  forall d, Cnorm2 (attenuation d) = Rpower 10 (- d / 10).
Proof.
  intros f2 fl k s N zp nlooks ds l L. split.
  - pose proof (C119_amplified true f2 fl k s N zp nlooks (map attenuation ds) l ltac:(rewrite map_length; exact L)) as H.
    assert (E : looks true f2 fl k s N zp nlooks (map (fun p => regained (fst p) (snd p)) (combine ds l)) =
                looks true f2 fl k s N zp nlooks (map (fun p => amplified (fst p) (snd p)) (combine (map attenuation ds) l))).
    { unfold looks. assert (A : calibrated_all true f2 k N (map (fun p => regained (fst p) (snd p)) (combine ds l)) =
                                calibrated_all true f2 k N (map (fun p => amplified (fst p) (snd p)) (combine (map attenuation ds) l))).
      { clear. revert l. induction ds as [|d ds IH]; intros [|r l]; cbn [map combine calibrated_all fst snd]; try reflexivity.
        rewrite calibrated_gain, IH. reflexivity. }
      rewrite A. reflexivity. }
    rewrite E. exact H.
  - intros d. unfold Cnorm2, attenuation. cbn [fst snd]. rewrite Rmult_0_l, Rplus_0_r, <- Rpower_plus. f_equal. field.
Qed.
Print Assumptions C119_gain.
(** A phase of each burst does not matter. *)
Lemma louder_one : forall gs rows rows', louder gs rows rows' -> Forall (fun g => Cnorm2 g = 1) gs -> rows' = rows.
Proof.
  induction 1 as [|g gs row rows rows' H IH]; intros F; [reflexivity|]. apply Forall_cons_iff in F. destruct F as (F1 & F2).
  rewrite (IH F2), F1. f_equal. rewrite <- (map_id row) at 2. apply map_ext. intros. ring.
Qed.
Theorem C119_phase : forall f1 f2 fl k s N zp nlooks phis l, length phis = length l ->
  looks f1 f2 fl k s N zp nlooks (map (fun p => amplified (cis (fst p)) (snd p)) (combine phis l)) =
  looks f1 f2 fl k s N zp nlooks l.
Proof.
  intros f1 f2 fl k s N zp nlooks phis l L.
  pose proof (C119_amplified f1 f2 fl k s N zp nlooks (map cis phis) l ltac:(rewrite map_length; exact L)) as H.
  assert (E : map (fun p => amplified (fst p) (snd p)) (combine (map cis phis) l) =
              map (fun p => amplified (cis (fst p)) (snd p)) (combine phis l)).
  { clear. revert l. induction phis as [|x a IH]; intros [|y b]; cbn; try reflexivity. rewrite IH. reflexivity. }
  rewrite E in H. unfold both in H.
  destruct (looks f1 f2 fl k s N zp nlooks l) as [r|], (looks f1 f2 fl k s N zp nlooks (map _ _)) as [r'|]; try contradiction; [|reflexivity].
  f_equal. apply (louder_one _ _ _ H). apply Forall_forall. intros g I. apply in_map_iff in I. destruct I as (x & <- & _).
  apply cis_norm.
Qed.
Print Assumptions C119_phase.

(** Complex looks add up when echoes do. *)
Definition fst3 {A B D} (t : A * B * D) : A := fst (fst t).
Definition snd3 {A B D} (t : A * B * D) : B := snd (fst t).
Lemma gathered_all_nth : forall k N l, (0 < N)%nat -> Forall (usable N) l -> forall fl s zp nlooks, (0 < zp * k_n k)%nat ->
  exists iq, image_iq fl k s N zp nlooks l = Some iq /\ length iq = Nat.min (length l) nlooks /\
  forall i o, nth_error l i = Some o -> (i < nlooks)%nat -> exists g, gathered k N o = Some g /\
    nth i iq [] = look_of fl k s zp g.
Proof.
  intros k N l HN Hl fl s zp nlooks Hz. rewrite image_iq_eq.
  destruct (gathered_list k N l HN Hl) as (bs & E & L & Q). rewrite E. unfold enough.
  destruct (Nat.eqb_spec (zp * k_n k) 0); [lia|]. cbn [andb negb].
  eexists. split; [reflexivity|]. split; [rewrite map_length, firstn_length; lia|].
  intros i o Ho Hi. destruct (Q i o Ho) as (g & G1 & G2). exists g. split; [exact G2|].
  assert (Hb : (i < length bs)%nat) by (apply nth_error_Some; congruence).
  erewrite nth_error_nth; [reflexivity|]. rewrite nth_error_map, nth_error_firstn'.
  replace (Nat.ltb i nlooks) with true by (symmetry; apply Nat.ltb_lt; lia). rewrite G1. reflexivity.
Qed.
Lemma superposed_beam : forall N n o1 o2 o b, superposed N n o1 o2 o -> in_beam N o1 b -> in_beam N o2 b /\ in_beam N o b.
Proof. intros N n o1 o2 o b (E2 & E & _) H. rewrite E2, E. split; exact H. Qed.
Lemma shaped_usable : forall N n o b, shaped N n o -> in_beam N o b -> usable N o.
Proof. intros N n o b (L & _) H. split; [exists b; exact H|exact L]. Qed.
Lemma superposed_look : forall fl k s N zp o1 o2 o b m, (0 < N)%nat -> (m < zp * k_n k)%nat ->
  superposed N (k_n k) o1 o2 o -> in_beam N o1 b ->
  forall g1 g2 g, gathered k N o1 = Some g1 -> gathered k N o2 = Some g2 -> gathered k N o = Some g ->
  nth m (look_of fl k s zp g) C0 = Cadd (nth m (look_of fl k s zp g1) C0) (nth m (look_of fl k s zp g2) C0).
Proof.
  intros fl k s N zp o1 o2 o b m HN Hm S B g1 g2 g G1 G2 G.
  destruct (superposed_beam _ _ _ _ _ _ S B) as (B2 & B3). destruct S as (E2 & E & (W1 & _) & (W2 & _) & (W & _) & A).
  destruct (gathered_sum k N o1 b HN B W1) as (h1 & H1 & X1 & Y1 & Z1 & V1 & D1 & A1 & T1 & L1 & R1).
  destruct (gathered_sum k N o2 b HN B2 W2) as (h2 & H2 & X2 & Y2 & Z2 & V2 & D2 & A2 & T2 & L2 & R2).
  destruct (gathered_sum k N o b HN B3 W) as (h & H & X & Y & Z & V & D & A' & T & L & R).
  assert (h1 = g1) by congruence. assert (h2 = g2) by congruence. assert (h = g) by congruence. subst h1 h2 h. clear H1 H2 H.
  rewrite !look_sum by assumption.
  assert (C12 : forall f, doppler_correction f k g1 = doppler_correction f k g /\ doppler_correction f k g2 = doppler_correction f k g).
  { intros f. unfold doppler_correction. rewrite V1, V2, V, A1, A2, A', T1, T2, T. rewrite E2, E. split; reflexivity. }
  assert (S12 : forall f, slant_correction f k s g1 = slant_correction f k s g /\ slant_correction f k s g2 = slant_correction f k s g).
  { intros f. unfold slant_correction, range_to. rewrite X1, X2, X, Y1, Y2, Y, Z1, Z2, Z, T1, T2, T. rewrite E2, E. split; reflexivity. }
  assert (D12 : win_delay_correction (s_wd s) g1 = win_delay_correction (s_wd s) g /\
                win_delay_correction (s_wd s) g2 = win_delay_correction (s_wd s) g).
  { unfold win_delay_correction. rewrite D1, D2, D, T1, T2, T. rewrite E2, E. split; reflexivity. }
  destruct (C12 fl) as (-> & ->). destruct (S12 fl) as (-> & ->). destruct D12 as (-> & ->).
  rewrite !Cscal_mul.
  match goal with |- Cmul ?c ?x = Cadd (Cmul ?c ?y) (Cmul ?c ?z) => assert (Q : x = Cadd y z); [|rewrite Q; ring] end.
  rewrite <- csum_add. apply csum_ext. intros j Hj. rewrite (R j Hj), (R1 j Hj), (R2 j Hj).
  assert (Q : csum (fun p => Cmul (cis (steer_phase (obs_radar k o) b p)) (sample o p j)) N =
    Cadd (csum (fun p => Cmul (cis (steer_phase (obs_radar k o1) b p)) (sample o1 p j)) N)
         (csum (fun p => Cmul (cis (steer_phase (obs_radar k o2) b p)) (sample o2 p j)) N)).
  { rewrite <- csum_add. apply csum_ext. intros p Hp. rewrite (A p j Hp Hj).
    replace (obs_radar k o) with (obs_radar k o1) by (rewrite E; reflexivity).
    replace (obs_radar k o2) with (obs_radar k o1) by (rewrite E2; reflexivity). ring. }
  rewrite Q, !Cscal_mul. ring.
Qed.
Theorem C119_superposition : forall fl k s N zp nlooks (l : list (obs * obs * obs)),
  (0 < N)%nat -> (0 < zp * k_n k)%nat ->
  Forall (fun t => superposed N (k_n k) (fst3 t) (snd3 t) (snd t) /\ exists b, in_beam N (fst3 t) b) l ->
  exists q1 q2 q, image_iq fl k s N zp nlooks (map fst3 l) = Some q1 /\ image_iq fl k s N zp nlooks (map snd3 l) = Some q2 /\
    image_iq fl k s N zp nlooks (map snd l) = Some q /\
    image fl k s N zp nlooks (map snd l) = Some (map power_row q) /\
    forall i m, (i < length l)%nat -> (i < nlooks)%nat -> (m < zp * k_n k)%nat ->
      nth m (nth i q []) C0 = Cadd (nth m (nth i q1 []) C0) (nth m (nth i q2 []) C0).
Proof.
  intros fl k s N zp nlooks l HN Hz F.
  assert (U : Forall (usable N) (map fst3 l) /\ Forall (usable N) (map snd3 l) /\ Forall (usable N) (map snd l)).
  { rewrite !Forall_map, !Forall_forall. rewrite Forall_forall in F.
    split; [|split]; intros t I; destruct (F t I) as (S & b & B); destruct (superposed_beam _ _ _ _ _ _ S B) as (B2 & B3);
      destruct S as (_ & _ & S1 & S2 & S3 & _); eapply shaped_usable; eauto. }
  destruct U as (U1 & U2 & U3).
  destruct (gathered_all_nth k N _ HN U1 fl s zp nlooks Hz) as (q1 & E1 & L1 & Q1).
  destruct (gathered_all_nth k N _ HN U2 fl s zp nlooks Hz) as (q2 & E2 & L2 & Q2).
  destruct (gathered_all_nth k N _ HN U3 fl s zp nlooks Hz) as (q & E & L & Q).
  exists q1, q2, q. do 3 (split; [assumption|]). split; [rewrite image_power, E; reflexivity|].
  intros i m Hi Hl Hm. destruct (nth_error l i) as [t|] eqn:T; [|apply nth_error_None in T; lia].
  destruct (Q1 i (fst3 t) ltac:(rewrite nth_error_map, T; reflexivity) Hl) as (g1 & G1 & ->).
  destruct (Q2 i (snd3 t) ltac:(rewrite nth_error_map, T; reflexivity) Hl) as (g2 & G2 & ->).
  destruct (Q i (snd t) ltac:(rewrite nth_error_map, T; reflexivity) Hl) as (g & G & ->).
  rewrite Forall_forall in F. destruct (F t (nth_error_In _ _ T)) as (S & b & B).
  exact (superposed_look fl k s N zp _ _ _ b m HN Hm S B g1 g2 g G1 G2 G).
Qed.
Print Assumptions C119_superposition.

(** Multilooking, with or without antenna weighting: beams whose powers are
    multiplied by one number give the waveform multiplied by that number, and
    everything else as before; failures are the same. *)
Section Mlook.
Variable q : Q.
Local Notation R2 := (Forall2 (fun x y => y == q * x)%Q).
Lemma vzip_sum : forall a a' b b', R2 a a' -> R2 b b' ->
  match vzip Qplus a b, vzip Qplus a' b' with Ok x, Ok y => R2 x y | Err e, Err e' => e = e' | _, _ => False end.
Proof.
  intros a a' b b' H. revert b b'. induction H as [|x y a a' E H IH]; intros b b' [|u v b0 b0' E' H']; cbn; try reflexivity; [constructor|].
  specialize (IH _ _ H'). destruct (vzip Qplus a b0), (vzip Qplus a' b0'); try contradiction; cbn; [|exact IH].
  constructor; [|exact IH]. rewrite E, E'. ring.
Qed.
Lemma vzip_mask : forall a a' m, R2 a a' ->
  match vzip Qmult a m, vzip Qmult a' m with Ok x, Ok y => R2 x y | Err e, Err e' => e = e' | _, _ => False end.
Proof.
  intros a a' m H. revert m. induction H as [|x y a a' E H IH]; intros [|u m]; cbn; try reflexivity; [constructor|].
  specialize (IH m). destruct (vzip Qmult a m), (vzip Qmult a' m); try contradiction; cbn; [|exact IH].
  constructor; [|exact IH]. rewrite E. ring.
Qed.
Definition acc_rel (a a' : acc) : Prop :=
  c_n a' = c_n a /\ c_start a' = c_start a /\ c_stop a' = c_stop a /\ R2 (c_sum a) (c_sum a') /\ c_cnt a' = c_cnt a.
Definition both_res {A B} (P : A -> B -> Prop) (x : res mlook_err A) (y : res mlook_err B) : Prop :=
  match x, y with Ok a, Ok b => P a b | Err e, Err e' => e = e' | _, _ => False end.
Lemma ones_same : forall (s s' : list Q), R2 s s' -> map (fun _ => 1%Q) s' = map (fun _ => 1%Q) s.
Proof. induction 1; cbn; [reflexivity|]. congruence. Qed.
Lemma step_rel : forall avoid i b b' a a', brighter q b b' -> acc_rel a a' ->
  both_res acc_rel (mlook_step avoid i b a) (mlook_step avoid i b' a').
Proof.
  intros avoid i b b' a a' (E & H) (A1 & A2 & A3 & A4 & A5). unfold mlook_step.
  assert (V : m_vec b' = m_vec b) by (rewrite E; reflexivity). assert (M : m_mask b' = m_mask b) by (rewrite E; reflexivity).
  rewrite V, M, A1, A2, A5, (ones_same _ _ A4).
  destruct (Qeq_bool (m_vec b) 0); [cbn; unfold acc_rel; auto|]. cbv zeta.
  set (mask := if avoid then m_mask b else map (fun _ => 1%Q) (c_sum a)).
  pose proof (vzip_mask _ _ mask H) as P.
  destruct (vzip Qmult (m_row b) mask) as [p|e], (vzip Qmult (m_row b') mask) as [p'|e']; try contradiction; cbn [bind]; [|cbn; exact P].
  pose proof (vzip_sum _ _ _ _ A4 P) as S.
  destruct (vzip Qplus (c_sum a) p) as [t|e], (vzip Qplus (c_sum a') p') as [t'|e']; try contradiction; cbn [bind]; [|cbn; exact S].
  destruct (vzip Qplus (c_cnt a) mask) as [c|e]; cbn; [|reflexivity]. unfold acc_rel; cbn. auto.
Qed.
Lemma loop_rel : forall avoid l l', Forall2 (brighter q) l l' -> forall i a a', acc_rel a a' ->
  both_res acc_rel (mlook_loop avoid i l a) (mlook_loop avoid i l' a').
Proof.
  induction 1 as [|b b' l l' B H IH]; intros i a a' A; cbn [mlook_loop]; [exact A|].
  pose proof (step_rel avoid i b b' a a' B A) as S.
  destruct (mlook_step avoid i b a) as [x|e], (mlook_step avoid i b' a') as [x'|e']; try contradiction; cbn [bind]; [|cbn; exact S].
  apply IH. exact S.
Qed.
Lemma weigh_rel : forall t n l l', Forall2 (brighter q) l l' ->
  both_res (Forall2 (brighter q)) (weigh t n l) (weigh t n l').
Proof.
  intros t n l l' H. revert n. induction H as [|b b' l l' B H IH]; intros [|n]; cbn [weigh].
  1:{ cbn. constructor. } 1:{ cbn. reflexivity. } 1:{ cbn. constructor; assumption. }
  destruct B as (E & R). assert (P : m_pointing b' = m_pointing b) by (rewrite E; reflexivity). rewrite P.
  destruct (select_weight t (m_pointing b)) as [w|e]; cbn [bind]; [|cbn; reflexivity]. specialize (IH n).
  destruct (weigh t n l) as [x|e], (weigh t n l') as [x'|e']; try contradiction; cbn [bind]; [|cbn; exact IH].
  cbn. constructor; [|exact IH]. split.
  - rewrite E at 1. reflexivity.
  - cbn. clear -R. induction R as [|x y a a' E R IH]; cbn; constructor; [|exact IH]. rewrite E. ring.
Qed.
Lemma field_same : forall {A} (f : mbeam -> A), (forall b r, f (with_row b r) = f b) -> forall l l', Forall2 (brighter q) l l' -> map f l' = map f l.
Proof. intros A f Hf. induction 1 as [|b b' l l' (E & _) H IH]; cbn; [reflexivity|]. rewrite IH, E, Hf. reflexivity. Qed.
Lemma nth_same : forall l l' i, Forall2 (brighter q) l l' ->
  match nth_error l i, nth_error l' i with
  | Some b, Some b' => brighter q b b'
  | None, None => True
  | _, _ => False
  end.
Proof. intros l l' i H. revert i. induction H as [|b b' l l' B H IH]; intros [|i]; cbn; auto. apply IH. Qed.
Lemma divide_rel : forall s s' c, R2 s s' -> brighter_wave q (divide s c) (divide s' c).
Proof.
  intros s s' c H. revert c. induction H as [|x y s s' E H IH]; intros [|u c]; cbn; try constructor; [|apply IH].
  destruct (Qeq_bool u 0); [exact I|]. rewrite E. unfold Qdiv. ring.
Qed.
Lemma rel_length : forall {A B} (P : A -> B -> Prop) l l', Forall2 P l l' -> length l = length l'.
Proof. induction 1; cbn; congruence. Qed.
Lemma firstn_rel : forall {A B} (P : A -> B -> Prop) n l l', Forall2 P l l' -> Forall2 P (firstn n l) (firstn n l').
Proof. intros A B P n l l' H. revert n. induction H; intros [|n]; cbn; constructor; auto. Qed.
End Mlook.
Theorem C119_multilook : forall q t flag avoid nlooks nsamp size beams beams', Forall2 (brighter q) beams beams' ->
  match multilooking t flag avoid nlooks nsamp size beams, multilooking t flag avoid nlooks nsamp size beams' with
  | Ok r, Ok r' => brighter_wave q (r_wave r) (r_wave r') /\ same_selection r r'
  | Err e, Err e' => e = e'
  | _, _ => False
  end.
Proof.
  intros q t flag avoid nlooks nsamp size beams beams' H0. unfold multilooking, antenna_weighting.
  assert (W : both_res (Forall2 (brighter q)) (if flag then weigh t (Nat.min size nlooks) beams else Ok beams)
                (if flag then weigh t (Nat.min size nlooks) beams' else Ok beams')).
  { destruct flag; [apply weigh_rel; exact H0|exact H0]. }
  destruct (if flag then weigh t (Nat.min size nlooks) beams else Ok beams) as [l|e],
           (if flag then weigh t (Nat.min size nlooks) beams' else Ok beams') as [l'|e']; try contradiction; cbn [bind]; [|exact W].
  cbn in W. unfold multilook. cbv zeta. rewrite (rel_length _ _ _ W).
  destruct (Nat.ltb (length l') (Nat.min nlooks size)); [reflexivity|].
  assert (A0 : acc_rel q {| c_n := 0; c_start := None; c_stop := None; c_sum := repeat 0%Q nsamp; c_cnt := repeat 0%Q nsamp |}
                 {| c_n := 0; c_start := None; c_stop := None; c_sum := repeat 0%Q nsamp; c_cnt := repeat 0%Q nsamp |}).
  { unfold acc_rel; cbn. repeat split. clear. induction nsamp; cbn; constructor; [ring|assumption]. }
  pose proof (loop_rel q avoid _ _ (firstn_rel _ (Nat.min nlooks size) _ _ W) 0%nat _ _ A0) as L.
  destruct (mlook_loop avoid 0 (firstn (Nat.min nlooks size) l) _) as [a|e], (mlook_loop avoid 0 (firstn (Nat.min nlooks size) l') _) as [a'|e'];
    try contradiction; cbn [bind]; [|exact L].
  destruct L as (L1 & L2 & L3 & L4 & L5). rewrite L2, L3, L1, L5. pose proof (divide_rel q _ _ (c_cnt a) L4) as DV.
  destruct (c_start a) as [i|]; [destruct (c_stop a) as [j|]|]; try (split; [exact DV|reflexivity]).
  pose proof (nth_same q l l' i W) as Ni. pose proof (nth_same q l l' j W) as Nj.
  pose proof (nth_same q l l' 0%nat W) as N0. pose proof (nth_same q l l' (Nat.min nlooks size - 1) W) as N1.
  destruct (nth_error l i) as [bi|], (nth_error l' i) as [bi'|]; try contradiction; [|reflexivity].
  destruct (nth_error l j) as [bj|], (nth_error l' j) as [bj'|]; try contradiction; [|reflexivity].
  destruct (nth_error l 0) as [b0|], (nth_error l' 0) as [b0'|]; try contradiction; [|reflexivity].
  destruct (nth_error l (Nat.min nlooks size - 1)) as [b1|], (nth_error l' (Nat.min nlooks size - 1)) as [b1'|]; try contradiction; [|reflexivity].
  split; [exact DV|]. unfold same_selection. cbn.
  destruct Ni as (-> & _), Nj as (-> & _), N0 as (-> & _), N1 as (-> & _). cbn.
  rewrite (field_same q m_vec ltac:(reflexivity) _ _ W), (field_same q m_angle ltac:(reflexivity) _ _ W),
    (field_same q m_look ltac:(reflexivity) _ _ W). reflexivity.
Qed.
Print Assumptions C119_multilook.

(** ** C120 *)

(** A window that opens later, for each burst by its own time, does not change the
    image. *)
Lemma tracked_look : forall fl k s N zp d o o' b m, (0 < N)%nat -> (m < zp * k_n k)%nat -> k_pi k = PI ->
  tracked N (k_n k) d o o' -> in_beam N o b ->
  forall g g', gathered k N o = Some g -> gathered k N o' = Some g' ->
  nth m (look_of fl k s zp g') C0 = nth m (look_of fl k s zp g) C0.
Proof.
  intros fl k s N zp d o o' b m HN Hm Kpi (E & (W & _) & (W' & _) & A) B g g' G G'.
  assert (B' : in_beam N o' b) by (rewrite E; exact B).
  destruct (gathered_sum k N o b HN B W) as (h & H & X & Y & Z & V & D & An & T & L & R).
  destruct (gathered_sum k N o' b HN B' W') as (h' & H' & X' & Y' & Z' & V' & D' & An' & T' & L' & R').
  assert (h = g) by congruence. assert (h' = g') by congruence. subst h h'. clear H H'.
  assert (Kn : (0 < k_n k)%nat) by nia. destruct B as (_ & _ & T0).
  rewrite !look_sum by assumption. f_equal. apply csum_ext. intros j Hj. f_equal. rewrite (R j Hj), (R' j Hj).
  assert (Q : csum (fun p => Cmul (cis (steer_phase (obs_radar k o') b p)) (sample o' p j)) N =
    Cmul (cis (- (2 * PI * (d / b_t0 o) * INR j / INR (k_n k))))
         (csum (fun p => Cmul (cis (steer_phase (obs_radar k o) b p)) (sample o p j)) N)).
  { rewrite <- csum_mul_l. apply csum_ext. intros p Hp. rewrite (A p j Hp Hj).
    replace (obs_radar k o') with (obs_radar k o) by (rewrite E; reflexivity). ring. }
  rewrite Q. rewrite Cscal_Cmul.
  match goal with |- Cmul ?x (Cmul ?y ?z) = Cmul ?w ?z => assert (P : Cmul x y = w); [|rewrite <- P; ring] end.
  rewrite <- cis_add. f_equal.
  assert (DC : doppler_correction fl k g' = doppler_correction fl k g).
  { unfold doppler_correction. rewrite V, V', An, An', T, T'. rewrite E. reflexivity. }
  assert (SC : slant_correction fl k s g' = slant_correction fl k s g).
  { unfold slant_correction, range_to. rewrite X, X', Y, Y', Z, Z', T, T'. rewrite E. reflexivity. }
  assert (WC : win_delay_correction (s_wd s) g' = win_delay_correction (s_wd s) g + d / b_t0 o).
  { unfold win_delay_correction. rewrite D, D', T, T'. rewrite E. cbn. field. exact T0. }
  rewrite DC, SC, WC, Kpi. field. split; [apply not_0_INR; lia|exact T0].
Qed.
Theorem C120_tracking : forall fl k s N zp nlooks (l : list (R * obs * obs)),
  (0 < N)%nat -> (0 < zp * k_n k)%nat -> k_pi k = PI ->
  Forall (fun t => tracked N (k_n k) (fst3 t) (snd3 t) (snd t) /\ exists b, in_beam N (snd3 t) b) l ->
  exists rows, image fl k s N zp nlooks (map snd3 l) = Some rows /\ image fl k s N zp nlooks (map snd l) = Some rows.
Proof.
  intros fl k s N zp nlooks l HN Hz Kpi F.
  assert (U : Forall (usable N) (map snd3 l) /\ Forall (usable N) (map snd l)).
  { rewrite !Forall_map, !Forall_forall. rewrite Forall_forall in F.
    split; intros t I; destruct (F t I) as ((E & S1 & S2 & _) & b & B); eapply shaped_usable; eauto. rewrite E. exact B. }
  destruct U as (U1 & U2).
  destruct (gathered_all_nth k N _ HN U1 fl s zp nlooks Hz) as (q & E & L & Q).
  destruct (gathered_all_nth k N _ HN U2 fl s zp nlooks Hz) as (q' & E' & L' & Q').
  rewrite !image_power, E, E'. exists (map power_row q). split; [reflexivity|]. cbn [option_map]. do 2 f_equal.
  rewrite map_length in L, L'. apply (list_ext _ _ _ []); [lia|]. intros i Hi.
  destruct (nth_error l i) as [t|] eqn:T; [|apply nth_error_None in T; lia].
  destruct (Q i (snd3 t) ltac:(rewrite nth_error_map, T; reflexivity) ltac:(lia)) as (g & G & ->).
  destruct (Q' i (snd t) ltac:(rewrite nth_error_map, T; reflexivity) ltac:(lia)) as (g' & G' & ->).
  rewrite Forall_forall in F. destruct (F t (nth_error_In _ _ T)) as (S & b & B).
  apply (list_ext _ _ _ C0); [rewrite !look_length; reflexivity|]. intros m Hm. rewrite look_length in Hm.
  exact (tracked_look fl k s N zp _ _ _ b m HN Hm Kpi S B g g' G G').
Qed.
Print Assumptions C120_tracking.

(** The order of the bursts shows only in the order of the looks. *)
Lemma gathered_perm : forall k N l l', Permutation l l' -> both (@Permutation gbeam) (gathered_all k N l) (gathered_all k N l').
Proof.
  induction 1 as [|o l l' H IH|o o' l|l1 l2 l3 H1 IH1 H2 IH2]; cbn [gathered_all].
  - cbn. constructor.
  - destruct (gathered k N o); [|exact I]. unfold both in *.
    destruct (gathered_all k N l), (gathered_all k N l'); try contradiction; [|exact I]. constructor. exact IH.
  - destruct (gathered k N o), (gathered k N o'); try exact I. destruct (gathered_all k N l); [|exact I]. cbn. constructor.
  - unfold both in *. destruct (gathered_all k N l1), (gathered_all k N l2), (gathered_all k N l3); try contradiction; [|exact I].
    eapply perm_trans; eauto.
Qed.
Lemma perm_sum : forall l l', Permutation l l' -> fold_right Rplus 0 l = fold_right Rplus 0 l'.
Proof. induction 1; cbn; lra. Qed.
Theorem C120_order : forall fl k s N zp nlooks l l', Permutation l l' -> (length l <= nlooks)%nat ->
  both (fun rows rows' => Permutation rows rows' /\ forall m, mean_power rows m = mean_power rows' m)
       (image fl k s N zp nlooks l) (image fl k s N zp nlooks l').
Proof.
  intros fl k s N zp nlooks l l' P L. rewrite !image_power, !image_iq_eq. pose proof (gathered_perm k N l l' P) as G.
  destruct (gathered_all k N l) as [bs|] eqn:E, (gathered_all k N l') as [bs'|] eqn:E'; cbn in G; try contradiction; [|exact I].
  apply gathered_all_length in E. apply gathered_all_length in E'. pose proof (Permutation_length P) as PL.
  unfold enough. rewrite E, E', <- PL. destruct (negb _); [|exact I]. cbn [option_map both].
  rewrite !firstn_all2 by lia.
  assert (R : Permutation (map power_row (map (look_of fl k s zp) bs)) (map power_row (map (look_of fl k s zp) bs')))
    by (do 2 apply Permutation_map; exact G).
  split; [exact R|]. intros m. unfold mean_power. rewrite (Permutation_length R). f_equal.
  apply perm_sum. apply Permutation_map. exact R.
Qed.
Print Assumptions C120_order.

(** Bursts of two pulses and two samples: an echo twice as strong and turned by a
    quarter, the sum of two echoes, a window half a sample later. *)
Definition x_k : gconst := {| k_c := 1; k_pi := PI; k_lam := 1; k_plen := 1; k_bw := 1; k_n := 2 |}.
Definition x_fl : gflags := {| f_doppler := true; f_slant := true; f_align := 0 |}.
Definition x_s : gsurf := {| sx := 0; sy := 0; sz := 0; s_wd := 2 |}.
Definition x_o (w : list (list C)) : obs :=
  {| b_x := 0; b_y := 0; b_z := 1; b_speed := 1; b_pri := 1; b_wd := 2; b_t0 := 1; b_angles := [0; 1]; b_pos := 1; b_wfm := w |}.
Definition x_w1 : list (list C) := [[(1, 0); (0, 1)]; [(2, 0); (0, 3)]].
Definition x_w2 : list (list C) := [[(0, 1); (1, 1)]; [(5, 0); (0, 0)]].
Definition x_w3 : list (list C) := [[(1 + 0, 0 + 1); (0 + 1, 1 + 1)]; [(2 + 5, 0 + 0); (0 + 0, 3 + 0)]].
Definition x_turn (z : C) : C := Cmul (cis (- (2 * PI * (/ 2 / 1) * INR 1 / INR 2))) z.
Definition x_turn0 (z : C) : C := Cmul (cis (- (2 * PI * (/ 2 / 1) * INR 0 / INR 2))) z.
Definition x_w4 : list (list C) := [[x_turn0 (1, 0); x_turn (0, 1)]; [x_turn0 (2, 0); x_turn (0, 3)]].
Definition x_raw (w : list (list C)) : raw :=
  {| r_burst := x_o w; r_agc := 0; r_sig0 := 0; r_power := [1; 1]; r_phase := [0; 0]; r_table := [1; 1] |}.
Lemma two : forall p, (p < 2)%nat -> p = 0%nat \/ p = 1%nat.
Proof. intros. lia. Qed.
Example C119_example :
  superposed 2 2 (x_o x_w1) (x_o x_w2) (x_o x_w3) /\ in_beam 2 (x_o x_w1) 1 /\
  tracked 2 2 (/ 2) (x_o x_w1) (with_delay (x_o x_w4) (2 + / 2)) /\
  (exists rows, looks true true x_fl x_k x_s 2 1 4 [x_raw x_w1] = Some rows /\ length rows = 1%nat) /\
  (exists rows, looks true true x_fl x_k x_s 2 1 4 [amplified (0, 2) (x_raw x_w1)] = Some rows) /\
  brighter 3 {| m_vec := 1; m_mask := [1]%Q; m_row := [1 # 2]%Q; m_look := 0; m_doppler := 0; m_pointing := 0; m_angle := 0; m_seq := 1 |}
    {| m_vec := 1; m_mask := [1]%Q; m_row := [6 # 4]%Q; m_look := 0; m_doppler := 0; m_pointing := 0; m_angle := 0; m_seq := 1 |}.
Proof.
  assert (L : exists rows, looks true true x_fl x_k x_s 2 1 4 [x_raw x_w1] = Some rows /\ length rows = 1%nat).
  { assert (NN : forallb nonnegative [1; 1] = true).
    { apply forallb_nonnegative. repeat constructor; lra. }
    assert (PP : positive 1 = true) by (apply positive_true; lra).
    unfold looks, calibrated_all, calibrated, cal1, cal2. cbn [x_raw r_power r_phase r_table r_burst b_wfm x_o x_w1 length x_k k_n].
    rewrite NN. cbn [Nat.eqb forallb length andb negb zip2 map]. rewrite PP. cbn [andb]. eexists. split; reflexivity. }
  split; [|split; [|split; [|split; [exact L|split]]]].
  - split; [reflexivity|]. split; [reflexivity|].
    assert (Sh : forall w, w = x_w1 \/ w = x_w2 \/ w = x_w3 -> shaped 2 2 (x_o w)).
    { intros w Hw. split; [destruct Hw as [->|[->| ->]]; reflexivity|].
      intros p Hp. destruct Hw as [->|[->| ->]], (two p Hp) as [->| ->]; reflexivity. }
    split; [auto|]. split; [auto|]. split; [auto|].
    intros p j Hp Hj. destruct (two p Hp) as [->| ->], (two j Hj) as [->| ->]; reflexivity.
  - split; [reflexivity|]. split; [cbn; lia|]. cbn. lra.
  - split; [reflexivity|].
    split; [split; [reflexivity|intros p Hp; destruct (two p Hp) as [->| ->]; reflexivity]|].
    split; [split; [reflexivity|intros p Hp; destruct (two p Hp) as [->| ->]; reflexivity]|].
    intros p j Hp Hj. destruct (two p Hp) as [->| ->], (two j Hj) as [->| ->]; reflexivity.
  - destruct L as (rows & L & _).
    pose proof (C119_amplified true true x_fl x_k x_s 2 1 4 [(0, 2)] [x_raw x_w1] eq_refl) as H. rewrite L in H.
    cbn [combine map fst snd] in H. unfold both in H.
    destruct (looks true true x_fl x_k x_s 2 1 4 [amplified (0, 2) (x_raw x_w1)]) as [r|]; [eauto|contradiction].
  - split; [reflexivity|]. cbn. constructor; [reflexivity|constructor].
Qed.
Example C120_example : exists rows, image x_fl x_k x_s 2 1 4 [x_o x_w1; x_o x_w2] = Some rows /\ length rows = 2%nat.
Proof. eexists. split; reflexivity. Qed.
