(** The locations of the surfaces below a circular pass, as they are written. *)
From Coq Require Import List ZArith Reals Bool Lia Lra Arith.
From Verif Require Import Common GeoModel GeoSpec GeoProps ChainModel WholeModel WholeSpec LaidSpec CircSpec CircProofs.
From Verif Require SurfModel DopModel WaveModel WaveProofs WholeProps LaidProps EndSpec.
Import ListNotations.
Local Open Scope R_scope.

Section Pass.
Variables (u : setup) (g : ring) (K m : nat) (input : list witem).
Hypothesis P : ring_pass u g K m input.
Notation k := (SurfModel.g_k (u_g u)).
Notation all := (bursts_in u input).

Lemma due_between : forall x s pb b p, put g K x s -> flown u g pb p -> flown u g b (S p) -> S p = (S s * K)%nat -> (s * K <= p)%nat ->
  SurfModel.find_new_location k x pb b = Some (Some (SurfModel.between k 1 pb b)) /\
  put g K (SurfModel.new_surface (u_g u) (S s) (Some (SurfModel.between k 1 pb b))) (S s).
Proof.
  intros x s pb b p X PB B E L. destruct (now_due u g K m input P x s pb b p X PB B E L) as (l & F & N).
  assert (l = SurfModel.between k 1 pb b) as ->; [|auto].
  revert F. unfold SurfModel.find_new_location. cbv zeta.
  rewrite (put_angle u g K m input P x s b (S p) X B) by lia. rewrite (put_angle u g K m input P x s pb p X PB) by lia.
  destruct X as (_ & _ & X3 & _). rewrite X3. cbn [SurfModel.flt].
  replace (S p - s * K)%nat with K by lia. destruct (Rlt_dec _ _) as [Z|_]; [lra|]. cbn [SurfModel.weight].
  pose proof (asin_far u g K m input P (p - s * K) K ltac:(lia) ltac:(lia)) as AF. destruct (Req_EM_T _ 0) as [Z|_]; [lra|].
  match goal with |- context [SurfModel.between k ?w pb b] => replace w with 1 by (field; lra) end. intros F. now injection F as <-.
Qed.
Lemma lay_made : forall bs p s x pb, put g K x s -> flown u g pb p -> (s * K <= p < S s * K)%nat -> nth_error all p = Some pb ->
  (forall i b, nth_error bs i = Some b -> nth_error all (S p + i) = Some b) ->
  forall r y, In (r, y) (lay (u_g u) x pb (S s) (S p) bs) ->
  exists q pb' b', r = S q /\ nth_error all q = Some pb' /\ nth_error all (S q) = Some b' /\ SurfModel.s_loc y = Some (SurfModel.between k 1 pb' b').
Proof.
  induction bs as [|b bs IH]; intros p s x pb X PB L NP BS r y I; [destruct I|].
  pose proof (BS 0%nat b eq_refl) as NB. rewrite Nat.add_0_r in NB. destruct (flown_nth u g K m input P (S p) b NB) as (B & _).
  assert (BS' : forall i b, nth_error bs i = Some b -> nth_error all (S (S p) + i) = Some b).
  { intros i b' N. replace (S (S p) + i)%nat with (S p + S i)%nat by lia. apply BS. exact N. }
  cbn [lay] in I. destruct (Nat.eq_dec (S p) (S s * K)) as [E|E].
  - destruct (due_between x s pb b p X PB B E ltac:(lia)) as (F & PN). rewrite F in I. cbv zeta in I. destruct I as [I|I].
    + injection I as <- <-. exists p, pb, b. repeat split; assumption.
    + apply (IH (S p) (S s) _ b PN B ltac:(pose proof (p_K _ _ _ _ _ P); lia) NB BS' r y I).
  - rewrite (not_yet u g K m input P x s pb b (S p) X B ltac:(lia)) in I. apply (IH (S p) s x b X B ltac:(lia) NB BS' r y I).
Qed.

(** The values of a location are those of the burst that completes it. *)
Definition below (b : SurfModel.burst) (s : nat) (l : SurfModel.loc) : Prop :=
  SurfModel.l_time l = SurfModel.b_time b /\ SurfModel.l_rate l = SurfModel.b_rate b /\
  SurfModel.l_surf l = around (r_ground g) (lon g (s * K)) /\ SurfModel.l_sat l = around (r_sat g) (lon g (s * K)) /\ SurfModel.l_vel l = SurfModel.b_vel b /\
  ((s = 0%nat /\ SurfModel.l_surf_lla l = V 0 (lon g 0) (r_ground g - k_major k) /\ SurfModel.l_sat_lla l = SurfModel.b_lla b /\ SurfModel.l_wd l = SurfModel.b_wd b) \/
   ((0 < s)%nat /\ SurfModel.l_surf_lla l = ecef2lla k (around (r_ground g) (lon g (s * K))) /\
    SurfModel.l_sat_lla l = ecef2lla k (around (r_sat g) (lon g (s * K))) /\
    SurfModel.l_wd l = (vz (SurfModel.l_sat_lla l) - vz (SurfModel.l_surf_lla l)) * 2 / k_c k)).
Lemma mix_1 : forall x y, SurfModel.mix 1 x y = y.
Proof. intros x y. unfold SurfModel.mix. ring. Qed.
Lemma ring_loc : forall s r x, nth_error (laid u input) s = Some (r, x) ->
  r = (s * K)%nat /\ exists b l, nth_error all (s * K) = Some b /\ SurfModel.s_loc x = Some l /\ below b s l.
Proof.
  intros s r x N. destruct (laid_nth u g K m input P s r x N) as (-> & PX & LK). split; [reflexivity|].
  pose proof (bursts_length u input (all_valid_in u g K m input P)) as BL.
  destruct PX as (X1 & _ & _ & l & L & L1 & L2 & L3).
  assert (D : (s = 0%nat /\ exists b, nth_error all 0 = Some b /\ SurfModel.first_location k (u_fuel u) SurfModel.loc0 b = Some l) \/
              ((0 < s)%nat /\ exists q pb b, (s * K)%nat = S q /\ nth_error all q = Some pb /\ nth_error all (S q) = Some b /\ l = SurfModel.between k 1 pb b)).
  { unfold laid in N. pose proof (laid_ring u g K m input P) as LR. unfold laid in LR. pose proof lay_made as LM. pose proof (flown_nth u g K m input P) as FN.
    destruct all as [|b bs]; [destruct s; discriminate|]. cbn [lay_all] in N, LR.
    destruct (SurfModel.first_location k (u_fuel u) SurfModel.loc0 b) as [l0|] eqn:F; [|destruct s; discriminate]. cbv zeta in N, LR.
    destruct s as [|s].
    - left. split; [reflexivity|]. cbn in N. injection N as <-. cbn in L. injection L as ->. exists b. split; [reflexivity|exact F].
    - right. split; [lia|]. cbn [nth_error] in N. destruct (FN 0%nat b eq_refl) as (B & _).
      assert (P0 : put g K (SurfModel.new_surface (u_g u) 0 (Some l0)) 0).
      { destruct (ring_count (length input) K) as [|c]; [inversion LR|]. cbn [seq] in LR. inversion LR as [|? ? ? ? (_ & H) _]; subst. exact H. }
      destruct (LM bs 0%nat 0%nat _ b P0 B ltac:(pose proof (p_K _ _ _ _ _ P); lia) eq_refl ltac:(intros i b' Nb; exact Nb) (S s * K)%nat x (nth_error_In _ _ N))
        as (q & pb & b' & E & Nq & Nb & LL).
      exists q, pb, b'. split; [exact E|]. split; [exact Nq|]. split; [exact Nb|]. rewrite L in LL. now injection LL. }
  destruct D as [(-> & b & Nb & F)|(S0 & q & pb & b & E & Nq & Nb & ->)].
  - exists b, l. split; [exact Nb|]. split; [exact L|]. destruct (flown_nth u g K m input P 0%nat b Nb) as ((B1 & B2 & B3 & B4 & B5) & LN).
    unfold SurfModel.first_location in F. rewrite B4 in F. cbn [vx vy vz] in F.
    destruct (normalize (u_fuel u) (k_pi k) 0) as [la|] eqn:E1; [|discriminate]. destruct (normalize (u_fuel u) (k_pi k) (lon g 0)) as [lo|] eqn:E2; [|discriminate].
    assert (NO : forall x y, - PI <= x <= PI -> normalize (u_fuel u) (k_pi k) x = Some y -> y = x).
    { intros z y BX. pose proof (p_fuel _ _ _ _ _ P) as FU. rewrite (p_pi _ _ _ _ _ P). pose proof PI_RGT_0. unfold normalize. destruct (u_fuel u) as [|f]; [lia|].
      cbn [turn_up]. destruct (Rlt_dec z (- PI)); [lra|]. cbn [turn_down]. destruct (Rlt_dec PI z); [lra|]. now intros [= <-]. }
    pose proof PI_RGT_0 as PP. apply NO in E1; [|lra]. apply NO in E2; [|exact (proj1 (p_place _ _ _ _ _ P 0%nat LN))]. subst la lo.
    injection F as <-. unfold below.
    cbn [SurfModel.l_time SurfModel.l_rate SurfModel.l_surf SurfModel.l_sat SurfModel.l_vel SurfModel.l_surf_lla SurfModel.l_sat_lla SurfModel.l_wd] in *.
    split; [reflexivity|]. split; [reflexivity|]. split; [exact L1|]. split; [exact L2|]. split; [reflexivity|]. left.
    split; [reflexivity|]. split; [rewrite B5; f_equal; ring|]. split; [symmetry; exact B4|reflexivity].
  - exists b, (SurfModel.between k 1 pb b). rewrite E. split; [exact Nb|]. split; [exact L|].
    destruct (flown_nth u g K m input P (S q) b Nb) as ((B1 & B2 & B3 & B4 & B5) & LN). unfold below, SurfModel.between. rewrite E.
    cbn [SurfModel.l_time SurfModel.l_rate SurfModel.l_surf SurfModel.l_sat SurfModel.l_vel SurfModel.l_surf_lla SurfModel.l_sat_lla SurfModel.l_wd].
    rewrite !vmix_1, !mix_1. rewrite B1, B2. split; [reflexivity|]. split; [reflexivity|]. split; [reflexivity|]. split; [reflexivity|]. split; [reflexivity|].
    right. split; [exact S0|]. split; [reflexivity|]. split; reflexivity.
Qed.

(** Latitude, longitude and altitudes, on the usual Earth. *)
Hypothesis OB : oblate k.
Hypothesis CO : consistent k.
Hypothesis HI : k_major k - k_minor k ^ 2 / k_major k < r_ground g.
Hypothesis R2 : 2 <= r_ground g ^ 2.
Hypothesis C0 : k_c k <> 0.
Lemma away : forall r t, 2 <= r ^ 2 -> ~ (Rabs (vx (around r t)) < 1 /\ Rabs (vy (around r t)) < 1).
Proof.
  intros r t H (A & B). unfold around in *. cbn [vx vy] in *. apply Rabs_def2 in A, B. pose proof (sin2_cos2 t) as S. unfold Rsqr in S.
  assert (X : (r * cos t) * (r * cos t) < 1) by nra. assert (Y : (r * sin t) * (r * sin t) < 1) by nra. nra.
Qed.
Lemma lla_ring : forall r s, r_ground g <= r -> (0 < s)%nat -> (s * K < length input)%nat ->
  exists w, ecef2lla k (around r (lon g (s * K))) = V 0 w (r - k_major k) /\ (w = lon g (s * K) \/ w = lon g (s * K) + 2 * PI).
Proof.
  intros r s LR S0 LK. assert (LN : - PI < lon g (s * K) <= PI).
  { split; [|apply (p_place _ _ _ _ _ P _ LK)]. pose proof (proj1 (proj1 (p_place _ _ _ _ _ P 0%nat ltac:(lia)))) as L0.
    assert (0 < INR (s * K)) by (apply lt_0_INR; pose proof (p_K _ _ _ _ _ P); nia). pose proof (p_step _ _ _ _ _ P) as ST.
    unfold lon in *. cbn [INR] in L0. assert (0 < INR (s * K) * r_step g) by (apply Rmult_lt_0_compat; assumption). lra. }
  pose proof (C81_equator k (lon g (s * K)) (r - k_major k) OB CO LN) as Q. cbv zeta in Q. rewrite ecef_equator in Q.
  replace (k_major k + (r - k_major k)) with r in Q by ring. pose proof (p_ground _ _ _ _ _ P) as GR. apply Q; [lra|]. apply away. nra.
Qed.
Lemma ring_stated : forall s r x, nth_error (laid u input) s = Some (r, x) ->
  exists b l w, nth_error all (s * K) = Some b /\ SurfModel.s_loc x = Some l /\
    SurfModel.l_time l = SurfModel.b_time b /\ SurfModel.l_rate l = SurfModel.b_rate b /\
    vx (SurfModel.l_surf_lla l) = 0 /\ vy (SurfModel.l_surf_lla l) = w /\ (w = lon g (s * K) \/ w = lon g (s * K) + 2 * PI) /\
    vz (SurfModel.l_sat_lla l) = r_sat g - k_major k /\ SurfModel.l_wd l * k_c k / 2 = r_sat g - r_ground g.
Proof.
  intros s r x N. destruct (laid_nth u g K m input P s r x N) as (_ & _ & LK).
  destruct (ring_loc s r x N) as (-> & b & l & Nb & L & T & RT & _ & _ & _ & Q).
  destruct (flown_nth u g K m input P (s * K)%nat b Nb) as ((B1 & B2 & B3 & B4 & B5) & _).
  destruct Q as [(-> & Q1 & Q2 & Q3)|(S0 & Q1 & Q2 & Q3)].
  - exists b, l, (lon g 0). rewrite Q1, Q2, Q3, B4, B5. cbn [vx vy vz]. repeat split; auto.
  - destruct (lla_ring (r_ground g) s (Rle_refl _) S0 LK) as (w & E & W). destruct (lla_ring (r_sat g) s (Rlt_le _ _ (proj2 (p_ground _ _ _ _ _ P))) S0 LK) as (w' & E' & _).
    exists b, l, w. rewrite Q3, Q1, Q2, E, E'. cbn [vx vy vz]. repeat split; auto. field. exact C0.
Qed.
End Pass.

(** The record straight above its surface is the one that looks down at it. *)
Lemma straight : forall u g K m input cancel p i, ring_pass u g K m input -> In p (x_out (wfinal (whole u cancel input))) ->
  In (pr_number p * K)%nat (pr_bursts p) -> EndSpec.first_nearest (k_pi (SurfModel.g_k (u_g u))) (WaveModel.chosen u input p) i -> i = (pr_number p * K)%nat.
Proof.
  intros u g K m input cancel p i P IP IB FN. set (q := (pr_number p * K)%nat) in *.
  pose proof (p_focus _ _ _ _ _ P) as NF. destruct (WholeProps.C122_looks u cancel input NF p IP) as (PB & _). rewrite PB, <- WaveProofs.chosen_kept in IB.
  destruct (LaidProps.C137_surfaces u input cancel p (ring_steady u g K m input P) IP) as (r & x & N & X).
  destruct (laid_nth u g K m input P _ r x N) as (-> & (_ & _ & _ & l & L & L1 & _) & LQ). fold q in L1, LQ.
  pose proof (WholeProps.C122_stack u cancel input NF) as ST. rewrite Forall_forall in ST. destruct (ST p IP) as (x' & X' & _ & Q). rewrite X in X'. injection X' as <-.
  assert (A : forall i' b' a', In (i', b', Some a') (WaveModel.chosen u input p) ->
    (i' < length input)%nat /\ a' = acos (off_nadir g (lon g q - lon g i'))).
  { intros i' b' a' I. rewrite WaveProofs.chosen_kept in I. apply WaveProofs.kept_in in I. destruct (Q i' b' (Some a') I) as (l' & r & a & L' & Nr & [= <-] & SA).
    rewrite L in L'. injection L' as <-. split; [apply nth_error_Some; congruence|]. destruct (p_rec _ _ _ _ _ P i' _ Nr) as (r' & [= <-] & (R1 & R2 & R3)).
    destruct SA as (qq & d & _ & _ & BA & _). rewrite R1, R3, L1, ecef_equator in BA.
    replace (k_major (SurfModel.g_k (u_g u)) + (r_sat g - k_major (SurfModel.g_k (u_g u)))) with (r_sat g) in BA by ring.
    rewrite (beam_off g (p_ground _ _ _ _ _ P) _ _ _ (p_speed _ _ _ _ _ P)) in BA. now injection BA as <-. }
  apply in_map_iff in IB as ([[i0 b0] a0] & E0 & I0). cbn [fst] in E0. subst i0.
  destruct FN as (kk & b & a & Nk & NN).
  assert (SN : a0 <> None).
  { rewrite WaveProofs.chosen_kept in I0. apply WaveProofs.kept_in in I0. destruct (Q q b0 a0 I0) as (_ & _ & a' & _ & _ & -> & _). discriminate. }
  destruct a0 as [a0|]; [|now elim SN]. destruct (A q b0 a0 I0) as (_ & E0). rewrite Rminus_eq_0, (off_0 g), acos_0 in E0.
  apply In_nth_error in I0 as (k0 & N0). destruct (NN k0 q b0 a0 N0) as (LE & _). rewrite E0, (p_pi _ _ _ _ _ P) in LE.
  rewrite Rminus_eq_0, Rabs_R0 in LE. destruct (A i b a (nth_error_In _ _ Nk)) as (LI & EA).
  assert (Z : a = PI / 2). { pose proof (Rabs_pos (a - PI / 2)) as RP. destruct (Req_dec (a - PI / 2) 0) as [Z|Z]; [lra|]. apply Rabs_pos_lt in Z. lra. }
  rewrite Z in EA. pose proof (off_bound g (p_ground _ _ _ _ _ P) (lon g q - lon g i)) as OB.
  assert (O0 : off_nadir g (lon g q - lon g i) = 0) by (rewrite <- (cos_acos _ OB), <- EA; apply cos_PI2).
  assert (LL : forall x y, (y <= x)%nat -> lon g x - lon g y = INR (x - y) * r_step g) by (intros x0 y0 H; rewrite minus_INR by exact H; unfold lon; ring).
  destruct (Nat.lt_trichotomy i q) as [H|[H|H]]; [exfalso| exact H|exfalso].
  - rewrite LL in O0 by lia. pose proof (off_far u g K m input P 0 (q - i) ltac:(lia) ltac:(lia)) as OF. cbn [INR] in OF. rewrite Rmult_0_l, (off_0 g) in OF. lra.
  - replace (lon g q - lon g i) with (- (lon g i - lon g q)) in O0 by ring. rewrite LL in O0 by lia. rewrite (off_neg g) in O0.
    pose proof (off_far u g K m input P 0 (i - q) ltac:(lia) ltac:(lia)) as OF. cbn [INR] in OF. rewrite Rmult_0_l, (off_0 g) in OF. lra.
Qed.
