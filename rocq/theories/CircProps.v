(** C138: a satellite on a circle above the equator.  Here also the witness of
    C137. *)
From Coq Require Import List ZArith QArith Reals Bool Lia Lra Arith.
From Verif Require Import Common GeoModel ChainModel ChainSpec ChainProps FullSpec FullProps HoleSpec ManySpec WholeModel WholeSpec LaidSpec LaidProps CircSpec CircProofs.
From Verif Require SurfModel LinModel LinProps.
Import ListNotations.
Local Open Scope nat_scope.

(** A surface is laid below every [K]-th record, ... *)
Theorem C138_surfaces : forall u g K m input s, ring_pass u g K m input ->
  (s * K < length input <->
   exists r x l, nth_error (laid u input) s = Some (r, x) /\ SurfModel.s_loc x = Some l) /\
  (forall r x, nth_error (laid u input) s = Some (r, x) ->
     r = s * K /\ exists l, SurfModel.s_loc x = Some l /\ SurfModel.l_surf l = around (r_ground g) (lon g (s * K))
       /\ SurfModel.l_sat l = around (r_sat g) (lon g (s * K))).
Proof.
  intros u g K m input s P. pose proof (p_K _ _ _ _ _ P) as PK. assert (X : forall r x, nth_error (laid u input) s = Some (r, x) ->
     r = s * K /\ exists l, SurfModel.s_loc x = Some l /\ SurfModel.l_surf l = around (r_ground g) (lon g (s * K))
       /\ SurfModel.l_sat l = around (r_sat g) (lon g (s * K))).
  { intros r x N. destruct (laid_nth u g K m input P s r x N) as (-> & (_ & _ & _ & l & L1 & L2 & L3 & _) & _). split; [reflexivity|]. exists l. auto. }
  split; [|exact X]. split.
  - intros L. destruct (nth_error (laid u input) s) as [[r x]|] eqn:N.
    + destruct (X r x eq_refl) as (_ & l & L1 & _). eauto.
    + exfalso. apply nth_error_None in N. rewrite (laid_count u g K m input P) in N. unfold ring_count in N. destruct (length input) as [|q]; [lia|].
      assert (s <= q / K) by (apply Nat.div_le_lower_bound; lia). lia.
  - intros (r & x & l & N & _). exact (proj2 (proj2 (laid_nth u g K m input P s r x N))).
Qed.
Print Assumptions C138_surfaces.

(** ... is seen by the [m] records to either side, ... *)
Theorem C138_sight : forall u g K m input s p, ring_pass u g K m input -> s * K < length input -> p < length input ->
  (in_sight u input s p = true <-> s * K <= p + m /\ p <= s * K + m).
Proof.
  intros u g K m input s p P L LP. pose proof (p_K _ _ _ _ _ P) as PK. rewrite (sight_ring u g K m input P s p); [|
    unfold ring_count; destruct (length input) as [|q]; [lia|]; assert (s <= q / K) by (apply Nat.div_le_lower_bound; lia); lia|exact LP].
  unfold near. rewrite andb_true_iff, !Nat.leb_le. reflexivity.
Qed.
Print Assumptions C138_sight.

(** ... and its stack consists of these records, when the beams of a burst are as
    many as the surfaces in sight: nothing else comes out. *)
Theorem C138_output : forall u g K m input cancel w, ring_pass u g K m input -> 2 * m < K * c_N (u_cf u) ->
  whole u cancel input = WEnd w false ->
  let n := length input in
  map (fun p => (pr_number p, records_in p)) (x_out w) =
  map (fun s => (s, window n K m s)) (filter (fun s => c_looks (u_cf u) / 2 <=? length (window n K m s)) (seq 0 (ring_count n K))).
Proof.
  intros u g K m input cancel w P W E n. rewrite (C137_output u input cancel w (ring_steady u g K m input P) E), (laid_count u g K m input P). fold n.
  assert (R : forall s, In s (seq 0 (ring_count n K)) -> records_for u input (ring_count n K) s = window n K m s).
  { intros s I. apply in_seq in I. apply (records_ring u g K m input P); [exact W|unfold n in I; lia]. }
  rewrite (filter_ext_in _ (fun s => c_looks (u_cf u) / 2 <=? length (window n K m s))) by (intros s I; rewrite (R s I); reflexivity).
  apply map_ext_in. intros s I. apply filter_In in I as (I & _). now rewrite (R s I).
Qed.
Print Assumptions C138_output.

(** Such a pass is processed to the end. *)
Theorem C138_ends : forall u g K m input, ring_pass u g K m input -> 2 <= c_looks (u_cf u) -> c_approx (u_cf u) = false ->
  (forall x, u_az_fail u x = false /\ u_corr_fail u x = false /\ u_w1_fail u x = false /\ u_w2_fail u x = false) ->
  c_min (u_cf u) <= ring_count (length input) K ->
  exists w, whole u no_cancel input = WEnd w false.
Proof.
  intros u g K m input P LK AP NF LEN. apply (C137_ends u input (ring_steady u g K m input P) LK AP NF).
  - intros r I. apply In_nth_error in I as (p & N). pose proof (bursts_nth u input (all_valid_in u g K m input P) p) as B. rewrite N in B.
    destruct (flown_nth u g K m input P p _ B) as (FB & _). rewrite (low_ring u g K m input P _ p FB). discriminate.
  - intros I. apply In_nth_error in I as (p & N). destruct (all_valid_in u g K m input P p _ N) as (r & A). discriminate.
  - rewrite (laid_count u g K m input P). exact LEN.
Qed.
Print Assumptions C138_ends.

(** Non-vacuity: six records, one surface below each, three records in a stack. *)
Local Open Scope R_scope.
Definition c_ring : ring := mk_ring 2 1 (PI / 2) (PI / 24) 1.
Definition c_k : consts := {| k_c := 1; k_pi := PI; k_major := 1; k_minor := 1; k_flat := 0; k_day := 1 |}.
Definition c_off : R := off_nadir c_ring (INR 1 * (PI / 24)).
Definition c_cf : cfg := mk_cfg 3 2 5 (3 # 2) false false.
Definition c_g : SurfModel.settings :=
  {| SurfModel.g_k := c_k; SurfModel.g_focus := false; SurfModel.g_target := V 0 0 0; SurfModel.g_freq := 1; SurfModel.g_pulses := 1;
     SurfModel.g_pri := / (2 * c_off) |}.
Definition c_u : setup :=
  mk_setup c_cf c_g 1 (4 * c_off) 1 true true LinProps.x_fl LinProps.x_k 1 (fun l => seq 0 (length l))
    (fun _ => false) (fun _ => false) (fun _ => false) (fun _ => false).
Definition c_rec (p : nat) : rec :=
  mk_rec (inject_Z (Z.of_nat p)) {| SurfModel.b_time := 0; SurfModel.b_lla := V 0 (PI / 2 + INR p * (PI / 24)) 1; SurfModel.b_wd := 2; SurfModel.b_sat := V 0 0 0; SurfModel.b_surf := V 0 0 0;
    SurfModel.b_vel := along 1 (PI / 2 + INR p * (PI / 24)); SurfModel.b_rate := 0; SurfModel.b_roll := 0; SurfModel.b_pitch := 0; SurfModel.b_yaw := 0;
    SurfModel.b_days := 0; SurfModel.b_secs := 0; SurfModel.b_leap := 0 |} (LinProps.x_raw LinProps.x_w1).
Definition c_in : list witem := map (fun p => WValid (c_rec p)) (seq 0 6).
Lemma c_far : INR (length c_in + 1 + 1) * (PI / 24) = PI / 3.
Proof. cbn [c_in map seq length Nat.add INR]. lra. Qed.
Lemma c_off_lt : 0 < c_off < off_nadir c_ring (INR 2 * (PI / 24)).
Proof.
  pose proof PI_RGT_0 as PP. assert (GR : 0 < r_ground c_ring < r_sat c_ring) by (cbn; lra).
  assert (HR : r_ground c_ring <= r_sat c_ring * cos (PI / 3)) by (rewrite cos_PI3; cbn; lra).
  assert (HP : 0 <= PI / 3 <= PI / 2) by lra.
  split.
  - rewrite <- (off_0 c_ring). apply (off_lt c_ring GR (PI / 3) HP HR); cbn; lra.
  - apply (off_lt c_ring GR (PI / 3) HP HR); cbn; lra.
Qed.
Lemma c_pass : ring_pass c_u c_ring 1 1 c_in.
Proof.
  pose proof PI_RGT_0 as PP. pose proof c_off_lt as CO. constructor.
  - intros p i N. unfold c_in in N. rewrite nth_error_map in N. destruct (nth_error (seq 0 6) p) as [q|] eqn:E; [|discriminate]. injection N as <-.
    assert (q = p). { assert (L : (p < 6)%nat) by (rewrite <- (seq_length 6 0); apply nth_error_Some; congruence).
      rewrite (nth_error_nth' _ 0%nat) in E by (rewrite seq_length; exact L). rewrite seq_nth in E by exact L. injection E as <-. reflexivity. } subst q.
    exists (c_rec p). split; [reflexivity|]. split; [|split]; cbn [c_rec w_geo SurfModel.b_lla SurfModel.b_wd SurfModel.b_vel c_ring r_sat r_ground r_step r_speed c_u u_g c_g SurfModel.g_k c_k k_major k_c]; try reflexivity; [f_equal|]; lra.
  - intros p L. unfold lon. cbn [c_ring r_first r_step]. assert (L5 : (p <= 5)%nat) by (cbn in L; lia). apply le_INR in L5. cbn [INR] in L5. pose proof (pos_INR p).
    assert (0 <= INR p * (PI / 24)) by (apply Rmult_le_pos; lra). assert (INR p * (PI / 24) <= 5 * (PI / 24)) by (apply Rmult_le_compat_r; lra). lra.
  - reflexivity.
  - cbn. lra.
  - cbn. lia.
  - cbn. lra.
  - cbn. lra.
  - cbn. lra.
  - cbn [c_u u_g c_g SurfModel.g_pulses SurfModel.g_pri]. assert (0 < / (2 * c_off)) by (apply Rinv_0_lt_compat; lra). lra.
  - cbn [c_ring r_step]. lra.
  - change (r_step c_ring) with (PI / 24). rewrite c_far. lra.
  - change (r_step c_ring) with (PI / 24). rewrite c_far, cos_PI3. cbn. lra.
  - cbn [c_u u_g c_g SurfModel.g_k SurfModel.g_freq SurfModel.g_pulses SurfModel.g_pri c_k k_c]. change (off_nadir c_ring (INR 1 * r_step c_ring)) with c_off. change (r_speed c_ring) with 1. field. lra.
  - cbn [c_u u_g u_prf c_g SurfModel.g_k SurfModel.g_freq c_k k_c]. change (off_nadir c_ring (INR 1 * r_step c_ring)) with c_off.
    change (r_speed c_ring) with 1. change (r_step c_ring) with (PI / 24).
    replace (1 / (1 / (4 * c_off)) / 4 / 1 / 1) with c_off by (field; lra). lra.
  - lia.
  - cbn. lia.
  - cbn. lia.
  - reflexivity.
  - change (map erase c_in) with (track 0 6). apply track_gapless.
Qed.
Local Open Scope nat_scope.
Example C138_example : ring_pass c_u c_ring 1 1 c_in /\ 2 * 1 < 1 * c_N (u_cf c_u) /\
  exists w, whole c_u no_cancel c_in = WEnd w false /\
    map (fun p => (pr_number p, records_in p)) (x_out w)
    = [(0, [0; 1]); (1, [0; 1; 2]); (2, [1; 2; 3]); (3, [2; 3; 4]); (4, [3; 4; 5]); (5, [4; 5])].
Proof.
  split; [exact c_pass|]. split; [cbn; lia|]. destruct (C138_ends c_u c_ring 1 1 c_in c_pass ltac:(cbn; lia) eq_refl ltac:(intros x; repeat split) ltac:(cbn; lia)) as (w & E).
  exists w. split; [exact E|]. rewrite (C138_output c_u c_ring 1 1 c_in no_cancel w c_pass ltac:(cbn; lia) E). reflexivity.
Qed.
Example C137_example : steady c_u c_in /\ length (laid c_u c_in) = 6 /\
  exists w, whole c_u no_cancel c_in = WEnd w false /\ length (x_out w) = 6.
Proof.
  split; [exact (ring_steady _ _ _ _ _ c_pass)|]. split; [exact (laid_count _ _ _ _ _ c_pass)|].
  destruct C138_example as (_ & _ & w & E & X). exists w. split; [exact E|]. apply (f_equal (@length _)) in X. rewrite map_length in X. exact X.
Qed.
