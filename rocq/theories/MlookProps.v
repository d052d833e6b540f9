(** C22, C23, C24, C25. *)
From Coq Require Import List ZArith QArith Bool Lia Lqa.
From Verif Require Import Common MlookModel MlookSpec MlookProofs.
Import ListNotations.
Local Open Scope nat_scope.

(** the beams that take part *)
Definition stack (nlooks size : nat) (beams : list mbeam) : list mbeam :=
  firstn (Nat.min nlooks size) beams.

Lemma multilook_shape : forall avoid nlooks nsamp size beams,
  Nat.min nlooks size <= length beams ->
  Forall (well_formed nsamp) (stack nlooks size beams) ->
  exists a r, inv avoid nsamp (stack nlooks size beams) a /\
    multilook avoid nlooks nsamp size beams = Ok r /\
    r_wave r = divide (c_sum a) (c_cnt a) /\ r_n r = c_n a /\
    match c_start a, c_stop a with
    | Some s, Some t => exists bs bt b0 bl,
        nth_error beams s = Some bs /\ nth_error beams t = Some bt /\
        nth_error beams 0 = Some b0 /\ nth_error beams (Nat.min nlooks size - 1) = Some bl /\
        s < Nat.min nlooks size /\ t < Nat.min nlooks size /\
        r = {| r_wave := r_wave r; r_n := r_n r; r_n_start_stop := S t - s;
                r_start_look := m_look bs; r_stop_look := m_look bt;
                r_start_doppler := m_doppler bs; r_stop_doppler := m_doppler bt;
                r_start_pointing := m_pointing bs; r_stop_pointing := m_pointing bt;
                r_start_angle := m_angle bs; r_stop_angle := m_angle bt;
                r_start_burst := m_seq b0; r_stop_burst := m_seq bl;
                r_vec_ss := trimmed nlooks (map m_vec beams) s t;
                r_angles_ss := trimmed nlooks (map m_angle beams) s t;
                r_looks_ss := trimmed nlooks (map m_look beams) s t |}
    | _, _ =>
        r = {| r_wave := r_wave r; r_n := r_n r; r_n_start_stop := 0;
            r_start_look := 0; r_stop_look := 0; r_start_doppler := 0; r_stop_doppler := 0;
            r_start_pointing := 0; r_stop_pointing := 0; r_start_angle := 0; r_stop_angle := 0;
            r_start_burst := 0; r_stop_burst := 0;
            r_vec_ss := repeat 0%Q nlooks; r_angles_ss := repeat 0%Q nlooks;
            r_looks_ss := repeat 0%Q nlooks |}
    end.
Proof.
  intros avoid nlooks nsamp size beams HL W.
  destruct (multilook_acc avoid nlooks nsamp size beams HL W) as (a & E & I).
  unfold multilook. destruct (Nat.ltb_spec (length beams) (Nat.min nlooks size)); [lia|].
  fold (acc0 nsamp). rewrite E. cbn [bind]. exists a. fold (stack nlooks size beams) in I.
  pose proof (i_start _ _ _ _ I) as S1. pose proof (i_stop _ _ _ _ I) as S2.
  assert (IN : forall k, (exists b, nth_error (stack nlooks size beams) k = Some b) ->
     k < Nat.min nlooks size /\ exists b, nth_error beams k = Some b).
  { intros k [b Hb]. assert (k < length (stack nlooks size beams)) by (apply nth_error_Some; congruence).
    unfold stack in *. rewrite firstn_length in *. split; [lia|].
    rewrite nth_error_firstn in Hb by lia. eauto. }
  destruct (c_start a) as [s|]; [destruct (c_stop a) as [t|]|].
  - cbn in S1, S2. destruct S1 as (bs & A1 & _). destruct S2 as (bt & B1 & _).
    destruct (IN s) as (Hs & bs' & Es). { eauto. } destruct (IN t) as (Ht & bt' & Et). { eauto. }
    destruct (nth_error beams 0) as [b0|] eqn:E0. 2:{ apply nth_error_None in E0. lia. }
    destruct (nth_error beams (Nat.min nlooks size - 1)) as [bl|] eqn:El.
    2:{ apply nth_error_None in El. lia. }
    rewrite Es, Et. eexists. split; [exact I|]. split; [reflexivity|]. cbn [r_wave r_n].
    split; [reflexivity|]. split; [reflexivity|]. exists bs', bt', b0, bl.
    repeat (split; [assumption || reflexivity|]). reflexivity.
  - eexists. split; [exact I|]. split; [reflexivity|]. repeat split.
  - eexists. split; [exact I|]. split; [reflexivity|]. repeat split.
Qed.

(** C22: every sample of the multilooked waveform is the mean of the
    contributing samples (sum divided by their number); it is not a number
    exactly when there is none. *)
Theorem C22_mean : forall avoid nlooks nsamp size beams,
  Nat.min nlooks size <= length beams ->
  Forall (well_formed nsamp) (stack nlooks size beams) ->
  exists r, multilook avoid nlooks nsamp size beams = Ok r /\
    length (r_wave r) = nsamp /\
    forall j, j < nsamp ->
      let vals := contributions avoid j (stack nlooks size beams) in
      (vals = [] -> nth_error (r_wave r) j = Some None) /\
      (vals <> [] -> exists q, nth_error (r_wave r) j = Some (Some q) /\
                               (q == sumQ vals / countQ vals)%Q).
Proof.
  intros avoid nlooks nsamp size beams HL W.
  destruct (multilook_shape avoid nlooks nsamp size beams HL W) as (a & r & I & E & HW & _).
  exists r. split; auto. rewrite HW. split.
  { unfold divide. rewrite map_length, combine_length, (i_sum _ _ _ _ I), (i_cnt _ _ _ _ I). lia. }
  intros j Hj vals.
  rewrite divide_nth by (rewrite ?(i_sum _ _ _ _ I), ?(i_cnt _ _ _ _ I); auto).
  assert (EB : Qeq_bool (nth j (c_cnt a) 0%Q) 0 = Qeq_bool (countQ vals) 0).
  { apply Bool.eq_iff_eq_true. rewrite !Qeq_bool_iff. rewrite (i_vcnt _ _ _ _ I j Hj). reflexivity. }
  rewrite EB. split; intro HV.
  - rewrite (proj2 (countQ_zero vals) HV). reflexivity.
  - destruct (Qeq_bool (countQ vals) 0) eqn:EC. { apply countQ_zero in EC. congruence. }
    eexists. split; [reflexivity|].
    rewrite (i_vsum _ _ _ _ I j Hj), (i_vcnt _ _ _ _ I j Hj). reflexivity.
Qed.
Print Assumptions C22_mean.

(** C22: without zero avoidance the number of values averaged is the number of
    kept beams for every sample. *)
Theorem C22_count : forall j beams,
  length (contributions false j beams) = length (filter keptb beams).
Proof.
  intros. unfold contributions. rewrite map_length. f_equal. apply filter_ext.
  intro b. cbn. apply andb_true_r.
Qed.
Print Assumptions C22_count.

(** C22: a completely masked beam has no influence: two stacks with the same
    kept beams in the same places give the same waveform, whatever the masked
    beams contain. *)
Theorem C22_masked_no_influence : forall avoid nlooks nsamp size beams beams' r r',
  length beams = length beams' ->
  (forall i b b', nth_error beams i = Some b -> nth_error beams' i = Some b' ->
     keptb b = keptb b' /\ (keptb b = true -> b = b')) ->
  multilook avoid nlooks nsamp size beams = Ok r ->
  multilook avoid nlooks nsamp size beams' = Ok r' ->
  r_wave r = r_wave r' /\ r_n r = r_n r' /\ r_n_start_stop r = r_n_start_stop r'.
Proof.
  intros avoid nlooks nsamp size beams beams' r r' HL HB H H'.
  assert (LOOP : forall l l' i a, length l = length l' ->
    (forall p b b', nth_error l p = Some b -> nth_error l' p = Some b' ->
       keptb b = keptb b' /\ (keptb b = true -> b = b')) ->
    mlook_loop avoid i l a = mlook_loop avoid i l' a).
  { induction l as [|b l IH]; intros [|b' l'] i a Hl Hb; cbn in Hl; try discriminate; auto.
    cbn. destruct (Hb 0 b b' eq_refl eq_refl) as [K1 K2].
    assert (ES : mlook_step avoid i b a = mlook_step avoid i b' a).
    { destruct (keptb b) eqn:K.
      - rewrite K2; auto.
      - symmetry in K1. apply kept_false in K, K1. unfold mlook_step. rewrite K, K1. reflexivity. }
    rewrite ES. destruct (mlook_step avoid i b' a); cbn; auto.
    apply IH. { lia. } intros p c c' Hc Hc'. exact (Hb (S p) c c' Hc Hc'). }
  assert (EL : mlook_loop avoid 0 (firstn (Nat.min nlooks size) beams) (acc0 nsamp)
             = mlook_loop avoid 0 (firstn (Nat.min nlooks size) beams') (acc0 nsamp)).
  { apply LOOP. { rewrite !firstn_length. lia. }
    intros p b b' Hp Hp'.
    assert (p < length (firstn (Nat.min nlooks size) beams)) by (apply nth_error_Some; congruence).
    rewrite firstn_length in *. rewrite nth_error_firstn in Hp, Hp' by lia. eauto. }
  unfold multilook in H, H'. fold (acc0 nsamp) in H, H'.
  rewrite <- HL in H'. destruct (Nat.ltb (length beams) (Nat.min nlooks size)); [discriminate|].
  rewrite <- EL in H'.
  destruct (mlook_loop avoid 0 (firstn (Nat.min nlooks size) beams) (acc0 nsamp)) as [a|];
    cbn [bind] in H, H'; [|discriminate].
  destruct (c_start a) as [s|]; [destruct (c_stop a) as [t|]|].
  - destruct (nth_error beams s), (nth_error beams t), (nth_error beams 0),
      (nth_error beams (Nat.min nlooks size - 1)); try discriminate.
    destruct (nth_error beams' s), (nth_error beams' t), (nth_error beams' 0),
      (nth_error beams' (Nat.min nlooks size - 1)); try discriminate.
    inversion H; inversion H'; subst; cbn; auto.
  - inversion H; inversion H'; subst; cbn; auto.
  - inversion H; inversion H'; subst; cbn; auto.
Qed.
Print Assumptions C22_masked_no_influence.

(** C23: with [s] and [t] the first and last kept beam, the reported numbers and
    angles are theirs and the trimmed vectors are the beams s..t followed by
    zeros; the number of averaged beams does not exceed t-s+1. *)
Theorem C23_start_stop : forall avoid nlooks nsamp size beams s t,
  Nat.min nlooks size <= length beams ->
  Forall (well_formed nsamp) (stack nlooks size beams) ->
  first_kept (stack nlooks size beams) s -> last_kept (stack nlooks size beams) t ->
  exists r bs bt, multilook avoid nlooks nsamp size beams = Ok r /\
    nth_error beams s = Some bs /\ nth_error beams t = Some bt /\ s <= t /\
    r_n_start_stop r = t - s + 1 /\
    1 <= r_n r <= r_n_start_stop r /\
    r_n r = length (filter keptb (stack nlooks size beams)) /\
    r_start_look r = m_look bs /\ r_stop_look r = m_look bt /\
    r_start_doppler r = m_doppler bs /\ r_stop_doppler r = m_doppler bt /\
    r_start_pointing r = m_pointing bs /\ r_stop_pointing r = m_pointing bt /\
    r_start_angle r = m_angle bs /\ r_stop_angle r = m_angle bt /\
    length (r_vec_ss r) = nlooks /\ length (r_angles_ss r) = nlooks /\ length (r_looks_ss r) = nlooks /\
    (forall i, i < t - s + 1 -> exists b, nth_error beams (s + i) = Some b /\
       nth_error (r_vec_ss r) i = Some (m_vec b) /\
       nth_error (r_angles_ss r) i = Some (m_angle b) /\
       nth_error (r_looks_ss r) i = Some (m_look b)) /\
    (forall i, t - s + 1 <= i < nlooks ->
       nth_error (r_vec_ss r) i = Some 0%Q /\ nth_error (r_angles_ss r) i = Some 0%Q /\
       nth_error (r_looks_ss r) i = Some 0%Q).
Proof.
  intros avoid nlooks nsamp size beams s t HL W F L.
  destruct (multilook_shape avoid nlooks nsamp size beams HL W) as (a & r & I & E & HW & HN & HR).
  pose proof (i_start _ _ _ _ I) as S1. pose proof (i_stop _ _ _ _ I) as S2.
  pose proof (i_n _ _ _ _ I) as S3.
  pose proof (kept_start_stop _ _ _ F L) as ST. pose proof (kept_count _ _ _ F L) as KC.
  assert (NK : 1 <= length (filter keptb (stack nlooks size beams))).
  { destruct F as (b & Hb & Kb & _). apply nth_error_In in Hb.
    assert (HI : In b (filter keptb (stack nlooks size beams))) by (apply filter_In; auto).
    destruct (filter keptb (stack nlooks size beams)); [destruct HI|cbn; lia]. }
  assert (Cs : c_start a = Some s).
  { destruct (c_start a) as [s'|]; cbn in S1.
    - f_equal. eapply first_unique; eauto.
    - destruct F as (b & Hb & Kb & _). apply nth_error_In in Hb. rewrite (S1 b Hb) in Kb. discriminate. }
  assert (Ct : c_stop a = Some t).
  { destruct (c_stop a) as [s'|]; cbn in S2.
    - f_equal. eapply last_unique; eauto.
    - destruct F as (b & Hb & Kb & _). apply nth_error_In in Hb. rewrite (S2 b Hb) in Kb. discriminate. }
  rewrite Cs, Ct in HR.
  destruct HR as (bs & bt & b0 & bl & Es & Et & E0 & El & Hs & Ht & HR).
  assert (TR : forall (f : mbeam -> Q),
     length (trimmed nlooks (map f beams) s t) = nlooks /\
     (forall i, i < t - s + 1 -> exists b, nth_error beams (s + i) = Some b /\
        nth_error (trimmed nlooks (map f beams) s t) i = Some (f b)) /\
     (forall i, t - s + 1 <= i < nlooks -> nth_error (trimmed nlooks (map f beams) s t) i = Some 0%Q)).
  { intro f. unfold trimmed.
    assert (LF : length (firstn (S t - s) (skipn s (map f beams))) = S t - s).
    { rewrite firstn_length, skipn_length, map_length.
      assert (t < length beams) by (apply nth_error_Some; congruence). lia. }
    split. { rewrite app_length, LF, repeat_length. lia. }
    split.
    - intros i Hi. destruct (nth_error beams (s + i)) as [b|] eqn:Eb.
      + exists b. split; auto. rewrite nth_error_app1 by lia.
        rewrite nth_error_firstn by lia.
        assert (SK : forall (l : list Q) k q, nth_error (skipn k l) q = nth_error l (k + q)).
        { clear. induction l; intros [|k] q; cbn; auto. destruct q; auto. }
        rewrite SK, nth_error_map, Eb. reflexivity.
      + apply nth_error_None in Eb.
        assert (t < length beams) by (apply nth_error_Some; congruence). lia.
    - intros i Hi. rewrite nth_error_app2 by lia. rewrite LF.
      rewrite nth_error_nth' with (d := 0%Q) by (rewrite repeat_length; lia).
      rewrite nth_repeat0. reflexivity. }
  destruct (TR m_vec) as (T1 & T2 & T3). destruct (TR m_angle) as (U1 & U2 & U3).
  destruct (TR m_look) as (V1 & V2 & V3).
  exists r, bs, bt. destruct r as [x1 x2 x3 x4 x5 x6 x7 x8 x9 y1 y2 y3 y4 y5 y6 y7]. cbn [r_wave r_n] in HR, HN, HW.
  remember (S t - s) as d eqn:Hd in HR. injection HR. clear HR. intros. subst x2 x3 x4 x5 x6 x7 x8 x9 y1 y2 y3 y4 y5 y6 y7.
  cbn [r_n_start_stop r_start_look r_stop_look r_start_doppler r_stop_doppler r_start_pointing
       r_stop_pointing r_start_angle r_stop_angle r_vec_ss r_angles_ss r_looks_ss r_n].
  rewrite S3 in *.
  repeat (split; [first [assumption | reflexivity | lia]|]).
  split.
  - intros i Hi. destruct (T2 i Hi) as (b & Eb & X1). destruct (U2 i Hi) as (b' & Eb' & X2).
    destruct (V2 i Hi) as (b'' & Eb'' & X3). exists b.
    assert (b' = b) by congruence. assert (b'' = b) by congruence. subst. auto.
  - intros i Hi. auto.
Qed.
Print Assumptions C23_start_stop.

(** C23: with no beam kept, every reported count, angle, burst and trimmed
    vector is zero. *)
Theorem C23_none_kept_partial : forall avoid nlooks nsamp size beams,
  Nat.min nlooks size <= length beams ->
  Forall (well_formed nsamp) (stack nlooks size beams) ->
  (forall b, In b (stack nlooks size beams) -> keptb b = false) ->
  exists w, multilook avoid nlooks nsamp size beams =
    Ok {| r_wave := w; r_n := 0; r_n_start_stop := 0;
          r_start_look := 0; r_stop_look := 0; r_start_doppler := 0; r_stop_doppler := 0;
          r_start_pointing := 0; r_stop_pointing := 0; r_start_angle := 0; r_stop_angle := 0;
          r_start_burst := 0; r_stop_burst := 0;
          r_vec_ss := repeat 0%Q nlooks; r_angles_ss := repeat 0%Q nlooks;
          r_looks_ss := repeat 0%Q nlooks |}.
Proof.
  intros avoid nlooks nsamp size beams HL W HK.
  destruct (multilook_shape avoid nlooks nsamp size beams HL W) as (a & r & I & E & HW & HN & HR).
  pose proof (i_start _ _ _ _ I) as S1. pose proof (i_n _ _ _ _ I) as S3.
  assert (c_start a = None) as C0.
  { destruct (c_start a) as [s|]; auto. destruct S1 as (b & Hb & Kb & _).
    apply nth_error_In in Hb. rewrite (HK b Hb) in Kb. discriminate. }
  rewrite C0 in HR. rewrite (filter_none _ keptb _ HK) in S3. cbn in S3.
  exists (r_wave r). rewrite E. rewrite HR at 1. rewrite HN, S3. reflexivity.
Qed.
Print Assumptions C23_none_kept_partial.

Definition plain (v : Q) (row : list Q) (a : Q) (seq : Z) : mbeam :=
  {| m_vec := v; m_mask := map (fun _ => 1%Q) row; m_row := row; m_look := a; m_doppler := a;
     m_pointing := a; m_angle := a; m_seq := seq |}.

(** C23, false of the code for the waveform (multilooking.py line 276 divides
    before the test of line 278): with no beam kept the waveform is not zero but
    not-a-number. *)
Theorem C23_none_kept_waveform_refuted : exists beams r,
  Forall (well_formed 2) (stack 2 2 beams) /\
  (forall b, In b (stack 2 2 beams) -> keptb b = false) /\
  multilook false 2 2 2 beams = Ok r /\ r_wave r = [None; None].
Proof.
  exists [plain 0 [1; 1]%Q 0 5; plain 0 [1; 1]%Q 0 6]. eexists.
  split. { cbn; repeat (apply Forall_cons || apply Forall_nil); (split; [reflexivity|]; split; [reflexivity|]);
    cbn; intuition (subst; right; reflexivity). }
  split. { cbn. intros b [<-|[<-|[]]]; reflexivity. }
  split; reflexivity.
Qed.
Print Assumptions C23_none_kept_waveform_refuted.

(** C24, false of the code (multilooking.py lines 313-316): the bursts reported
    are the first and the last of the stack, not of the kept beams. *)
Theorem C24_start_stop_burst_refuted : exists beams r s t bs bt,
  Forall (well_formed 1) (stack 4 4 beams) /\
  first_kept (stack 4 4 beams) s /\ last_kept (stack 4 4 beams) t /\
  nth_error beams s = Some bs /\ nth_error beams t = Some bt /\
  multilook false 4 1 4 beams = Ok r /\
  r_start_burst r <> m_seq bs /\ r_stop_burst r <> m_seq bt.
Proof.
  exists [plain 0 [1]%Q 0 10; plain 1 [1]%Q 0 11; plain 1 [2]%Q 0 12; plain 0 [1]%Q 0 13].
  eexists. exists 1, 2. do 2 eexists.
  split. { cbn; repeat (apply Forall_cons || apply Forall_nil); (split; [reflexivity|]; split; [reflexivity|]);
    cbn; intuition (subst; right; reflexivity). }
  split. { eexists. split; [reflexivity|]. split; [reflexivity|]. intros [|i] c Hi Hc; [|lia].
           cbn in Hc. inversion Hc. reflexivity. }
  split. { eexists. split; [reflexivity|]. split; [reflexivity|].
           intros i c Hi Hc. destruct i as [|[|[|[|i]]]]; try lia; cbn in Hc.
           - inversion Hc. reflexivity.
           - destruct i; discriminate. }
  split; [reflexivity|]. split; [reflexivity|]. split; [reflexivity|].
  cbn. split; discriminate.
Qed.
Print Assumptions C24_start_stop_burst_refuted.

(** C24, what holds: the reported bursts are those of the ends of the stack, so
    the property holds when the first and the last beam are kept. *)
Theorem C24_ends_kept_partial : forall avoid nlooks nsamp size beams s t,
  Nat.min nlooks size <= length beams ->
  Forall (well_formed nsamp) (stack nlooks size beams) ->
  first_kept (stack nlooks size beams) s -> last_kept (stack nlooks size beams) t ->
  exists r b0 bl, multilook avoid nlooks nsamp size beams = Ok r /\
    nth_error beams 0 = Some b0 /\ nth_error beams (Nat.min nlooks size - 1) = Some bl /\
    r_start_burst r = m_seq b0 /\ r_stop_burst r = m_seq bl /\
    (s = 0 -> nth_error beams s = Some b0) /\
    (t = Nat.min nlooks size - 1 -> nth_error beams t = Some bl).
Proof.
  intros avoid nlooks nsamp size beams s t HL W F L.
  destruct (multilook_shape avoid nlooks nsamp size beams HL W) as (a & r & I & E & HW & HN & HR).
  pose proof (i_start _ _ _ _ I) as S1. pose proof (i_stop _ _ _ _ I) as S2.
  destruct (c_start a) as [s'|].
  2:{ destruct F as (b & Hb & Kb & _). apply nth_error_In in Hb. rewrite (S1 b Hb) in Kb. discriminate. }
  destruct (c_stop a) as [t'|].
  2:{ destruct F as (b & Hb & Kb & _). apply nth_error_In in Hb. rewrite (S2 b Hb) in Kb. discriminate. }
  destruct HR as (bs & bt & b0 & bl & Es & Et & E0 & El & Hs & Ht & HR).
  exists r, b0, bl. split; auto. split; auto. split; auto. rewrite HR. cbn.
  split; auto. split; auto. split; intros ->; auto.
Qed.
Print Assumptions C24_ends_kept_partial.

(** C25: outside the table the weight is that of the nearest end. *)
Theorem C25_outside_partial : forall t x, regular_table t ->
  ((x <= nth 0 (a_angles t) 0)%Q -> select_weight t x = Ok (nth 0 (a_weights t) 0%Q)) /\
  ((nth (length (a_angles t) - 1) (a_angles t) 0 <= x)%Q -> 2 <= length (a_angles t) ->
     select_weight t x = Ok (nth (length (a_angles t) - 1) (a_weights t) 0%Q)).
Proof.
  intros t x (Hh & Hn & HW & HA). unfold select_weight.
  rewrite get_w_first by lia. cbn [bind]. split.
  - intro H. apply Qle_bool_iff in H. rewrite H. apply get_w_first. lia.
  - intros H H2. destruct (Qle_bool x (nth 0 (a_angles t) 0%Q)) eqn:E1.
    + apply Qle_bool_iff in E1. exfalso.
      rewrite HA in H by lia.
      assert (0 < inject_Z (Z.of_nat (length (a_angles t) - 1)) * a_spacing t)%Q.
      { apply Qmult_lt_0_compat; auto. change 0%Q with (inject_Z 0). rewrite <- Zlt_Qlt. lia. }
      lra.
    + rewrite get_w_last by lia. cbn [bind]. apply Qle_bool_iff in H. rewrite H.
      rewrite get_w_last by lia. rewrite HW. reflexivity.
Qed.
Print Assumptions C25_outside_partial.

(** C25, exact extent inside the table: the weight is computed from the right
    pair of entries and equals their interpolation if and only if the two
    weights are equal or the left weight happens to equal the left angle. *)
Theorem C25_inside_partial : forall t x, regular_table t ->
  (nth 0 (a_angles t) 0 < x)%Q -> (x < nth (length (a_angles t) - 1) (a_angles t) 0)%Q ->
  exists i w, S i < length (a_angles t) /\
    (nth i (a_angles t) 0 <= x < nth (S i) (a_angles t) 0)%Q /\
    select_weight t x = Ok w /\
    ((w == lerp t i x)%Q <->
     (nth (S i) (a_weights t) 0 == nth i (a_weights t) 0 \/
      nth i (a_weights t) 0 == nth i (a_angles t) 0)%Q).
Proof.
  intros t x HT H1 H2. destruct (select_inside t HT x H1 H2) as (i & w & Hi & Hl & Hr & E & ->).
  exists i. eexists. split; auto. split; auto. split; [exact E|].
  destruct HT as (Hh & _). unfold lerp.
  set (wi := nth i (a_weights t) 0%Q). set (wj := nth (S i) (a_weights t) 0%Q).
  set (ai := nth i (a_angles t) 0%Q). set (h := a_spacing t) in *.
  assert (EQ : (wi + (x - wi) / h * (wj - wi) - (wi + (x - ai) / h * (wj - wi))
               == (ai - wi) * (wj - wi) / h)%Q) by (field; lra).
  split; intro HH.
  - assert (HZ : ((ai - wi) * (wj - wi) == 0)%Q).
    { assert (HD : ((ai - wi) * (wj - wi) / h == 0)%Q) by (rewrite <- EQ; lra).
      setoid_replace ((ai - wi) * (wj - wi))%Q with ((ai - wi) * (wj - wi) / h * h)%Q by (field; lra).
      rewrite HD. ring. }
    apply Qmult_integral in HZ. destruct HZ; [right|left]; lra.
  - destruct HH as [HH|HH]; rewrite HH; field; lra.
Qed.
Print Assumptions C25_inside_partial.

(** C25, false of the code (multilooking.py line 215 subtracts a weight from an
    angle): at a tabulated angle the weight is not the tabulated one, and it
    lies outside the neighbouring weights. *)
Definition table3 : antenna :=
  {| a_angles := [-(1); 0; 1]%Q; a_weights := [1#2; 1; 1#2]%Q; a_spacing := 1 |}.

Lemma table3_regular : regular_table table3.
Proof.
  split; [reflexivity|]. split; [cbn; lia|]. split; [reflexivity|].
  intros [|[|[|i]]] Hi; cbn in Hi; try lia; reflexivity.
Qed.

Theorem C25_interpolation_refuted : exists t x w,
  regular_table t /\ x = nth 1 (a_angles t) 0%Q /\ select_weight t x = Ok w /\
  ~ (w == nth 1 (a_weights t) 0)%Q /\
  ~ (exists i, S i < length (a_angles t) /\ (w == lerp t i x)%Q) /\
  (forall v, In v (a_weights t) -> (v < w)%Q).
Proof.
  exists table3, 0%Q, (1 + (0 - 1) / 1 * ((1#2) - 1))%Q.
  split; [apply table3_regular|]. split; [reflexivity|]. split; [reflexivity|].
  split. { intro H. vm_compute in H. discriminate. }
  split.
  - intros [[|[|i]] [Hi H]]; cbn in Hi; try lia; vm_compute in H; discriminate.
  - intros v Hv. cbn in Hv. destruct Hv as [<-|[<-|[<-|[]]]]; reflexivity.
Qed.
Print Assumptions C25_interpolation_refuted.

(** The weighting multiplies each sample of beam i by its weight and leaves
    everything else alone; switched off it is the identity. *)
Theorem C25_weighting_off_partial : forall t nlooks size beams,
  antenna_weighting t false nlooks size beams = Ok beams.
Proof. reflexivity. Qed.
Print Assumptions C25_weighting_off_partial.

Theorem C25_weighting_per_beam_partial : forall t nlooks size beams beams' i b,
  antenna_weighting t true nlooks size beams = Ok beams' ->
  i < Nat.min size nlooks -> nth_error beams i = Some b ->
  exists w, select_weight t (m_pointing b) = Ok w /\
    nth_error beams' i = Some (with_row b (map (fun x => (x * w)%Q) (m_row b))).
Proof.
  intros t nlooks size. cbn [antenna_weighting]. generalize (Nat.min size nlooks) as n.
  induction n as [|n IH]; intros beams beams' i b H Hi Hb; [lia|].
  unfold antenna_weighting in *.
  destruct beams as [|c r]; cbn in H; [discriminate|].
  destruct (select_weight t (m_pointing c)) as [w|] eqn:E; cbn in H; [|discriminate].
  destruct (weigh t n r) as [r'|] eqn:E2; cbn in H; [|discriminate].
  inversion H; subst. destruct i as [|i]; cbn in *.
  - inversion Hb; subst. eauto.
  - apply (IH r r' i b); auto. lia.
Qed.
Print Assumptions C25_weighting_per_beam_partial.

(** Examples. *)
Definition masked_last : mbeam :=
  {| m_vec := 1; m_mask := [1; 0]%Q; m_row := [4; 0]%Q; m_look := 3; m_doppler := 3;
     m_pointing := 3; m_angle := 3; m_seq := 3 |}.
Definition ex_beams : list mbeam :=
  [plain 0 [9; 9]%Q 0 0; plain 2 [1; 2]%Q 1 1; plain 0 [7; 7]%Q 2 2; masked_last].
Example C22_ex_hyp : Forall (well_formed 2) (stack 5 4 ex_beams).
Proof. cbn; repeat (apply Forall_cons || apply Forall_nil); (split; [reflexivity|]; split; [reflexivity|]);
    cbn; intuition (subst; first [left; reflexivity | right; reflexivity]). Qed.
Example C22_ex : exists r r', multilook true 5 2 4 ex_beams = Ok r /\
  multilook false 5 2 4 ex_beams = Ok r' /\
  map (option_map Qred) (r_wave r) = [Some (5#2); Some 2]%Q /\
  map (option_map Qred) (r_wave r') = [Some (5#2); Some 1]%Q.
Proof. do 2 eexists. repeat split. Qed.
Example C23_ex : exists r, multilook false 5 2 4 ex_beams = Ok r /\
  r_n_start_stop r = 3 /\ r_n r = 2 /\ r_vec_ss r = [2; 0; 1; 0; 0]%Q /\ r_looks_ss r = [1; 2; 3; 0; 0]%Q.
Proof. eexists. repeat split. Qed.
Example C23_ex_hyp : first_kept (stack 5 4 ex_beams) 1 /\ last_kept (stack 5 4 ex_beams) 3.
Proof.
  split; (eexists; split; [reflexivity|]; split; [reflexivity|]).
  - intros [|i] c Hi Hc; [|lia]. cbn in Hc. inversion Hc. reflexivity.
  - intros i c Hi Hc. destruct i as [|[|[|[|i]]]]; try lia. cbn in Hc. destruct i; discriminate.
Qed.
Example C25_ex_table : regular_table table3. Proof. exact table3_regular. Qed.
Example C25_ex_inside : (nth 0 (a_angles table3) 0 < 1#2)%Q /\
  ((1#2) < nth (length (a_angles table3) - 1) (a_angles table3) 0)%Q.
Proof. split; reflexivity. Qed.
