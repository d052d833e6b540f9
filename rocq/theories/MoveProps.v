(** C123: the waveforms and the L1B file of the same pass elsewhere. *)
From Coq Require Import String List ZArith Reals Bool Lia Lra Arith.
From Coq Require QArith Qreals.
From Verif Require Import Common Cplx GeoModel RotSpec RotProofs ReaderModel ReaderSpec ChainModel ChainSpec WholeModel WholeSpec WholeProps FileModel FileSpec FileProofs FileProps WriterModel EndModel EndSpec EndProofs.
From Verif Require Import LaidSpec LaidProps CircSpec CircProofs WaveMove MoveSpec.
From Verif Require SurfModel GcorrModel WaveModel DopModel EndProps.
Import ListNotations.
Local Open Scope string_scope.
Local Open Scope R_scope.

Lemma like_more : forall (T : SurfModel.st -> SurfModel.st -> Prop) (P Q : product -> product -> Prop) r r',
  (forall p p', P p p' -> Q p p') -> like (same_run T P) r r' -> like (same_run T Q) r r'.
Proof.
  intros T P Q r r' PQ. assert (W : forall w w', same_run T P w w' -> same_run T Q w w').
  { intros w w' (A & B & C & D). split; [exact A|]. split; [exact B|]. split; [exact C|]. induction D; constructor; auto. }
  unfold like. destruct r as [w c|e w|w], r' as [w' c'|e' w'|w']; try tauto; [intros (A & B); auto|intros (A & B); auto|apply W].
Qed.

(** Also the waveform of every surface is the same. *)
Theorem C123_waves_partial : forall phi flip u v input input' cancel,
  ellipsoid (SurfModel.g_k (u_g u)) -> k_pi (SurfModel.g_k (u_g u)) = PI ->
  Forall2 (moved_item phi flip) input input' ->
  (forall r, In (WValid r) input \/ In (WValid r) input' -> plain_angles (u_fuel u) (w_geo r)) ->
  (forall n w, state_after u input n = Some w -> clear_state (SurfModel.g_k (u_g u)) (fst (geo_read u input w))) ->
  like (same_run (moved_state phi flip)
          (fun p p' => moved_product phi flip p p' /\ WaveModel.wave_of (moved_setup phi flip u) v input' p' = WaveModel.wave_of u v input p))
    (whole u cancel input) (whole (moved_setup phi flip u) cancel input').
Proof.
  intros phi flip u v input input' cancel E KP F PA CL. apply (like_more _ (moved_product phi flip)).
  - intros p p' M. split; [exact M|]. apply wave_moved; assumption.
  - apply C123_moved_partial; assumption.
Qed.
Print Assumptions C123_waves_partial.

(** On a steady pass (C137) it is the surfaces laid that have to be clear of the
    axis, on a circle above the equator they are: wherever on the equator the
    circle is begun, the same comes out of it. *)
Theorem C123_laid_partial : forall phi flip u v input input' cancel,
  ellipsoid (SurfModel.g_k (u_g u)) -> k_pi (SurfModel.g_k (u_g u)) = PI ->
  Forall2 (moved_item phi flip) input input' ->
  (forall r, In (WValid r) input \/ In (WValid r) input' -> plain_angles (u_fuel u) (w_geo r)) ->
  steady u input ->
  (forall i r s l, nth_error (laid u input) i = Some (r, s) -> SurfModel.s_loc s = Some l ->
     clear (SurfModel.g_k (u_g u)) (SurfModel.l_surf l) /\ clear (SurfModel.g_k (u_g u)) (SurfModel.l_sat l)) ->
  like (same_run (moved_state phi flip)
          (fun p p' => moved_product phi flip p p' /\ WaveModel.wave_of (moved_setup phi flip u) v input' p' = WaveModel.wave_of u v input p))
    (whole u cancel input) (whole (moved_setup phi flip u) cancel input').
Proof.
  intros phi flip u v input input' cancel E KP F PA ST CL. apply C123_waves_partial; try assumption. exact (laid_clear_states u input ST CL).
Qed.
Print Assumptions C123_laid_partial.
Theorem C123_circle : forall phi flip u v g K m input input' cancel,
  ring_pass u g K m input -> ellipsoid (SurfModel.g_k (u_g u)) -> 2 <= r_ground g ^ 2 ->
  (1 - (1 - k_flat (SurfModel.g_k (u_g u))) ^ 2) * k_major (SurfModel.g_k (u_g u)) <= r_ground g ->
  Forall2 (moved_item phi flip) input input' ->
  (forall r, In (WValid r) input' -> plain_angles (u_fuel u) (w_geo r)) ->
  like (same_run (moved_state phi flip)
          (fun p p' => moved_product phi flip p p' /\ WaveModel.wave_of (moved_setup phi flip u) v input' p' = WaveModel.wave_of u v input p))
    (whole u cancel input) (whole (moved_setup phi flip u) cancel input').
Proof.
  intros phi flip u v g K m input input' cancel P E G2 GF F PA.
  apply C123_laid_partial; try assumption; [exact (p_pi _ _ _ _ _ P)| |exact (ring_steady u g K m input P)|exact (ring_clear u g K m input P G2 GF)].
  intros r [I|I]; [exact (ring_plain u g K m input r P I)|exact (PA r I)].
Qed.
Print Assumptions C123_circle.

(** * The file *)
Section File.
Variables (deg : R) (flip : bool) (o : opener) (fi fi' : file).
Hypothesis MF : moved_file deg flip fi fi'.
Hypothesis C : complete o fi.
Hypothesis C' : complete o fi'.
Lemma same_number : forall i x, (i < f_size fi)%nat -> ~ In x turned -> number_at fi' i x = number_at fi i x.
Proof. intros i x L N. unfold number_at. rewrite (proj1 (proj2 MF i L) x N). reflexivity. Qed.
Lemma record_moved : forall i, (i < f_size fi)%nat -> moved_item (degrees deg) flip (WValid (record_at o fi i)) (WValid (record_at o fi' i)).
Proof.
  intros i L. destruct (proj2 MF i L) as (A & LA & (z & LO) & VE). pose proof PI_RGT_0 as PP.
  assert (N : forall x, ~ In x turned -> number_at fi' i x = number_at fi i x) by (intros; now apply same_number).
  assert (NT : forall x, existsb (String.eqb x) turned = false -> ~ In x turned).
  { intros x E I. assert (existsb (String.eqb x) turned = true) by (apply existsb_exists; exists x; split; [exact I|apply String.eqb_refl]). congruence. }
  assert (DL : delay_at o fi' i = delay_at o fi i) by (unfold delay_at; rewrite !N by (apply NT; reflexivity); reflexivity).
  split; [|split].
  - cbn [w_time record_at]. rewrite A by (apply NT; reflexivity). reflexivity.
  - unfold moved_record, record_at. cbn [w_geo SurfModel.b_lla SurfModel.b_vel SurfModel.b_time SurfModel.b_wd SurfModel.b_rate SurfModel.b_roll SurfModel.b_pitch SurfModel.b_yaw SurfModel.b_days SurfModel.b_secs SurfModel.b_leap].
    rewrite DL. rewrite !(N "alt"), !(N "time"), !(N "orb_alt_rate"), !(N "roll_sral_mispointing"), !(N "pitch_sral_mispointing"), !(N "yaw_sral_mispointing"),
      !(N "UTC_day"), !(N "UTC_sec") by (apply NT; reflexivity).
    split; [|split; [exact VE|repeat split]].
    unfold moved_lla. cbn [vx vy vz]. split; [|split; [|reflexivity]].
    + rewrite LA. unfold flipped, degrees. destruct flip; [field|reflexivity].
    + exists z. rewrite LO. unfold degrees. field.
  - unfold record_at. cbn [w_echo]. rewrite DL. rewrite !(N "agc_ku"), !(N "sig0_cal_ku") by (apply NT; reflexivity). rewrite !A by (apply NT; reflexivity). reflexivity.
Qed.
Lemma records_moved : Forall2 (moved_item (degrees deg) flip) (all_records o fi) (all_records o fi').
Proof.
  unfold all_records. rewrite (proj1 MF). assert (H : forall l, (forall i, In i l -> (i < f_size fi)%nat) ->
    Forall2 (moved_item (degrees deg) flip) (map (fun i => WValid (record_at o fi i)) l) (map (fun i => WValid (record_at o fi' i)) l)).
  { induction l as [|i l IH]; intros B; constructor; [apply record_moved, B; now left|apply IH; intros k K; apply B; now right]. }
  apply H. intros i I. apply in_seq in I. lia.
Qed.
End File.
Lemma delivered_all : forall o fi, complete o fi -> (forall i, (i < f_size fi)%nat -> usable (place fi i)) -> delivered o everywhere fi = Ok (all_records o fi).
Proof.
  intros o fi C US. destruct (open_dataset everywhere (positions fi)) as [d|e] eqn:E; [|discriminate E]. rewrite (delivered_is o everywhere fi d C E).
  destruct (opened _ _ _ _ C E) as (_ & _ & H & _). destruct (H eq_refl) as (-> & ->). rewrite Nat.sub_0_r. f_equal. apply map_ext_in.
  intros i I. apply in_seq in I. apply (item_of_for o everywhere fi d i C E); [lia|]. split; [apply in_everywhere|]. apply US. lia.
Qed.
Lemma Forall2_at : forall A B (Q : A -> B -> Prop) l l' n x, Forall2 Q l l' -> nth_error l n = Some x -> exists y, nth_error l' n = Some y /\ Q x y.
Proof. intros A B Q l l' n x F. revert n. induction F as [|a b l l' H F IH]; intros [|n] E; try discriminate; [injection E as <-; exists b; auto|apply IH, E]. Qed.

(** From file to file: the pass elsewhere makes a file with as many records; times,
    altitudes, ranges, waveforms and the variables taken over are the same,
    latitudes mirrored if they were, longitudes further east by the same angle, but
    for full turns. *)
Theorem C123_file_partial : forall deg flip j cancel fi fi' answers out, usual j -> complete (j_o j) fi -> complete (j_o j) fi' -> j_g j = everywhere ->
  let u := j_u j in
  let phi := degrees deg in
  let input := all_records (j_o j) fi in
  ellipsoid (SurfModel.g_k (u_g u)) -> k_pi (SurfModel.g_k (u_g u)) = PI -> steady u input ->
  (forall i r s l, nth_error (laid u input) i = Some (r, s) -> SurfModel.s_loc s = Some l ->
     clear (SurfModel.g_k (u_g u)) (SurfModel.l_surf l) /\ clear (SurfModel.g_k (u_g u)) (SurfModel.l_sat l)) ->
  moved_file deg flip fi fi' ->
  (forall i, (i < f_size fi)%nat -> usable (place fi i) /\ usable (place fi' i) /\
     plain_angles (u_fuel u) (w_geo (record_at (j_o j) fi i)) /\ plain_angles (u_fuel u) (w_geo (record_at (j_o j) fi' i))) ->
  l1b j cancel fi = Some (answers, out) ->
  exists out', l1b (moved_job phi flip j) cancel fi' = Some (answers, out') /\ w_len out' = w_len out /\
    forall n p x l, nth_error (x_out (wfinal (whole u cancel input))) n = Some p -> pr_surf p = Some x -> SurfModel.s_loc x = Some l ->
    (forall y, In y ["time"; "alt"; "orb_alt_rate"; "range_ku"] -> said out n y 0 <> None /\ said out' n y 0 = said out n y 0) /\
    (exists a, said out n "lat" 0 = Some a /\ said out' n "lat" 0 = Some (flipped flip a)) /\
    (exists a z, said out n "lon" 0 = Some a /\ said out' n "lon" 0 = Some (a + deg + IZR z * 360)) /\
    (forall w m y, WaveModel.wave_of u (j_v j) input p = Some w -> (m < GcorrModel.k_n (u_k u) * u_zp u)%nat -> nth m w None = Some y ->
       (j_ext j = true -> WaveModel.scale_factor w <> None) ->
       said out n "i2q2_meas_ku" m <> None /\ said out' n "i2q2_meas_ku" m = said out n "i2q2_meas_ku" m) /\
    (WaveModel.chosen u input p <> [] -> forall b, In b copied -> said out n b 0 <> None /\ said out' n b 0 = said out n b 0).
Proof.
  intros deg flip j cancel fi fi' answers out U C C' G u phi input EL KP ST CL MF US L.
  set (j' := moved_job phi flip j). set (input' := all_records (j_o j) fi').
  assert (U' : usual j') by exact U. pose proof (proj1 MF) as SZ.
  assert (D : delivered (j_o j) (j_g j) fi = Ok input) by (rewrite G; apply delivered_all; [exact C|]; intros i H; apply US, H).
  assert (D' : delivered (j_o j') (j_g j') fi' = Ok input').
  { change (delivered (j_o j) (j_g j) fi' = Ok input'). rewrite G. apply delivered_all; [exact C'|]. intros i H. apply US. rewrite <- SZ. exact H. }
  destruct (proj2 (proj1 (EndProps.C141_file j' cancel fi' U')) (ex_intro _ input' D')) as ((answers' & out') & L').
  assert (MI : Forall2 (moved_item phi flip) input input') by (apply records_moved; assumption).
  assert (PA : forall r, In (WValid r) input \/ In (WValid r) input' -> plain_angles (u_fuel u) (w_geo r)).
  { intros r [I|I]; unfold input, input', all_records in I; apply in_map_iff in I as (i & [= <-] & I); apply in_seq in I; rewrite ?SZ in I;
      destruct (US i ltac:(lia)) as (_ & _ & P1 & P2); assumption. }
  pose proof (C123_laid_partial phi flip u (j_v j) input input' cancel EL KP MI PA ST CL) as LK.
  set (ps := x_out (wfinal (whole u cancel input))) in *.
  set (ps' := x_out (wfinal (whole (moved_setup phi flip u) cancel input'))).
  assert (FP : Forall2 (fun p p' => moved_product phi flip p p' /\ WaveModel.wave_of (moved_setup phi flip u) (j_v j) input' p' = WaveModel.wave_of u (j_v j) input p) ps ps').
  { unfold ps, ps'. unfold like in LK. destruct (whole u cancel input) as [w c|e w|w], (whole (moved_setup phi flip u) cancel input') as [w' c'|e' w'|w']; try contradiction; cbn [wfinal].
    - destruct LK as ((_ & _ & _ & F) & _). exact F.
    - destruct LK as ((_ & _ & _ & F) & _). exact F.
    - destruct LK as (_ & _ & _ & F). exact F. }
  assert (LN : length ps' = length ps) by (clear -FP; induction FP; cbn; congruence).
  pose proof (file_of j cancel fi input answers out U D L) as (A1 & A2 & _).
  pose proof (file_of j' cancel fi' input' answers' out' U' D' L') as (A1' & A2' & _).
  assert (E1 : answers = repeat None (length ps)) by exact A1. assert (E1' : answers' = repeat None (length ps')) by exact A1'.
  assert (E2 : w_len out = length ps) by exact A2. assert (E2' : w_len out' = length ps') by exact A2'.
  exists out'. split; [rewrite L', E1, E1', LN; reflexivity|]. split; [congruence|].
  intros n p x l N X SL. destruct (Forall2_at _ _ _ _ _ _ _ FP N) as (p' & N' & M & WV).
  pose proof M as (M1 & M2 & M3 & M4 & M5). rewrite X in M2. destruct (pr_surf p') as [x'|] eqn:X'; [|contradiction].
  destruct M2 as (_ & B & _). rewrite SL in B. destruct (SurfModel.s_loc x') as [l'|] eqn:SL'; [|contradiction].
  destruct B as (B1 & B2 & B3 & (B4 & (z & B5) & B6) & (B7 & _ & B9) & B10 & B11 & _ & _ & _ & B15 & _).
  assert (SA : forall y v, In (y, v) (located (k_c (SurfModel.g_k (u_g u))) l) -> said out n y 0 = Some v) by (intros y v I; exact (EndProps.C141_stated j cancel fi input answers out n p x l y v U D L N X SL I)).
  assert (SA' : forall y v, In (y, v) (located (k_c (SurfModel.g_k (u_g u))) l') -> said out' n y 0 = Some v) by (intros y v I; exact (EndProps.C141_stated j' cancel fi' input' answers' out' n p' x' l' y v U' D' L' N' X' SL' I)).
  pose proof PI_RGT_0 as PP. split; [|split; [|split; [|split]]].
  - assert (E : forall y v, In (y, v) (located (k_c (SurfModel.g_k (u_g u))) l) -> In (y, v) (located (k_c (SurfModel.g_k (u_g u))) l') ->
      said out n y 0 <> None /\ said out' n y 0 = said out n y 0).
    { intros y v I I'. rewrite (SA y v I), (SA' y v I'). split; [discriminate|reflexivity]. }
    intros y [<-|[<-|[<-|[<-|[]]]]].
    + apply (E _ (SurfModel.l_time l)); [|rewrite <- B10]; cbn; tauto.
    + apply (E _ (vz (SurfModel.l_sat_lla l))); [|rewrite <- B9]; cbn; tauto.
    + apply (E _ (SurfModel.l_rate l)); [|rewrite <- B11]; cbn; tauto.
    + apply (E _ (SurfModel.l_wd l * k_c (SurfModel.g_k (u_g u)) / 2)); [|rewrite <- B15]; cbn; tauto.
  - exists (in_degrees (vx (SurfModel.l_surf_lla l))). split; [apply SA; cbn; tauto|].
    replace (flipped flip (in_degrees (vx (SurfModel.l_surf_lla l)))) with (in_degrees (vx (SurfModel.l_surf_lla l'))); [apply SA'; cbn; tauto|].
    rewrite B4. unfold flipped, in_degrees. destruct flip; [field; lra|reflexivity].
  - exists (in_degrees (vy (SurfModel.l_surf_lla l))), z. split; [apply SA; cbn; tauto|].
    replace (in_degrees (vy (SurfModel.l_surf_lla l)) + deg + IZR z * 360) with (in_degrees (vy (SurfModel.l_surf_lla l'))); [apply SA'; cbn; tauto|].
    rewrite B5. unfold in_degrees, phi, degrees. field. lra.
  - intros w m y W LM NM SC.
    pose proof (EndProps.C141_waveform j cancel fi input answers out n p w m y U D L N W LM NM) as (Q1 & Q2).
    assert (W' : WaveModel.wave_of (j_u j') (j_v j') input' p' = Some w) by (rewrite <- W; exact WV).
    pose proof (EndProps.C141_waveform j' cancel fi' input' answers' out' n p' w m y U' D' L' N' W' LM NM) as (Q1' & Q2').
    change (j_ext j') with (j_ext j) in *. destruct (j_ext j).
    + destruct (WaveModel.scale_factor w) as [t|]; [|now elim (SC eq_refl)]. destruct (Q2 eq_refl t eq_refl) as (-> & _). destruct (Q2' eq_refl t eq_refl) as (-> & _).
      split; [discriminate|reflexivity].
    + rewrite (Q1 eq_refl), (Q1' eq_refl). split; [discriminate|reflexivity].
  - intros NE b IB. pose proof (d_focus _ _ ST) as NF.
    destruct (EndProps.C141_copied j cancel fi input answers out n p U C NF D L N NE) as (i & FN & _ & LI & _ & _ & Q).
    assert (CE : WaveModel.chosen (j_u j') input' p' = WaveModel.chosen u input p) by (apply (chosen_moved phi flip u input input' MI); exact M3).
    assert (NE' : WaveModel.chosen (j_u j') input' p' <> []) by (rewrite CE; exact NE).
    destruct (EndProps.C141_copied j' cancel fi' input' answers' out' n p' U' C' NF D' L' N' NE') as (i' & _ & UN & _ & _ & _ & Q').
    rewrite CE in UN. assert (i = i') as <- by (apply UN; exact FN).
    rewrite (Q b IB), (Q' b IB). change (j_g j') with (j_g j). rewrite G. change (first_record everywhere fi) with 0%nat. change (first_record everywhere fi') with 0%nat.
    split; [discriminate|]. f_equal. apply (same_number deg flip fi fi' MF).
    + unfold input, all_records in LI. rewrite map_length, seq_length in LI. exact LI.
    + intros IT. revert IB IT. clear. unfold copied, turned. cbn. intros H H'.
      repeat (destruct H as [<-|H]; [repeat (destruct H' as [H'|H']; [discriminate H'|]); exact H'|]). exact H.
Qed.
Print Assumptions C123_file_partial.

(** Non-vacuity: the file of C141's example, 30 degrees further east and mirrored. *)
Definition e_turned (v : string) (p : nat) : cell :=
  let w := move (degrees 30) true (velocity_at EndProps.e_file p) in
  if (v =? v_lon)%string then CExact (QArith_base.Qplus (QArith_base.inject_Z 120) (QArith_base.Qmult (QArith_base.inject_Z (Z.of_nat p)) (QArith_base.Qmake 15 2)))
  else if (v =? "x_vel_l1a_echo_sar_ku")%string then CNum (vx w)
  else if (v =? "y_vel_l1a_echo_sar_ku")%string then CNum (vy w)
  else if (v =? "z_vel_l1a_echo_sar_ku")%string then CNum (vz w)
  else EndProps.e_cell v p.
Definition e_file' : file := mk_file 6 (fun v => map (e_turned v) (seq 0 6)).
Lemma e_at' : forall p x, (p < 6)%nat -> at_ e_file' p x = e_turned (x ++ "_l1a_echo_sar_ku")%string p.
Proof.
  intros p x L. unfold at_, e_file'. cbn [f_var]. rewrite (nth_indep _ _ (e_turned (x ++ "_l1a_echo_sar_ku")%string 0)) by (rewrite map_length, seq_length; exact L).
  rewrite map_nth, seq_nth by exact L. reflexivity.
Qed.
Lemma e_number' : forall p x v, (p < 6)%nat -> num (e_turned (x ++ "_l1a_echo_sar_ku")%string p) = v -> number_at e_file' p x = v.
Proof. intros p x v L E. unfold number_at. rewrite e_at' by exact L. exact E. Qed.
Lemma e_complete' : complete EndProps.e_o e_file'.
Proof.
  split; [|split; [|split]].
  - intros v _. reflexivity.
  - intros v [<-|[<-|[<-|[]]]]; repeat constructor; eexists; reflexivity.
  - repeat constructor; (exists [[]]; split; [reflexivity|cbn; lia]).
  - reflexivity.
Qed.
Lemma suffix_inj : forall x y, (x ++ "_l1a_echo_sar_ku" = y ++ "_l1a_echo_sar_ku")%string -> x = y.
Proof.
  assert (LA : forall a b : string, String.length (a ++ b)%string = (String.length a + String.length b)%nat) by (induction a as [|c a IH]; intros b; cbn; [reflexivity|now rewrite IH]).
  induction x as [|c x IH]; intros [|d y] E; try reflexivity.
  - exfalso. apply (f_equal String.length) in E. rewrite !LA in E. cbn [String.length] in E. lia.
  - exfalso. apply (f_equal String.length) in E. rewrite !LA in E. cbn [String.length] in E. lia.
  - cbn in E. injection E as -> E. f_equal. apply IH, E.
Qed.
Lemma e_lon' : forall p, (p < 6)%nat -> number_at e_file' p "lon" = 120 + INR p * (15 / 2).
Proof.
  intros p L. apply (e_number' p "lon" _ L).
  change (Rdefinitions.Q2R (QArith_base.Qplus (QArith_base.inject_Z 120) (QArith_base.Qmult (QArith_base.inject_Z (Z.of_nat p)) (QArith_base.Qmake 15 2)))
        = 120 + INR p * (15 / 2)).
  rewrite Qreals.Q2R_plus, Qreals.Q2R_mult. unfold Rdefinitions.Q2R. cbn. rewrite <- INR_IZR_INZ. field.
Qed.
Lemma e_lon : forall p, (p < 6)%nat -> number_at EndProps.e_file p "lon" = 90 + INR p * (15 / 2).
Proof.
  intros p L. apply (EndProps.e_number p "lon" _ L).
  change (Rdefinitions.Q2R (QArith_base.Qplus (QArith_base.inject_Z 90) (QArith_base.Qmult (QArith_base.inject_Z (Z.of_nat p)) (QArith_base.Qmake 15 2)))
        = 90 + INR p * (15 / 2)).
  rewrite Qreals.Q2R_plus, Qreals.Q2R_mult. unfold Rdefinitions.Q2R. cbn. rewrite <- INR_IZR_INZ. field.
Qed.
Lemma e_lat' : forall p, (p < 6)%nat -> number_at e_file' p "lat" = 0.
Proof. intros p L. apply (e_number' p "lat" _ L). change (Rdefinitions.Q2R (QArith_base.Qmake 0 1) = 0). unfold Rdefinitions.Q2R. cbn. lra. Qed.
Lemma e_lat : forall p, (p < 6)%nat -> number_at EndProps.e_file p "lat" = 0.
Proof. intros p L. apply (EndProps.e_number p "lat" _ L). change (Rdefinitions.Q2R (QArith_base.Qmake 0 1) = 0). unfold Rdefinitions.Q2R. cbn. lra. Qed.
Lemma e_moved : moved_file 30 true EndProps.e_file e_file'.
Proof.
  split; [reflexivity|]. intros i L. change (f_size EndProps.e_file) with 6%nat in L. split; [|split; [|split]].
  - intros x NI. rewrite e_at' by exact L. rewrite EndProps.e_at by exact L. unfold e_turned. cbv zeta.
    assert (NE : forall y, In y turned -> (x ++ "_l1a_echo_sar_ku" =? y ++ "_l1a_echo_sar_ku")%string = false).
    { intros y I. apply String.eqb_neq. intros E. apply suffix_inj in E. subst x. exact (NI I). }
    rewrite (NE "lon" ltac:(cbn; tauto) : (_ =? v_lon)%string = false), (NE "x_vel" ltac:(cbn; tauto) : (_ =? "x_vel_l1a_echo_sar_ku")%string = false),
      (NE "y_vel" ltac:(cbn; tauto) : (_ =? "y_vel_l1a_echo_sar_ku")%string = false), (NE "z_vel" ltac:(cbn; tauto) : (_ =? "z_vel_l1a_echo_sar_ku")%string = false). reflexivity.
  - rewrite e_lat', e_lat by exact L. cbn. lra.
  - exists 0%Z. rewrite e_lon', e_lon by exact L. lra.
  - unfold velocity_at at 1. rewrite (e_number' i "x_vel" _ L eq_refl), (e_number' i "y_vel" _ L eq_refl), (e_number' i "z_vel" _ L eq_refl).
    set (w := move (degrees 30) true (velocity_at EndProps.e_file i)).
    change (V (vx w) (vy w) (vz w) = w). destruct w; reflexivity.
Qed.
Lemma e_plain : forall i, (i < 6)%nat -> usable (place EndProps.e_file i) /\ usable (place e_file' i) /\
  plain_angles (u_fuel EndProps.e_u) (w_geo (record_at EndProps.e_o EndProps.e_file i)) /\
  plain_angles (u_fuel EndProps.e_u) (w_geo (record_at EndProps.e_o e_file' i)).
Proof.
  intros i L. pose proof PI_RGT_0 as PP. assert (IB : 0 <= INR i <= 5).
  { split; [apply pos_INR|]. replace 5 with (INR 5) by (cbn; lra). apply le_INR. lia. }
  split; [|split; [|split]].
  - unfold usable, place. rewrite !EndProps.e_at by exact L. intros (_ & H). revert H. cbn [snd]. do 6 (destruct i as [|i]; [vm_compute; discriminate|]). lia.
  - unfold usable, place. rewrite !e_at' by exact L. intros (_ & H). revert H. cbn [snd]. do 6 (destruct i as [|i]; [vm_compute; discriminate|]). lia.
  - unfold plain_angles, record_at. cbn [w_geo SurfModel.b_lla vx vy]. rewrite e_lat, e_lon by exact L. unfold degrees. split; [lra|].
    change (u_fuel EndProps.e_u) with 1%nat. rewrite normalize_id; [discriminate|]. split; nra.
  - unfold plain_angles, record_at. cbn [w_geo SurfModel.b_lla vx vy]. rewrite e_lat', e_lon' by exact L. unfold degrees. split; [lra|].
    change (u_fuel EndProps.e_u) with 1%nat. rewrite normalize_id; [discriminate|]. split; nra.
Qed.
Example C123_file_example : exists out', l1b (moved_job (degrees 30) true (EndProps.e_j true)) no_cancel e_file' = Some (repeat None 6, out') /\ w_len out' = 6%nat /\
  forall n, (n < 6)%nat -> said out' n "alt" 0 = Some 3 /\ said out' n "range_ku" 0 = Some 2 /\ said out' n "lat" 0 = Some (- 0) /\
    exists z, said out' n "lon" 0 = Some (120 + INR n * (15 / 2) + IZR z * 360).
Proof.
  pose proof EndProps.e_pass as P. destruct EndProps.C141_example as (answers & out & L & A1 & A2 & _).
  assert (EL : ellipsoid (SurfModel.g_k (u_g EndProps.e_u))) by (unfold ellipsoid; cbn; lra).
  assert (G2 : 2 <= r_ground EndProps.e_ring ^ 2) by (cbn; lra).
  assert (GF : (1 - (1 - k_flat (SurfModel.g_k (u_g EndProps.e_u))) ^ 2) * k_major (SurfModel.g_k (u_g EndProps.e_u)) <= r_ground EndProps.e_ring) by (cbn; lra).
  destruct (C123_file_partial 30 true (EndProps.e_j true) no_cancel EndProps.e_file e_file' answers out (EndProps.e_usual true) EndProps.e_complete e_complete' eq_refl
    EL (p_pi _ _ _ _ _ P) (ring_steady _ _ _ _ _ P) (ring_clear _ _ _ _ _ P G2 GF) e_moved e_plain L) as (out' & L' & W' & Q).
  exists out'. rewrite L', A1. split; [reflexivity|]. split; [congruence|]. intros n LN.
  set (ps := x_out (wfinal (whole EndProps.e_u no_cancel EndProps.e_in))).
  assert (O : map (fun p => pr_number p) ps = seq 0 6).
  { destruct (CircProps.C138_ends EndProps.e_u EndProps.e_ring 1 1 EndProps.e_in P ltac:(cbn; lia) eq_refl ltac:(intros x; repeat split) ltac:(cbn; lia)) as (w & E).
    pose proof (CircProps.C138_output EndProps.e_u EndProps.e_ring 1 1 EndProps.e_in no_cancel w P ltac:(cbn; lia) E) as O. cbv zeta in O.
    apply (f_equal (map fst)) in O. rewrite !map_map in O. cbn [fst] in O. unfold ps. rewrite E. cbn [wfinal]. rewrite O. reflexivity. }
  destruct (nth_error ps n) as [p|] eqn:N.
  2:{ apply nth_error_None in N. apply (f_equal (@length _)) in O. rewrite map_length, seq_length in O. lia. }
  assert (PN : pr_number p = n).
  { apply (f_equal (fun l => nth_error l n)) in O. rewrite nth_error_map, N, (nth_error_nth' _ 0%nat) in O by (rewrite seq_length; exact LN). rewrite seq_nth in O by exact LN. now injection O. }
  destruct (C137_surfaces EndProps.e_u EndProps.e_in no_cancel p (ring_steady _ _ _ _ _ P) (nth_error_In _ _ N)) as (r & x & NL & X).
  destruct (laid_nth _ _ _ _ _ P _ _ _ NL) as (_ & (_ & _ & _ & l & SL & _) & _).
  destruct (EndProps.C141_circle (EndProps.e_j true) no_cancel EndProps.e_file EndProps.e_ring 1 1 answers out n p (EndProps.e_usual true) EndProps.e_complete eq_refl P)
    as (C1 & _ & _ & C3 & CL & C4 & C5 & _);
    [unfold GeoSpec.oblate; cbn; lra|unfold GeoSpec.consistent; cbn; lra|cbn; lra|cbn; lra|cbn; lra|exact L|exact N|].
  rewrite PN, Nat.mul_1_r in *.
  destruct (Q n p x l N X SL) as (S1 & (a & S2 & S3) & (b & z & S4 & S5) & _). rewrite C3 in S2. injection S2 as <-.
  split; [rewrite (proj2 (S1 "alt" ltac:(cbn; tauto))), C4; f_equal; exact (EndProps.e_number n "alt" 3 LN eq_refl)|].
  split; [rewrite (proj2 (S1 "range_ku" ltac:(cbn; tauto))), C5; f_equal; cbn; lra|].
  split; [exact S3|]. rewrite S4, (e_lon n LN) in CL. destruct CL as [[= ->]|[= ->]]; [exists z|exists (z + 1)%Z]; rewrite S5; f_equal; rewrite ?plus_IZR; lra.
Qed.
