(** The chain on the same scene elsewhere, and on other echoes. *)
From Coq Require Import List ZArith QArith Qreals Reals Bool Lia Lra.
From Verif Require Import Common Cplx GeoModel BeamModel ChainModel ChainProofs RotSpec RotProofs RotProps WholeModel WholeSpec WholeChain WholeProofs WholeSim.
From Verif Require SurfModel DopModel GcorrModel PointModel LinModel LinSpec LinProps.
Import ListNotations.
Local Open Scope nat_scope.

(** * Elsewhere *)
Section Move.
Variables (phi : R) (flip : bool).
Definition moved_raw (r : LinModel.raw) : LinModel.raw :=
  {| LinModel.r_burst := moved_obs phi flip (LinModel.r_burst r); LinModel.r_agc := LinModel.r_agc r; LinModel.r_sig0 := LinModel.r_sig0 r;
     LinModel.r_power := LinModel.r_power r; LinModel.r_phase := LinModel.r_phase r; LinModel.r_table := LinModel.r_table r |}.
Lemma calibrated_moved : forall f1 f2 k N r,
  LinModel.calibrated f1 f2 k N (moved_raw r) = option_map (moved_obs phi flip) (LinModel.calibrated f1 f2 k N r).
Proof.
  intros f1 f2 k N r. unfold LinModel.calibrated.
  cbn [moved_raw moved_obs LinModel.r_burst LinModel.r_agc LinModel.r_sig0 LinModel.r_power LinModel.r_phase LinModel.r_table PointModel.b_wfm].
  destruct (DftModel.cal1 _ _ _ _ _ _ _) as [[w1|]|]; try reflexivity. destruct (DftModel.cal2 _ _ _ _ _) as [[w2|]|]; reflexivity.
Qed.
Lemma looks_moved : forall f1 f2 fl k s N zp n l,
  LinModel.looks f1 f2 fl k (moved_gsurf phi flip s) N zp n (map moved_raw l) = LinModel.looks f1 f2 fl k s N zp n l.
Proof.
  intros f1 f2 fl k s N zp n l. unfold LinModel.looks.
  assert (A : LinModel.calibrated_all f1 f2 k N (map moved_raw l) = option_map (map (moved_obs phi flip)) (LinModel.calibrated_all f1 f2 k N l)).
  { induction l as [|r l IH]; [reflexivity|]. cbn [map LinModel.calibrated_all]. rewrite IH, calibrated_moved.
    destruct (LinModel.calibrated f1 f2 k N r); [|reflexivity]. destruct (LinModel.calibrated_all f1 f2 k N l); reflexivity. }
  rewrite A. destruct (LinModel.calibrated_all f1 f2 k N l) as [os|]; [|reflexivity]. cbn [option_map]. apply C121_image.
Qed.

Variables (u : setup) (input input' : list witem).
Hypothesis MI : Forall2 (moved_item phi flip) input input'.
Notation u' := (moved_setup phi flip u).

Lemma records_moved : forall p,
  both (fun r r' => w_time r' = w_time r /\ moved_record phi flip (w_geo r) (w_geo r') /\ w_echo r' = w_echo r)
    (record_of input p) (record_of input' p).
Proof.
  unfold record_of. clear - MI. induction MI as [|i i' l l' H F IH]; intros [|p]; cbn [nth_error]; [exact I|exact I| |apply IH; exact F].
  destruct i as [r| |], i' as [r'| |]; try contradiction; exact H.
Qed.
Lemma erase_moved : map erase input' = map erase input.
Proof.
  clear - MI. induction MI as [|i i' l l' H F IH]; [reflexivity|]. cbn. rewrite (IH F). f_equal.
  destruct i as [r| |], i' as [r'| |]; try contradiction; cbn in *; try reflexivity. destruct H as (-> & _). reflexivity.
Qed.
Lemma prepared_moved : forall r r', w_time r' = w_time r -> moved_record phi flip (w_geo r) (w_geo r') ->
  moved_burst phi flip (prepared u r) (prepared u' r').
Proof.
  intros r r' T (L & E1 & E2 & E3 & E4 & E5 & E6 & E7 & E8 & E9 & E10). unfold prepared. change (SurfModel.g_k (u_g u')) with (SurfModel.g_k (u_g u)).
  apply locate_moved. unfold moved_record; cbn [SurfModel.b_lla SurfModel.b_vel SurfModel.b_time SurfModel.b_wd SurfModel.b_rate SurfModel.b_roll SurfModel.b_pitch SurfModel.b_yaw SurfModel.b_days SurfModel.b_secs SurfModel.b_leap].
  rewrite T. repeat (split; [assumption||reflexivity|]). assumption.
Qed.
Lemma data_moved : forall p, both (moved_burst phi flip) (data u input p) (data u' input' p).
Proof.
  intros p. unfold data. pose proof (records_moved p) as R.
  destruct (record_of input p) as [r|], (record_of input' p) as [r'|]; try contradiction; [|exact I].
  destruct R as (R1 & R2 & _). cbn. apply prepared_moved; assumption.
Qed.
Lemma lowest_moved : forall b b', moved_burst phi flip b b' -> lowest u' b' = lowest u b.
Proof.
  intros b b' ((_ & V & _) & _). unfold lowest, DopModel.q_min. rewrite V, norm_move. reflexivity.
Qed.
Lemma dop_moved : forall b b', moved_burst phi flip b b' -> dop u' b' = dop u b.
Proof.
  intros b b' ((L & V & _) & _). unfold dop. rewrite V. exact (proj1 (C121_angles phi flip) _ _ _ _ _ L).
Qed.
Lemma angle_moved : forall b b' s s', moved_burst phi flip b b' -> moved_surface phi flip s s' -> angle b' s' = angle b s.
Proof.
  intros b b' s s' ((_ & V & _) & S & _) (_ & L & _). unfold angle.
  destruct (SurfModel.s_loc s) as [l|], (SurfModel.s_loc s') as [l'|]; try contradiction; [|reflexivity].
  destruct L as (L & _). unfold DopModel.beam_angle. rewrite V, S, L, move_sub, !norm_move, dot_move. reflexivity.
Qed.
Lemma sees_moved : forall b b' s s', moved_burst phi flip b b' -> moved_surface phi flip s s' -> sees u' b' s' = sees u b s.
Proof.
  intros b b' s s' B S. unfold sees. rewrite (lowest_moved _ _ B), (angle_moved _ _ _ _ B S), (dop_moved _ _ B). reflexivity.
Qed.
Lemma look_moved : forall angles e, look u' input' angles e = look u input angles e.
Proof.
  intros angles e. unfold look. pose proof (data_moved (e_uid e)) as D.
  destruct (data u input (e_uid e)) as [b|], (data u' input' (e_uid e)) as [b'|]; try contradiction; [|reflexivity].
  rewrite (dop_moved _ _ D). reflexivity.
Qed.
Lemma picked_moved : forall angles l, picked u' input' angles l = picked u input angles l.
Proof.
  intros angles l. unfold picked. rewrite (map_ext (look u' input' angles) (look u input angles) (look_moved angles)). reflexivity.
Qed.
Lemma echo_moved : forall p w, echo_of u' input' p w = echo_of u input p w.
Proof. intros p w. unfold echo_of. rewrite erase_moved. reflexivity. Qed.
Lemma view_moved : forall angles e, view u' input' angles e = option_map moved_raw (view u input angles e).
Proof.
  intros angles e. unfold view. pose proof (records_moved (e_uid e)) as R.
  destruct (record_of input (e_uid e)) as [r|], (record_of input' (e_uid e)) as [r'|]; try contradiction; [|reflexivity].
  destruct R as (R1 & R2 & R3). pose proof (prepared_moved r r' R1 R2) as ((_ & V & _ & W & _) & S & _).
  cbv zeta. rewrite echo_moved, R3, V, W, S, norm_move. destruct (SurfModel.b_sat (prepared u r)) as [x y z].
  destruct (echo_of u input (e_uid e) (w_echo r)); reflexivity.
Qed.
Lemma all_some_map : forall {A B C} (f : A -> B) (v : C -> option A) l, all_some (map (fun e => option_map f (v e)) l) = option_map (map f) (all_some (map v l)).
Proof.
  intros A B C f v. induction l as [|e l IH]; [reflexivity|]. cbn. destruct (v e); [|reflexivity]. cbn. rewrite IH. destruct (all_some (map v l)); reflexivity.
Qed.
Lemma product_moved : forall t t' angles s, moved_state phi flip t t' ->
  moved_product phi flip (product_of u input t angles s) (product_of u' input' t' angles s).
Proof.
  intros t t' angles s (_ & _ & S & _). unfold moved_product, product_of. cbn [pr_number pr_surf pr_stack pr_bursts pr_looks].
  pose proof (by_uid_rel (moved_surface phi flip) (fun s s' H => proj1 H) _ _ (s_uid s) S) as B.
  split; [reflexivity|]. split; [exact B|]. split; [reflexivity|]. rewrite picked_moved. split; [reflexivity|].
  destruct (by_uid (SurfModel.t_surfs t) (s_uid s)) as [x|], (by_uid (SurfModel.t_surfs t') (s_uid s)) as [x'|]; try contradiction; [|reflexivity].
  rewrite (map_ext (view u' input' angles) (fun e => option_map moved_raw (view u input angles e)) (view_moved angles)), all_some_map.
  destruct (all_some (map (view u input angles) (picked u input angles (s_stack s)))) as [l|]; [|reflexivity]. cbn [option_map].
  destruct B as (_ & L & _). destruct (SurfModel.s_loc x) as [g|], (SurfModel.s_loc x') as [g'|]; try contradiction; [|reflexivity].
  cbn [u_cf u_cal1 u_cal2 u_flags u_k u_zp moved_setup]. destruct (c_approx (u_cf u)); [reflexivity|].
  destruct L as (L1 & _ & _ & _ & _ & _ & _ & _ & _ & _ & L2 & _).
  assert (G : ground g' = moved_gsurf phi flip (ground g)).
  { unfold ground, moved_gsurf. rewrite L1, L2. destruct (SurfModel.l_surf g). reflexivity. }
  rewrite G. apply looks_moved.
Qed.

Lemma whole_moved : forall cancel, ellipsoid (SurfModel.g_k (u_g u)) -> k_pi (SurfModel.g_k (u_g u)) = PI ->
  (forall r, In (WValid r) input \/ In (WValid r) input' -> plain_angles (u_fuel u) (w_geo r)) ->
  (forall n w, state_after u input n = Some w -> clear_state (SurfModel.g_k (u_g u)) (fst (geo_read u input w))) ->
  like (same_run (moved_state phi flip) (moved_product phi flip)) (whole u cancel input) (whole u' cancel input').
Proof.
  intros cancel E KP PA CL.
  assert (PD : forall p b, data u input p = Some b -> plain_angles (u_fuel u) b).
  { intros p b D. unfold data, record_of in D. destruct (nth_error input p) as [[r| |]|] eqn:N; cbn in D; try discriminate.
    injection D as <-. apply nth_error_In in N. exact (PA r (or_introl N)). }
  assert (PD' : forall p b, data u' input' p = Some b -> plain_angles (u_fuel u) b).
  { intros p b D. unfold data, record_of in D. destruct (nth_error input' p) as [[r| |]|] eqn:N; cbn in D; try discriminate.
    injection D as <-. apply nth_error_In in N. exact (PA r (or_intror N)). }
  apply (whole_rel u u' input input' (moved_state phi flip) (moved_burst phi flip) (moved_surface phi flip) (moved_product phi flip)
           (clear_state (SurfModel.g_k (u_g u)))).
  - reflexivity.
  - repeat split.
  - exact erase_moved.
  - exact data_moved.
  - exact lowest_moved.
  - exact angle_moved.
  - exact sees_moved.
  - intros s s' H. exact (proj1 H).
  - intros t t' (_ & _ & H & _). exact H.
  - intros t t' (_ & _ & _ & H & _). clear - H. induction H; cbn; congruence.
  - intros o t t' (T1 & T2 & T3 & T4 & T5) O. destruct o as [f b| |n]; [contradiction| |]; cbn [SurfModel.run_op]; unfold moved_state;
      cbn [SurfModel.t_found SurfModel.t_last SurfModel.t_surfs SurfModel.t_bursts SurfModel.t_next].
    + repeat (split; [assumption|]). split; [|split; assumption]. destruct T3; [constructor|assumption].
    + repeat (split; [assumption|]). split; [apply skipn_moved; assumption|assumption].
  - intros f p b b' t t' T D D' G. pose proof (data_moved p) as DM. rewrite D, D' in DM.
    apply step_moved; try assumption; [exact (PD p b D)|exact (PD' p b' D')].
  - exact product_moved.
  - unfold moved_state; cbn. repeat split; constructor.
  - exact CL.
Qed.
End Move.

(** * Other echoes *)
Section Louder.
Variables (gain : nat -> C) (u : setup) (input : list witem).
Notation input' := (louder_input gain 0 input).
Lemma louder_nth : forall l n p, nth_error (louder_input gain n l) p = option_map (louder_item (gain (n + p))) (nth_error l p).
Proof.
  induction l as [|i l IH]; intros n [|p]; cbn [louder_input nth_error option_map]; try reflexivity.
  - rewrite Nat.add_0_r. reflexivity.
  - rewrite IH. replace (S n + p) with (n + S p) by lia. reflexivity.
Qed.
Lemma record_louder : forall p, record_of input' p =
  option_map (fun r => mk_rec (w_time r) (w_geo r) (LinSpec.amplified (gain p) (w_echo r))) (record_of input p).
Proof.
  intros p. unfold record_of. rewrite louder_nth. cbn [Nat.add]. destruct (nth_error input p) as [[r| |]|]; reflexivity.
Qed.
Lemma data_louder : forall p, data u input' p = data u input p.
Proof. intros p. unfold data. rewrite record_louder. destruct (record_of input p); reflexivity. Qed.
Lemma erase_louder : map erase input' = map erase input.
Proof. generalize 0. induction input as [|[r| |] l IH]; intros n; cbn; [reflexivity|f_equal; apply IH..]. Qed.
Lemma picked_louder : forall angles l, picked u input' angles l = picked u input angles l.
Proof.
  intros angles l. unfold picked. f_equal. f_equal. apply map_ext. intros e. unfold look. rewrite data_louder. reflexivity.
Qed.
Lemma view_louder : forall angles e, view u input' angles e = option_map (LinSpec.amplified (gain (e_uid e))) (view u input angles e).
Proof.
  intros angles e. unfold view. rewrite record_louder. destruct (record_of input (e_uid e)) as [r|]; [|reflexivity].
  cbn [option_map w_echo]. unfold echo_of. rewrite erase_louder. destruct (after_gap _ _ _ _); [|reflexivity].
  rewrite LinProofs.calibrated_mul. destruct (LinModel.calibrated _ _ _ _ _) as [o|]; reflexivity.
Qed.
Lemma views_louder : forall angles l, all_some (map (view u input' angles) l) =
  option_map (fun v => map (fun p => LinSpec.amplified (fst p) (snd p)) (combine (map gain (map e_uid l)) v)) (all_some (map (view u input angles) l)).
Proof.
  intros angles. induction l as [|e l IH]; [reflexivity|]. cbn [map all_some]. rewrite view_louder.
  destruct (view u input angles e); [|reflexivity]. cbn [option_map all_some]. rewrite IH.
  destruct (all_some (map (view u input angles) l)); reflexivity.
Qed.
Lemma all_some_length : forall {A} (l : list (option A)) v, all_some l = Some v -> length v = length l.
Proof.
  intros A. induction l as [|[x|] l IH]; intros v H; cbn in H; [injection H as <-; reflexivity| |discriminate].
  destruct (all_some l) as [r|]; [|discriminate]. injection H as <-. cbn. rewrite (IH r eq_refl). reflexivity.
Qed.
Lemma product_louder : forall t angles s, louder_product gain (product_of u input t angles s) (product_of u input' t angles s).
Proof.
  intros t angles s. unfold louder_product, product_of. cbn [pr_number pr_surf pr_stack pr_bursts pr_looks]. rewrite picked_louder.
  repeat (split; [reflexivity|]). destruct (by_uid _ _) as [x|]; [|exact I]. rewrite views_louder.
  destruct (all_some (map (view u input angles) (picked u input angles (s_stack s)))) as [l|] eqn:A; [|exact I]. cbn [option_map].
  destruct (SurfModel.s_loc x); [|exact I]. destruct (c_approx (u_cf u)); [exact I|]. apply LinProps.C119_amplified.
  rewrite !map_length. apply all_some_length in A. rewrite map_length in A. congruence.
Qed.
Lemma whole_louder : forall cancel,
  like (same_run (fun t t' => t' = t) (louder_product gain)) (whole u cancel input) (whole u cancel input').
Proof.
  intros cancel.
  apply (whole_rel u u input input' (fun t t' => t' = t) (fun b b' => b' = b) (fun s s' => s' = s) (louder_product gain) (fun _ => True)).
  - reflexivity.
  - repeat split.
  - exact erase_louder.
  - intros p. rewrite data_louder. destruct (data u input p); [reflexivity|exact I].
  - intros; subst; reflexivity.
  - intros; subst; reflexivity.
  - intros; subst; reflexivity.
  - intros; subst; reflexivity.
  - intros t t' ->. induction (SurfModel.t_surfs t); constructor; auto.
  - intros; subst; reflexivity.
  - intros; subst; reflexivity.
  - intros f p b b' t t' -> D D' _. rewrite data_louder in D'. rewrite D in D'. injection D' as <-. auto.
  - intros t t' angles s ->. apply product_louder.
  - reflexivity.
  - intros. exact I.
Qed.
End Louder.

(** * Any other echoes *)
Section Echoes.
Variables (u : setup) (input input' : list witem).
Hypothesis EI : Forall2 echo_item input input'.
Lemma record_echo : forall p, both (fun r r' => w_time r' = w_time r /\ w_geo r' = w_geo r) (record_of input p) (record_of input' p).
Proof.
  unfold record_of. clear - EI. induction EI as [|i i' l l' H F IH]; intros [|p]; cbn [nth_error]; [exact I|exact I| |apply IH; exact F].
  destruct i as [r| |], i' as [r'| |]; try contradiction; exact H.
Qed.
Lemma data_echo : forall p, data u input' p = data u input p.
Proof.
  intros p. unfold data. pose proof (record_echo p) as R. destruct (record_of input p) as [r|], (record_of input' p) as [r'|]; try contradiction; [|reflexivity].
  destruct R as (R1 & R2). cbn. unfold prepared. rewrite R1, R2. reflexivity.
Qed.
Lemma erase_echo : map erase input' = map erase input.
Proof.
  clear - EI. induction EI as [|i i' l l' H F IH]; [reflexivity|]. cbn. rewrite (IH F). f_equal.
  destruct i as [r| |], i' as [r'| |]; try contradiction; cbn in *; try reflexivity. destruct H as (-> & _). reflexivity.
Qed.
Lemma picked_echo : forall angles l, picked u input' angles l = picked u input angles l.
Proof.
  intros angles l. unfold picked. f_equal. f_equal. apply map_ext. intros e. unfold look. rewrite data_echo. reflexivity.
Qed.
Lemma product_echo : forall t angles s, echo_product input input' (product_of u input t angles s) (product_of u input' t angles s).
Proof.
  intros t angles s. unfold echo_product, product_of. cbn [pr_number pr_surf pr_stack pr_bursts pr_looks]. rewrite picked_echo.
  repeat (split; [reflexivity|]). intros H. destruct (by_uid _ _) as [x|]; [|reflexivity].
  assert (E : map (view u input' angles) (picked u input angles (s_stack s)) = map (view u input angles) (picked u input angles (s_stack s))).
  { apply map_ext_in. intros e J. unfold view, echo_of. rewrite erase_echo, H; [reflexivity|]. apply in_map. exact J. }
  rewrite E. reflexivity.
Qed.
Lemma whole_echo : forall cancel,
  like (same_run (fun t t' => t' = t) (echo_product input input')) (whole u cancel input) (whole u cancel input').
Proof.
  intros cancel.
  apply (whole_rel u u input input' (fun t t' => t' = t) (fun b b' => b' = b) (fun s s' => s' = s) (echo_product input input') (fun _ => True)).
  - reflexivity.
  - repeat split.
  - exact erase_echo.
  - intros p. rewrite data_echo. destruct (data u input p); [reflexivity|exact I].
  - intros; subst; reflexivity.
  - intros; subst; reflexivity.
  - intros; subst; reflexivity.
  - intros; subst; reflexivity.
  - intros t t' ->. induction (SurfModel.t_surfs t); constructor; auto.
  - intros; subst; reflexivity.
  - intros; subst; reflexivity.
  - intros f p b b' t t' -> D D' _. rewrite data_echo in D'. rewrite D in D'. injection D' as <-. auto.
  - intros t t' angles s ->. apply product_echo.
  - reflexivity.
  - intros. exact I.
Qed.
End Echoes.
