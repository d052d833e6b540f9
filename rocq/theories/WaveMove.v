(** The waveform of a surface and the L1B file of the same pass elsewhere. *)
From Coq Require Import String List ZArith Reals Bool Lia Lra.
From Verif Require Import Common Cplx GeoModel RotSpec RotProofs RotProps WholeModel WholeSpec WholeMove WaveModel WaveProofs.
From Verif Require SurfModel DopModel GcorrModel PointModel LinModel.
Import ListNotations.
Local Open Scope R_scope.

Section Move.
Variables (phi : R) (flip : bool) (u : setup) (input input' : list witem).
Hypothesis MI : Forall2 (moved_item phi flip) input input'.
Notation u' := (moved_setup phi flip u).

Lemma look_at_moved : forall e, look_at u' input' e = look_at u input e.
Proof.
  intros e. unfold look_at. pose proof (data_moved phi flip u input input' MI (fst (fst e))) as D.
  destruct (data u input (fst (fst e))) as [b|], (data u' input' (fst (fst e))) as [b'|]; try contradiction; [|reflexivity].
  rewrite (dop_moved phi flip u _ _ D). reflexivity.
Qed.
Lemma chosen_moved : forall p p', pr_stack p' = pr_stack p -> chosen u' input' p' = chosen u input p.
Proof.
  intros p p' E. unfold chosen. rewrite E. f_equal. change (u_pick u') with (u_pick u). f_equal. apply map_ext. exact look_at_moved.
Qed.
Lemma look_of_moved : forall s e row, look_of u' input' (moved_gsurf phi flip s) e row = look_of u input s e row.
Proof.
  intros s e row. unfold look_of. pose proof (records_moved phi flip input input' MI (fst (fst e))) as R.
  destruct (record_of input (fst (fst e))) as [r|], (record_of input' (fst (fst e))) as [r'|]; try contradiction; [|reflexivity].
  destruct (snd e) as [a|]; [|reflexivity]. destruct R as (R1 & R2 & R3). pose proof (prepared_moved phi flip u r r' R1 R2) as D.
  cbv zeta. rewrite (dop_moved phi flip u _ _ D). destruct D as ((_ & V & _ & W & _ & _ & P & _) & S & _).
  destruct (dop u (prepared u r)) as [d|]; [|reflexivity]. rewrite V, W, P, S, R3, norm_move.
  set (o := LinModel.r_burst (w_echo r)).
  pose proof (range_moved phi flip s {| GcorrModel.g_x := vx (SurfModel.b_sat (prepared u r)); GcorrModel.g_y := vy (SurfModel.b_sat (prepared u r));
                    GcorrModel.g_z := vz (SurfModel.b_sat (prepared u r)); GcorrModel.g_speed := norm (vlist (SurfModel.b_vel (prepared u r)));
                    GcorrModel.g_pri := PointModel.b_pri o; GcorrModel.g_wd := SurfModel.b_wd (prepared u r);
                    GcorrModel.g_angle := a; GcorrModel.g_t0 := PointModel.b_t0 o; GcorrModel.g_row := [] |}) as RM.
  f_equal. f_equal. unfold GcorrModel.correct_beam. cbn [GcorrModel.o_doppler GcorrModel.o_slant GcorrModel.o_wdc].
  change (u_flags u') with (u_flags u). change (u_k u') with (u_k u). f_equal. f_equal.
  unfold GcorrModel.slant_correction. unfold moved_gbeam in RM. cbn [GcorrModel.g_x GcorrModel.g_y GcorrModel.g_z GcorrModel.g_speed GcorrModel.g_pri GcorrModel.g_wd GcorrModel.g_angle GcorrModel.g_t0 GcorrModel.g_row] in RM.
  destruct (SurfModel.b_sat (prepared u r)) as [x y z]. cbn [vx vy vz] in *. rewrite RM. reflexivity.
Qed.
Lemma looks_with_moved : forall s es rows, looks_with u' input' (moved_gsurf phi flip s) es rows = looks_with u input s es rows.
Proof.
  intros s. induction es as [|e es IH]; intros [|row rows]; try reflexivity. cbn [looks_with]. rewrite look_of_moved, IH. reflexivity.
Qed.
Lemma ground_moved : forall l l', moved_loc phi flip l l' -> ground l' = moved_gsurf phi flip (ground l).
Proof.
  intros l l' (S & _ & _ & _ & _ & _ & _ & _ & _ & _ & W & _). unfold ground, moved_gsurf. rewrite S, W.
  cbn [GcorrModel.sx GcorrModel.sy GcorrModel.sz GcorrModel.s_wd]. destruct (SurfModel.l_surf l); reflexivity.
Qed.
Lemma wave_moved : forall v p p', moved_product phi flip p p' -> wave_of u' v input' p' = wave_of u v input p.
Proof.
  intros v p p' (_ & S & E & _ & L). unfold wave_of. rewrite L.
  destruct (pr_surf p) as [x|], (pr_surf p') as [x'|]; cbn in S; try contradiction; [|reflexivity]. destruct (pr_looks p) as [rows|]; [|reflexivity].
  destruct S as (_ & B & _). destruct (SurfModel.s_loc x) as [l|], (SurfModel.s_loc x') as [l'|]; cbn in B; try contradiction; [|reflexivity].
  rewrite (ground_moved l l' B), (chosen_moved p p' E), looks_with_moved. reflexivity.
Qed.
End Move.

(** * The states of a run over a steady pass hold surfaces laid *)
From Verif Require Import ChainModel ChainSpec LaidSpec LaidProofs LaidProps WholeProofs CircSpec CircProofs.
Local Open Scope nat_scope.
Lemma state_laid : forall u input n w s, steady u input -> state_after u input n = Some w ->
  In s (SurfModel.t_surfs (fst (geo_read u input w))) -> exists i r, nth_error (laid u input) i = Some (r, s).
Proof.
  intros u input n w s ST SA I. pose proof ST as [NF FE _ GAP (vis & lo & hi & M & SEE & REG & HM)]. pose proof (start_ok u input ST) as FI.
  assert (SM : forall n w, state_after u input n = Some w -> SIM u input vis lo hi n w).
  { clear n w s SA I. induction n as [|n IH]; intros w E; cbn [state_after] in E.
    - injection E as <-. apply (sim_0 u input vis lo hi M); assumption.
    - destruct (state_after u input n) as [w0|]; [|discriminate]. destruct (wbody u input w0) as [[r w1]|] eqn:B; [|discriminate].
      destruct r as [s'|s'|e s']; try discriminate. injection E as <-.
      destruct (step_sim u input vis lo hi M NF FE REG SEE HM FI GAP n w0 _ w1 (IH w0 eq_refl) B) as (_ & _ & _ & _ & H). exact H. }
  specialize (SM n w SA). pose proof (geo_ok u input w FE) as OK. destruct (geo_read u input w) as [t1 ok] eqn:G. cbn [fst snd] in *. subst ok.
  destruct (reading u input vis lo hi M NF FE HM FI GAP n w t1 SM G) as (_ & T).
  set (D := length (w_done (s_out (x_s w)))) in *. set (N := read_n _) in *.
  rewrite (tr_surfs _ _ _ _ _ T) in I.
  assert (K : In s (map snd (L u input N))) by (rewrite <- (firstn_skipn D (map snd (L u input N))); apply in_or_app; now right).
  apply In_nth_error in K as (j & K). rewrite nth_error_map in K. destruct (nth_error (L u input N) j) as [[r e']|] eqn:NJ; [|discriminate]. cbn in K. injection K as ->.
  exists j, r. assert (JL : j < length (L u input N)) by (apply nth_error_Some; congruence).
  destruct (L_rest u input FE N) as (l & LR & _). rewrite LR, nth_error_app1 by exact JL. exact NJ.
Qed.
Definition clear_laid (u : setup) (input : list witem) : Prop :=
  forall i r s l, nth_error (laid u input) i = Some (r, s) -> SurfModel.s_loc s = Some l ->
    clear (SurfModel.g_k (u_g u)) (SurfModel.l_surf l) /\ clear (SurfModel.g_k (u_g u)) (SurfModel.l_sat l).
Lemma laid_clear_states : forall u input, steady u input -> clear_laid u input ->
  forall n w, state_after u input n = Some w -> clear_state (SurfModel.g_k (u_g u)) (fst (geo_read u input w)).
Proof. intros u input ST CL n w SA s l I SL. destruct (state_laid u input n w s ST SA I) as (i & r & N). exact (CL i r s l N SL). Qed.

(** On a circle above the equator. *)
Local Open Scope R_scope.
Lemma ring_clear : forall u g K m input, ring_pass u g K m input -> 2 <= r_ground g ^ 2 ->
  (1 - (1 - k_flat (SurfModel.g_k (u_g u))) ^ 2) * k_major (SurfModel.g_k (u_g u)) <= r_ground g -> clear_laid u input.
Proof.
  intros u g K m input P G2 GF i r s l N SL. destruct (laid_nth u g K m input P i r s N) as (_ & (_ & _ & _ & l' & L & L1 & L2 & _) & _).
  rewrite SL in L. injection L as <-. rewrite L1, L2. pose proof (p_ground _ _ _ _ _ P) as GR.
  assert (A : forall q t, r_ground g <= q -> clear (SurfModel.g_k (u_g u)) (around q t)).
  { intros q t LE. assert (E : vx (around q t) ^ 2 + vy (around q t) ^ 2 = q ^ 2).
    { unfold around. cbn [vx vy]. pose proof (sin2_cos2 t) as SC. unfold Rsqr in SC. transitivity (q ^ 2 * (sin t * sin t + cos t * cos t)); [ring|]. rewrite SC. ring. }
    unfold clear. rewrite E. split; [nra|]. right. replace (q ^ 2) with (q * q) by ring. rewrite sqrt_square by lra. lra. }
  split; apply A; lra.
Qed.
Lemma ring_plain : forall u g K m input r, ring_pass u g K m input -> In (WValid r) input -> plain_angles (u_fuel u) (w_geo r).
Proof.
  intros u g K m input r P I. pose proof PI_RGT_0. apply In_nth_error in I as (p & N). destruct (p_rec _ _ _ _ _ P p _ N) as (r' & [= <-] & R1 & _).
  assert (LP : (p < length input)%nat) by (apply nth_error_Some; congruence). destruct (p_place _ _ _ _ _ P p LP) as (B & _).
  unfold plain_angles. rewrite R1. cbn [vx vy]. split; [lra|]. pose proof (p_fuel _ _ _ _ _ P) as FU. destruct (u_fuel u) as [|f]; [lia|].
  rewrite normalize_id by lra. discriminate.
Qed.
