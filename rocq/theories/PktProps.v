(** Properties C90-C92. *)
From Coq Require Import String List ZArith Reals Bool Lra Lia.
From Verif Require Import Common WriterModel SchModel SchSpec SchProofs SchProps PktModel PktSpec PktProofs.
Import ListNotations.
Open Scope string_scope.
Open Scope R_scope.

(** * C90 What a product says about a burst is what the L1A file says *)

(** Every variable of every product that is copied from the closest burst
    holds the value of the L1A variable of the same name. *)
Theorem C90_copied : forall l1bs p name f, In (l1bs, p) tagged ->
  In (name, SBurst f) (p_writes p) ->
  exists base, name = (base ++ suffix_of l1bs)%string /\
    forall x l, attribute x l f = Some (l_var l (base ++ l1a_suffix)%string).
Proof.
  assert (G : forall l1bs p, In (l1bs, p) tagged ->
    forallb (fun kv => match snd kv with
                       | SBurst f =>
                           let base := rebase (suffix_of l1bs) "" (fst kv) in
                           (fst kv =? base ++ suffix_of l1bs)%string &&
                           match List.find (fun p => (fst p =? f)%string) attributes with
                           | Some (_, AVar v) => (v =? base ++ l1a_suffix)%string
                           | _ => false
                           end
                       | _ => true
                       end) (p_writes p) = true).
  { intros l1bs p H. cbn [tagged In] in H.
    destruct H as [H|[H|[H|[]]]]; injection H; intros <- <-; vm_compute; reflexivity. }
  intros l1bs p name f Ht Hin. specialize (G l1bs p Ht). rewrite forallb_forall in G.
  specialize (G _ Hin). cbn [fst snd] in G. cbv zeta in G. apply andb_true_iff in G.
  destruct G as [G1 G2]. apply String.eqb_eq in G1.
  exists (rebase (suffix_of l1bs) "" name). split; [exact G1|].
  intros x l. unfold attribute.
  destruct (List.find (fun p => (fst p =? f)%string) attributes) as [[g [v|a|c|z| ]]|]; try discriminate.
  apply String.eqb_eq in G2. subst v. reflexivity.
Qed.
Print Assumptions C90_copied.

(** The attitude of the satellite does not come from the attitude variables:
    no attribute but the window delay depends on them, and roll, pitch and
    yaw are those of the antenna mispointing. *)
Theorem C90_pointing_unused : forall x l l' f, same_but pointing l l' ->
  f <> "win_delay_sar_ku" -> attribute x l f = attribute x l' f.
Proof.
  intros x l l' f (Hv & _ & _) Hf. unfold attribute.
  destruct (List.find (fun p => (fst p =? f)%string) attributes) as [[g s]|] eqn:E; [|reflexivity].
  apply find_some in E. destruct E as [E1 E2]. cbn [fst snd] in *. apply String.eqb_eq in E2. subst g.
  pose proof pointing_unread as F. rewrite forallb_forall in F. specialize (F _ E1).
  cbn [fst snd] in F. apply orb_true_iff in F. destruct F as [F|F]; [apply String.eqb_eq in F; congruence|].
  f_equal. apply aeval_reads. intros v Hin. apply Hv. intro C. apply negb_true_iff in F.
  rewrite <- not_true_iff_false in F. apply F. apply existsb_exists. exists v.
  split; [exact Hin|]. apply memb_in. exact C.
Qed.
Print Assumptions C90_pointing_unused.

(** So the roll, pitch and yaw that reach the products are not those of the
    variables of that name. *)
Theorem C90_attitude_refuted : exists l l' x, same_but pointing l l' /\
  radians (l_var l "roll_sat_pointing_l1a_echo_sar_ku") <>
  radians (l_var l' "roll_sat_pointing_l1a_echo_sar_ku") /\
  attribute x l "roll_sar" = attribute x l' "roll_sar".
Proof.
  exists {| l_var := fun _ => 0; l_i := fun _ => 0; l_q := fun _ => 0 |}.
  exists {| l_var := fun v => if memb v pointing then 1 else 0; l_i := fun _ => 0; l_q := fun _ => 0 |}.
  exists {| a_chd := fun _ => 1; a_c := 1 |}.
  assert (S : same_but pointing {| l_var := fun _ => 0; l_i := fun _ => 0; l_q := fun _ => 0 |}
    {| l_var := fun v => if memb v pointing then 1 else 0; l_i := fun _ => 0; l_q := fun _ => 0 |}).
  { split; [|split; reflexivity]. intros v Hv. cbn [l_var]. apply memb_not in Hv. rewrite Hv. reflexivity. }
  split; [exact S|]. split.
  - cbn [l_var]. replace (memb "roll_sat_pointing_l1a_echo_sar_ku" pointing) with true by reflexivity.
    unfold radians. pose proof PI_RGT_0. lra.
  - apply C90_pointing_unused; [exact S|discriminate].
Qed.
Print Assumptions C90_attitude_refuted.

Example C90_example : In ("agc_ku_l1bs_echo_sar_ku", SBurst "agc_ku") (p_writes l1bs_product) /\
  forall x l, attribute x l "agc_ku" = Some (l_var l "agc_ku_l1a_echo_sar_ku").
Proof.
  split; [|reflexivity].
  assert (E : List.find (fun p => fst p =? "agc_ku_l1bs_echo_sar_ku") (p_writes l1bs_product) =
    Some ("agc_ku_l1bs_echo_sar_ku", SBurst "agc_ku")) by (vm_compute; reflexivity).
  apply find_some in E. apply E.
Qed.

(** * C91 The window delay is the two-way travel time to the centre of
      gravity *)

(** Exact without pitch; otherwise the range is wrong by at most the offset
    times half the squared pitch in degrees (up to a degree).  Missing for
    the full property: the conversion to radians. *)
Theorem C91_delay_partial : forall x l, a_c x > 0 ->
  (pitch_of l = 0 -> win_delay x l = 2 * range_spec (range_of l) (cog_of l) 0 / a_c x) /\
  (-1 <= pitch_of l <= 1 ->
   Rabs (win_delay x l * a_c x / 2 - range_spec (range_of l) (cog_of l) (pitch_of l)) <=
   Rabs (cog_of l) * (pitch_of l * pitch_of l / 2)).
Proof.
  intros x l Hc. split.
  - intro Hp. unfold win_delay, range_cog, zcog, range_spec, range_of, cog_of.
    unfold pitch_of in Hp. rewrite Hp. replace (0 * PI / 180) with 0 by lra. field. lra.
  - intro Hp. rewrite delay_error by lra. rewrite Rabs_mult, Rmult_comm.
    apply Rmult_le_compat_l; [apply Rabs_pos|].
    destruct (cos_sandwich (pitch_of l) Hp) as [S1 S2].
    rewrite Rabs_left1 by lra.
    assert (C : 1 - pitch_of l * pitch_of l / 2 <= cos (pitch_of l)).
    { assert (D : cos (pitch_of l) = cos (2 * (pitch_of l / 2))) by (f_equal; field).
      rewrite cos_2a_sin in D. rewrite D.
      assert (Q : sin (pitch_of l / 2) * sin (pitch_of l / 2) <= (pitch_of l / 2) * (pitch_of l / 2)).
      { assert (T : forall y, Rabs (sin y) <= Rabs y).
        { intro y. destruct (Rle_dec 0 y) as [Ly|Ly].
          - rewrite (Rabs_right y) by lra. destruct (Req_dec y 0) as [->|Ny].
            + rewrite sin_0, Rabs_R0. lra.
            + apply Rabs_le. pose proof (sin_lt_x y ltac:(lra)). split; [|lra].
              destruct (Rle_dec y PI) as [Lp|Lp].
              * pose proof (sin_ge_0 y Ly Lp). lra.
              * pose proof (SIN_bound y). pose proof PI2_1. lra.
          - rewrite (Rabs_left y) by lra. rewrite <- Rabs_Ropp, <- sin_neg.
            apply Rabs_le. pose proof (sin_lt_x (- y) ltac:(lra)). split; [|lra].
            destruct (Rle_dec (- y) PI) as [Lp|Lp].
            * pose proof (sin_ge_0 (- y) ltac:(lra) Lp). lra.
            * pose proof (SIN_bound (- y)). pose proof PI2_1. lra. }
        apply (Rsqr_le_abs_1 (sin (pitch_of l / 2)) (pitch_of l / 2)). apply T. }
      lra. }
    lra.
Qed.
Print Assumptions C91_delay_partial.

(** A pitch of about one degree shifts the range by more than a quarter of
    the offset. *)
Theorem C91_delay_refuted : exists x l, a_c x > 0 /\ 0 < pitch_of l < 1.4 /\
  Rabs (win_delay x l * a_c x / 2 - range_spec (range_of l) (cog_of l) (pitch_of l)) > cog_of l / 4.
Proof.
  exists {| a_chd := fun _ => 1; a_c := 1 |}.
  exists {| l_var := fun v => if (v =? "pitch_sat_pointing_l1a_echo_sar_ku")%string then PI / 3 else 1;
            l_i := fun _ => 0; l_q := fun _ => 0 |}.
  pose proof PI_RGT_0 as P0. pose proof PI_4 as P4.
  split; [cbn; lra|]. split; [unfold pitch_of; cbn; lra|].
  rewrite delay_error by (cbn; lra). unfold pitch_of, cog_of. cbn [l_var].
  replace ("pitch_sat_pointing_l1a_echo_sar_ku" =? "pitch_sat_pointing_l1a_echo_sar_ku")%string
    with true by reflexivity.
  replace ("cog_cor_l1a_echo_sar_ku" =? "pitch_sat_pointing_l1a_echo_sar_ku")%string
    with false by reflexivity.
  rewrite cos_PI3.
  assert (A : cos (PI / 6) < cos (PI / 3 * PI / 180)).
  { apply cos_decreasing_1; try lra; nra. }
  rewrite cos_PI6 in A.
  assert (S : 1.6 < sqrt 3).
  { rewrite <- (sqrt_square 1.6) by lra. apply sqrt_lt_1; lra. }
  rewrite Rabs_left by lra. lra.
Qed.
Print Assumptions C91_delay_refuted.

Example C91_example : win_delay {| a_chd := fun _ => 1; a_c := 2 |}
  {| l_var := fun v => if (v =? "pitch_sat_pointing_l1a_echo_sar_ku")%string then 0 else 3;
     l_i := fun _ => 0; l_q := fun _ => 0 |} = 6.
Proof. unfold win_delay, range_cog, zcog. cbn. rewrite cos_0. field. Qed.

(** * C92 Bursts are restored to the power received *)

(** The attenuation of the automatic gain control is undone. *)
Theorem C92_power : forall l k,
  power (wave_re l k) (wave_im l k) =
  power (l_i l k) (l_q l k) * of_db (l_var l "agc_ku_l1a_echo_sar_ku").
Proof.
  intros l k. unfold power, wave_re, wave_im, of_db, agc_scale.
  set (g := l_var l "agc_ku_l1a_echo_sar_ku").
  assert (E : Rpower 10 (g / 10) = / (Rpower 10 (- g / 20) * Rpower 10 (- g / 20))).
  { rewrite <- Rpower_plus, <- Rpower_Ropp. f_equal. field. }
  rewrite E. assert (P : 0 < Rpower 10 (- g / 20)) by (unfold Rpower; apply exp_pos).
  field. lra.
Qed.
Print Assumptions C92_power.

Example C92_example : forall k,
  power (wave_re {| l_var := fun _ => 0; l_i := fun _ => 3; l_q := fun _ => 4 |} k)
        (wave_im {| l_var := fun _ => 0; l_i := fun _ => 3; l_q := fun _ => 4 |} k) = 25.
Proof.
  intro k. rewrite C92_power. unfold power, of_db. cbn [l_var l_i l_q].
  replace (0 / 10) with 0 by field. rewrite Rpower_O by lra. lra.
Qed.
