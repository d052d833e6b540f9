(** Properties C93-C96. *)
From Coq Require Import List ZArith Reals Bool Lra Lia.
From Verif Require Import Common CharModel CharSpec CharProofs.
Import ListNotations.
Open Scope R_scope.

(** * C93 The stack is characterised by its central beams *)

Lemma fitting_window : forall nlooks nsamp zp s, gathered nlooks s ->
  exists c first last, central s c /\ central_window s c first last /\
  fitting PI nlooks nsamp zp s =
    Ok {| f_n := (last + 1 - first)%nat;
          f_looks := slice first (last + 1 - first) (k_looks s);
          f_points := slice first (last + 1 - first) (k_points s);
          f_powers := map (normalise (max_power (beam_powers nlooks nsamp zp s)))
            (slice first (last + 1 - first) (beam_powers nlooks nsamp zp s)) |}.
Proof.
  intros nlooks nsamp zp s G. pose proof G as (Hs & La & _).
  destruct (argmin_some (complementary PI s)) as [c Hc].
  { unfold complementary. rewrite map_length. lia. }
  pose proof (argmin_central nlooks s c G Hc) as C.
  unfold fitting. rewrite Hc. rewrite Nat.min_r by lia.
  destruct (window c (k_size s)) as [f n] eqn:W.
  destruct (window_spec c (k_size s) f n (proj1 C) W) as (first & last & -> & -> & H1 & H2 & H3 & H4).
  exists c, first, last. split; [exact C|]. split; [repeat split; lia|].
  assert (Zf : (Z.of_nat (last + 1 - first) <? 0)%Z = false) by (apply Z.ltb_ge; apply Nat2Z.is_nonneg).
  rewrite Zf.
  rewrite !Nat2Z.id. reflexivity.
Qed.

(** The points of the fit are the beam looking closest to the perpendicular
    of the track and up to 124 beams on each side, all of them real beams. *)
Theorem C93_window : forall nlooks nsamp zp s, gathered nlooks s ->
  exists c first last d, central s c /\ central_window s c first last /\
  fitting PI nlooks nsamp zp s = Ok d /\
  (f_n d <= 249)%nat /\
  entries first last (k_looks s) (f_looks d) /\
  entries first last (k_points s) (f_points d) /\
  length (f_powers d) = f_n d /\ length (f_looks d) = f_n d.
Proof.
  intros nlooks nsamp zp s G. pose proof G as (Hs & La & Ll & Lp & Lr & _).
  destruct (fitting_window nlooks nsamp zp s G) as (c & first & last & C & W & E).
  exists c, first, last. eexists. split; [exact C|]. split; [exact W|]. split; [exact E|].
  destruct W as (W1 & W2 & W3 & W4). cbn [f_n f_looks f_points f_powers].
  split; [lia|].
  split; [apply slice_entries; lia|]. split; [apply slice_entries; lia|].
  unfold slice. rewrite map_length, !firstn_length, !skipn_length. unfold beam_powers.
  rewrite map_length, firstn_length. lia.
Qed.
Print Assumptions C93_window.

(** A surface with beams is always characterised, unless [curve_fit] raises an
    exception that is not foreseen. *)
Theorem C93_total : forall curve_fit nlooks nsamp zp s, gathered nlooks s ->
  (forall xs ys, curve_fit xs ys <> Raised) ->
  exists o, characterise curve_fit PI nlooks nsamp zp s = Ok o.
Proof.
  intros curve_fit nlooks nsamp zp s G Hf.
  assert (F : forall xs ys, exists a b c, gauss_fit curve_fit xs ys = Ok (a, b, c)).
  { intros xs ys. unfold gauss_fit. destruct (valid xs ys) as [u v]. specialize (Hf u v).
    destruct (curve_fit u v) as [a b c| |]; [do 3 eexists; reflexivity..|congruence]. }
  destruct (fitting_window nlooks nsamp zp s G) as (c & first & last & C & W & E).
  unfold characterise. rewrite E. unfold bind. cbn [f_n f_looks f_points f_powers].
  destruct (F (slice first (last + 1 - first) (k_looks s))
    (map (normalise (max_power (beam_powers nlooks nsamp zp s)))
            (slice first (last + 1 - first) (beam_powers nlooks nsamp zp s)))) as (a1 & b1 & c1 & ->).
  destruct (F (slice first (last + 1 - first) (k_points s))
    (map (normalise (max_power (beam_powers nlooks nsamp zp s)))
            (slice first (last + 1 - first) (beam_powers nlooks nsamp zp s)))) as (a2 & b2 & c2 & ->).
  destruct (F (arange (last + 1 - first))
    (map (normalise (max_power (beam_powers nlooks nsamp zp s)))
            (slice first (last + 1 - first) (beam_powers nlooks nsamp zp s)))) as (a3 & b3 & c3 & ->).
  destruct W as (W1 & W2 & W3 & W4).
  replace (last + 1 - first =? 0)%nat with false by (symmetry; apply Nat.eqb_neq; lia).
  destruct (shape _) as [sk ku]. eexists. reflexivity.
Qed.
Print Assumptions C93_total.

(** A surface without beams ends in a division by zero. *)
Theorem C93_empty : forall curve_fit nlooks nsamp zp angles looks points rows,
  (0 < nlooks)%nat -> angles = repeat 0 nlooks -> curve_fit [] [] = Caught ->
  characterise curve_fit PI nlooks nsamp zp
    {| k_angles := angles; k_looks := looks; k_points := points; k_rows := rows; k_size := 0 |}
  = Err EZeroDiv.
Proof.
  intros curve_fit nlooks nsamp zp angles looks points rows Hn -> Hf.
  unfold characterise, fitting, complementary. cbn [k_angles k_size k_looks k_points].
  assert (A : argmin (map (fun a => Rabs (PI / 2 - a)) (repeat 0 nlooks)) = Some 0%nat).
  { destruct nlooks as [|n]; [lia|]. cbn [repeat map argmin]. f_equal.
    destruct (argmin_from_spec (map (fun a => Rabs (PI / 2 - a)) (repeat 0 n))
      (Rabs (PI / 2 - 0)) 0 1 ltac:(lia)) as [[E _]|(j & x & _ & N & L & _)]; [exact E|].
    apply nth_error_In, in_map_iff in N. destruct N as (y & <- & Hy).
    apply repeat_spec in Hy. subst y. lra. }
  rewrite A. rewrite Nat.min_0_r. cbn. unfold gauss_fit. cbn. rewrite Hf. reflexivity.
Qed.
Print Assumptions C93_empty.

Definition one_beam : stack :=
  {| k_angles := [PI / 2]; k_looks := [0]; k_points := [0]; k_rows := [[1; 2; 4; 8]]; k_size := 1 |}.
Lemma one_beam_gathered : gathered 1 one_beam.
Proof.
  pose proof PI_RGT_0. repeat split; cbn; try lia.
  - destruct i as [|[|i]]; cbn in *; injection H1 as <- || lia; lra.
  - destruct i as [|[|i]]; cbn in *; injection H1 as <- || lia; lra.
Qed.
Example C93_example : exists d, fitting PI 1 4 1 one_beam = Ok d /\ f_n d = 1%nat /\ f_looks d = [0].
Proof. eexists. split; [reflexivity|]. split; reflexivity. Qed.

(** * C94 Powers of the fit and of the products *)

(** What is fitted for a beam is the sum of the first half of its samples,
    relative to the largest such sum of the stack; for powers that are not
    negative it lies between 0 and 1, and reaches 1 in the stack.  Missing for
    the full property: the second half of the samples. *)
Definition half_power (nsamp zp : nat) (r : list R) : R := total (firstn (Nat.div nsamp 2 * zp) r).

Theorem C94_relative_partial : forall nlooks nsamp zp s d, gathered nlooks s -> no_negative s ->
  fitting PI nlooks nsamp zp s = Ok d ->
  exists m first, 
  (forall i r, (i < k_size s)%nat -> nth_error (k_rows s) i = Some r -> half_power nsamp zp r <= m) /\
  (m = 0 \/ exists i r, (i < k_size s)%nat /\ nth_error (k_rows s) i = Some r /\ m = half_power nsamp zp r) /\
  (forall i, (i < f_n d)%nat -> exists r, nth_error (k_rows s) (first + i) = Some r /\
     (m = 0 -> nth_error (f_powers d) i = Some None) /\
     (m <> 0 -> nth_error (f_powers d) i = Some (Some (half_power nsamp zp r / m)) /\
        0 <= half_power nsamp zp r / m <= 1)).
Proof.
  intros nlooks nsamp zp s d G Hn E. pose proof G as (Hs & La & Ll & Lp & Lr & _).
  destruct (fitting_window nlooks nsamp zp s G) as (c & first & last & C & W & E').
  rewrite E' in E. injection E as <-. cbn [f_n f_powers].
  destruct W as (W1 & W2 & W3 & W4).
  set (ps := beam_powers nlooks nsamp zp s).
  assert (Nth : forall i r, (i < k_size s)%nat -> nth_error (k_rows s) i = Some r ->
    nth_error ps i = Some (half_power nsamp zp r)).
  { intros i r Hi Hr. unfold ps, beam_powers. rewrite Nat.min_r by lia.
    apply (map_nth_error (fun r => sum (firstn (Nat.div nsamp 2 * zp) r))).
    pose proof (nth_error_slice _ 0 (k_size s) (k_rows s) i Hi) as Q. unfold slice in Q. cbn [skipn] in Q.
    rewrite Q. exact Hr. }
  assert (Row : forall i, (i < k_size s)%nat -> exists r, nth_error (k_rows s) i = Some r).
  { intros i Hi. destruct (nth_error (k_rows s) i) as [r|] eqn:Er; [exists r; reflexivity|].
    apply nth_error_None in Er. lia. }
  assert (Lps : length ps = k_size s).
  { unfold ps, beam_powers. rewrite map_length, firstn_length. lia. }
  exists (max_power ps), first. split; [|split].
  - intros i r Hi Hr. apply (max_power_ge ps 0). apply (nth_error_In ps i). apply Nth; assumption.
  - destruct (max_power_in ps 0) as [Q|Q]; [left; exact Q|right].
    apply In_nth_error in Q. destruct Q as [i Q].
    assert (Hi : (i < k_size s)%nat) by (rewrite <- Lps; apply nth_error_Some; rewrite Q; discriminate).
    destruct (Row i Hi) as [r Hr]. exists i, r. split; [exact Hi|]. split; [exact Hr|].
    rewrite (Nth i r Hi Hr) in Q. injection Q as Q. unfold max_power. symmetry. exact Q.
  - intros i Hi. destruct (Row (first + i)%nat ltac:(lia)) as [r Hr]. exists r. split; [exact Hr|].
    assert (Q : nth_error (slice first (last + 1 - first) ps) i = Some (half_power nsamp zp r)).
    { rewrite nth_error_slice by lia. apply Nth; [lia|exact Hr]. }
    pose proof (map_nth_error (normalise (max_power ps)) _ _ Q) as Q'.
    split; intro Hm.
    + rewrite Q'. unfold normalise. destruct (Req_EM_T (max_power ps) 0); [reflexivity|contradiction].
    + assert (In1 : In (half_power nsamp zp r) ps).
      { apply (nth_error_In ps (first + i)). apply Nth; [lia|exact Hr]. }
      destruct (max_power_ge ps 0) as [M1 M2]. specialize (M2 _ In1). fold (max_power ps) in M1, M2.
      pose proof (powers_nonneg nlooks nsamp zp s _ Hn In1) as P0.
      split.
      * rewrite Q'. unfold normalise. destruct (Req_EM_T (max_power ps) 0); [contradiction|reflexivity].
      * assert (Mp : 0 < max_power ps) by lra. split.
        -- apply Rmult_le_pos; [exact P0|left; apply Rinv_0_lt_compat; exact Mp].
        -- apply Rmult_le_reg_r with (max_power ps); [exact Mp|].
           replace (half_power nsamp zp r / max_power ps * max_power ps) with (half_power nsamp zp r)
             by (field; lra). lra.
Qed.
Print Assumptions C94_relative_partial.

(** The second half of the samples has no influence: two beams of very
    different power count the same. *)
Theorem C94_half_refuted : exists s s' nlooks nsamp zp, gathered nlooks s /\ gathered nlooks s' /\
  (exists r r', k_rows s = [r] /\ k_rows s' = [r'] /\ length r = (nsamp * zp)%nat /\
     length r' = (nsamp * zp)%nat /\ 100 * total r < total r') /\
  forall curve_fit, characterise curve_fit PI nlooks nsamp zp s = characterise curve_fit PI nlooks nsamp zp s'.
Proof.
  exists one_beam.
  exists {| k_angles := [PI / 2]; k_looks := [0]; k_points := [0]; k_rows := [[1; 2; 4; 9999]]; k_size := 1 |}.
  exists 1%nat, 4%nat, 1%nat. split; [apply one_beam_gathered|]. split; [apply one_beam_gathered|].
  split; [|intro; reflexivity].
  exists [1; 2; 4; 8], [1; 2; 4; 9999]. repeat split. cbn. lra.
Qed.
Print Assumptions C94_half_refuted.

(** Amplifying the echoes changes no parameter. *)
Theorem C94_scale : forall curve_fit k cpi nlooks nsamp zp s, 0 < k ->
  characterise curve_fit cpi nlooks nsamp zp (amplified k s) =
  characterise curve_fit cpi nlooks nsamp zp s.
Proof.
  intros. unfold characterise. rewrite fitting_scale by assumption. reflexivity.
Qed.
Print Assumptions C94_scale.

(** So the maximum power of the stack stated in the products is not a power:
    it is not proportional to the echoes. *)
Theorem C94_max_refuted : exists s, gathered 1 s /\ no_negative s /\
  forall curve_fit o o', characterise curve_fit PI 1 4 1 s = Ok o ->
  characterise curve_fit PI 1 4 1 (amplified 2 s) = Ok o' -> o_max o' <> 0 -> o_max o' <> 2 * o_max o.
Proof.
  exists one_beam. split; [apply one_beam_gathered|]. split.
  - intros r x [<-|[]]. cbn. intros [<-|[<-|[<-|[<-|[]]]]]; lra.
  - intros curve_fit o o' H H' Hn. rewrite C94_scale in H' by lra. rewrite H in H'. injection H' as <-. lra.
Qed.
Print Assumptions C94_max_refuted.

Example C94_example : exists d, fitting PI 1 4 1 one_beam = Ok d /\ f_powers d = [Some 1].
Proof.
  eexists. split; [reflexivity|]. cbn. unfold normalise, max_power. cbn.
  destruct (Rlt_dec 0 (1 + (2 + 0))) as [L|L]; [|lra].
  destruct (Req_EM_T (1 + (2 + 0)) 0) as [E|E]; [lra|].
  change (Pos.to_nat 1) with 1%nat. cbn [firstn map]. do 2 f_equal. field.
Qed.

(** * C95 Centre, width and peak of the stack *)

(** With a fit, the centre and peak are those of the fitted bell, whose
    standard deviation is the stated one times the square root of two.
    Missing for the full property: that factor, the sign, and failed fits. *)
Theorem C95_bell_partial : forall curve_fit cpi nlooks nsamp zp s o d a b c,
  characterise curve_fit cpi nlooks nsamp zp s = Ok o ->
  fitting cpi nlooks nsamp zp s = Ok d ->
  gauss_fit curve_fit (f_looks d) (f_powers d) = Ok (a, b, c) -> 0 < c ->
  forall x, gauss a b c x = Some (bell (o_max o) (o_look o) (sqrt 2 * o_std o) x).
Proof.
  intros curve_fit cpi nlooks nsamp zp s o d a b c H Hd Hf Hc x. unfold characterise in H.
  rewrite Hd in H. unfold bind in H. rewrite Hf in H.
  destruct (gauss_fit curve_fit (f_points d) (f_powers d)) as [[[a2 b2] c2]|]; [|discriminate].
  destruct (gauss_fit curve_fit (arange (f_n d)) (f_powers d)) as [[[a3 b3] c3]|]; [|discriminate].
  destruct (f_n d =? 0)%nat; [discriminate|]. destruct (shape _) as [sk ku]. injection H as <-.
  cbn [o_max o_look o_std]. rewrite gauss_bell by lra. do 2 f_equal.
  pose proof (sqrt_lt_R0 2 ltac:(lra)) as S.
  replace (c / sqrt 2) with (sqrt 2 * sqrt 2 * c / (2 * sqrt 2)).
  - field. lra.
  - rewrite sqrt_sqrt by lra. field. lra.
Qed.
Print Assumptions C95_bell_partial.

(** The stated standard deviation is not that of the fitted bell, for any
    surface and any successful fit. *)
Theorem C95_std_refuted : forall curve_fit nlooks nsamp zp s o d a b c w,
  characterise curve_fit PI nlooks nsamp zp s = Ok o ->
  fitting PI nlooks nsamp zp s = Ok d ->
  gauss_fit curve_fit (f_looks d) (f_powers d) = Ok (a, b, c) -> 0 < a -> 0 < c -> 0 < w ->
  (forall x, gauss a b c x = Some (bell a b w x)) -> o_std o < w.
Proof.
  intros curve_fit nlooks nsamp zp s o d a b c w H Hd Hf Ha Hc Hw Hx.
  pose proof (C95_bell_partial _ _ _ _ _ _ _ _ _ _ _ H Hd Hf Hc) as B.
  pose proof (sqrt_lt_R0 2 ltac:(lra)) as S.
  assert (S1 : 1 < sqrt 2) by (rewrite <- sqrt_1 at 1; apply sqrt_lt_1; lra).
  assert (St : o_std o = c / 2).
  { unfold characterise in H. rewrite Hd in H. unfold bind in H. rewrite Hf in H.
    destruct (gauss_fit curve_fit (f_points d) (f_powers d)) as [[[a2 b2] c2]|]; [|discriminate].
    destruct (gauss_fit curve_fit (arange (f_n d)) (f_powers d)) as [[[a3 b3] c3]|]; [|discriminate].
    destruct (f_n d =? 0)%nat; [discriminate|]. destruct (shape _) as [sk ku]. injection H as <-.
    reflexivity. }
  assert (E : forall x, bell a b w x = bell (o_max o) (o_look o) (sqrt 2 * o_std o) x).
  { intro x. specialize (B x). rewrite Hx in B. injection B as B. exact B. }
  apply bell_std in E; [|assumption|assumption|rewrite St; nra].
  destruct E as (_ & _ & E). rewrite E. rewrite St. nra.
Qed.
Print Assumptions C95_std_refuted.

(** The same bell can be found with a negative width, and then a negative
    standard deviation is stated. *)
Definition fixed_fit (a b c : R) : list R -> list R -> fit := fun _ _ => Fitted a b c.
Theorem C95_sign_refuted : exists s o o',
  (forall x, gauss 1 0 (1/2) x = gauss 1 0 (-(1/2)) x) /\
  characterise (fixed_fit 1 0 (1/2)) PI 1 4 1 s = Ok o /\
  characterise (fixed_fit 1 0 (-(1/2))) PI 1 4 1 s = Ok o' /\
  o_std o = 1/4 /\ o_std o' = -(1/4).
Proof.
  assert (T : forall a b c, exists o, characterise (fixed_fit a b c) PI 1 4 1 one_beam = Ok o /\ o_std o = c / 2).
  { intros a b c. destruct (C93_total (fixed_fit a b c) 1 4 1 one_beam one_beam_gathered) as [o Ho].
    - intros; discriminate.
    - exists o. split; [exact Ho|]. unfold characterise, fitting, bind in Ho. cbn in Ho.
      unfold gauss_fit, fixed_fit in Ho.
      repeat match type of Ho with context [let '(_, _) := ?v in _] => destruct v eqn:? end.
      cbn in Ho. 
      repeat match type of Ho with context [match ?v with _ => _ end] => destruct v eqn:? end;
      congruence || (injection Ho as <-; reflexivity). }
  destruct (T 1 0 (1/2)) as (o & Ho & So). destruct (T 1 0 (-(1/2))) as (o' & Ho' & So').
  exists one_beam, o, o'. split; [|split; [exact Ho|split; [exact Ho'|lra]]].
  intro x. unfold gauss. destruct (Req_EM_T (1/2) 0); [lra|]. destruct (Req_EM_T (-(1/2)) 0); [lra|].
  do 3 f_equal. field.
Qed.
Print Assumptions C95_sign_refuted.

(** A fit that failed cannot be told from one that gave 1, 1, 1. *)
Theorem C95_failed_refuted : forall cpi nlooks nsamp zp s,
  characterise (fun _ _ => Caught) cpi nlooks nsamp zp s =
  characterise (fixed_fit 1 1 1) cpi nlooks nsamp zp s.
Proof.
  intros. unfold characterise, gauss_fit, fixed_fit.
  destruct (fitting cpi nlooks nsamp zp s) as [d|e]; [|reflexivity]. cbn [bind].
  destruct (valid (f_looks d) (f_powers d)). destruct (valid (f_points d) (f_powers d)).
  destruct (valid (arange (f_n d)) (f_powers d)). reflexivity.
Qed.
Print Assumptions C95_failed_refuted.

Example C95_example : exists o d w, characterise (fixed_fit 1 0 1) PI 1 4 1 one_beam = Ok o /\
  fitting PI 1 4 1 one_beam = Ok d /\
  gauss_fit (fixed_fit 1 0 1) (f_looks d) (f_powers d) = Ok (1, 0, 1) /\ 0 < w /\
  (forall x, gauss 1 0 1 x = Some (bell 1 0 w x)).
Proof.
  destruct (C93_total (fixed_fit 1 0 1) 1 4 1 one_beam one_beam_gathered) as [o Ho]; [intros; discriminate|].
  destruct C93_example as (d & Hd & _). exists o, d, (1 / sqrt 2). split; [exact Ho|]. split; [exact Hd|].
  split; [unfold gauss_fit; destruct (valid (f_looks d) (f_powers d)); reflexivity|].
  split; [apply Rdiv_lt_0_compat; [lra|apply sqrt_lt_R0; lra]|].
  intro x. apply gauss_bell. lra.
Qed.

(** * C96 Skewness and kurtosis *)

(** They are the third and (less 3) fourth standardised moments of the fitted
    curve sampled at the beams, and satisfy Pearson's inequality. *)
Theorem C96_moments : forall curve_fit cpi nlooks nsamp zp s o sk,
  characterise curve_fit cpi nlooks nsamp zp s = Ok o -> o_skew o = Some sk ->
  exists d a b c l ku, fitting cpi nlooks nsamp zp s = Ok d /\
  gauss_fit curve_fit (map INR (seq 0 (f_n d))) (f_powers d) = Ok (a, b, c) /\
  map Some l = map (gauss a b c) (map INR (seq 0 (f_n d))) /\
  o_kurt o = Some ku /\ is_moment 3 l sk /\ is_moment 4 l (ku + 3) /\ sk ^ 2 - 2 <= ku.
Proof.
  intros curve_fit cpi nlooks nsamp zp s o sk H Hs. unfold characterise in H.
  destruct (fitting cpi nlooks nsamp zp s) as [d|e] eqn:Hd; [|discriminate]. cbn [bind] in H.
  destruct (gauss_fit curve_fit (f_looks d) (f_powers d)) as [[[a1 b1] c1]|]; [|discriminate].
  cbn [bind] in H.
  destruct (gauss_fit curve_fit (f_points d) (f_powers d)) as [[[a2 b2] c2]|]; [|discriminate].
  cbn [bind] in H.
  destruct (gauss_fit curve_fit (arange (f_n d)) (f_powers d)) as [[[a b] c]|] eqn:F; [|discriminate].
  cbn [bind] in H. destruct (f_n d =? 0)%nat eqn:Z; [discriminate|].
  destruct (shape (map (gauss a b c) (arange (f_n d)))) as [s3 k4] eqn:Sh. injection H as <-.
  cbn [o_skew o_kurt] in *. subst s3. unfold shape in Sh.
  destruct (all_some (map (gauss a b c) (arange (f_n d)))) as [l|] eqn:A; [|discriminate].
  destruct (Req_EM_T (std l) 0) as [E|E]; [discriminate|]. injection Sh as <- <-.
  assert (A' : forall xs m, all_some xs = Some m -> map Some m = xs).
  { induction xs as [|x xs IH]; intros m Hm.
    - injection Hm as <-. reflexivity.
    - cbn [all_some fold_right] in Hm. fold (all_some xs) in Hm.
      destruct x as [x|]; [|discriminate]. destruct (all_some xs) as [m'|]; [|discriminate].
      injection Hm as <-. cbn. f_equal. apply IH. reflexivity. }
  apply A' in A.
  assert (Hl : l <> []).
  { intro C. subst l. apply (f_equal (@length _)) in A. unfold arange in A.
    rewrite !map_length, seq_length in A. cbn in A. apply Nat.eqb_neq in Z. lia. }
  exists d, a, b, c, l. eexists. split; [reflexivity|]. split; [exact F|]. split; [exact A|].
  split; [reflexivity|]. split; [apply moment_is; assumption|].
  replace (moment 4 l - 3 + 3) with (moment 4 l) by ring.
  split; [apply moment_is; assumption|]. pose proof (pearson l Hl E). lra.
Qed.
Print Assumptions C96_moments.

(** The peak of the fitted curve does not matter. *)
Theorem C96_amplitude : forall k a b c xs, 0 < k -> c <> 0 ->
  shape (map (gauss (k * a) b c) xs) = shape (map (gauss a b c) xs).
Proof.
  intros k a b c xs Hk Hc. 
  assert (G : forall a, map (gauss a b c) xs =
    map (fun x => Some (a * exp (- (x - b) ^ 2 / c ^ 2))) xs).
  { intro a'. apply map_ext. intro x. unfold gauss. destruct (Req_EM_T c 0); [contradiction|reflexivity]. }
  rewrite !G. unfold shape. rewrite !all_some_map.
  assert (M : map (fun x => k * a * exp (- (x - b) ^ 2 / c ^ 2)) xs =
    map (Rmult k) (map (fun x => a * exp (- (x - b) ^ 2 / c ^ 2)) xs)).
  { rewrite map_map. apply map_ext. intro x. ring. }
  rewrite M. rewrite std_scale, !moment_scale by exact Hk.
  set (l := map (fun x => a * exp (- (x - b) ^ 2 / c ^ 2)) xs).
  destruct (Req_EM_T (k * std l) 0) as [E|E]; destruct (Req_EM_T (std l) 0) as [E'|E']; try reflexivity.
  - exfalso. apply Rmult_integral in E. lra.
  - exfalso. apply E. rewrite E'. ring.
Qed.
Print Assumptions C96_amplitude.

(** A stack of one beam has no skewness and no kurtosis. *)
Theorem C96_single : forall curve_fit cpi nlooks nsamp zp s o d,
  characterise curve_fit cpi nlooks nsamp zp s = Ok o -> fitting cpi nlooks nsamp zp s = Ok d ->
  f_n d = 1%nat -> o_skew o = None /\ o_kurt o = None.
Proof.
  intros curve_fit cpi nlooks nsamp zp s o d H Hd H1. unfold characterise in H.
  rewrite Hd in H. cbn [bind] in H. rewrite H1 in H.
  destruct (gauss_fit curve_fit (f_looks d) (f_powers d)) as [[[a1 b1] c1]|]; [|discriminate].
  cbn [bind] in H.
  destruct (gauss_fit curve_fit (f_points d) (f_powers d)) as [[[a2 b2] c2]|]; [|discriminate].
  cbn [bind] in H.
  destruct (gauss_fit curve_fit (arange 1) (f_powers d)) as [[[a b] c]|] eqn:F; [|discriminate].
  cbn [bind Nat.eqb] in H.
  assert (Sh : shape (map (gauss a b c) (arange 1)) = (None, None)).
  { unfold arange. cbn [seq map]. unfold shape. cbn [all_some fold_right].
    destruct (gauss a b c (INR 0)) as [v|]; [|reflexivity].
    assert (E : std [v] = 0).
    { unfold std, mean. cbn. replace ((v - (v + 0) / 1) * ((v - (v + 0) / 1) * 1) + 0) with 0 by field.
      replace (0 / 1) with 0 by field. apply sqrt_0. }
    rewrite E. destruct (Req_EM_T 0 0); [reflexivity|congruence]. }
  rewrite Sh in H. injection H as <-. split; reflexivity.
Qed.
Print Assumptions C96_single.

Example C96_example : exists o, characterise (fixed_fit 1 0 1) PI 1 4 1 one_beam = Ok o /\ o_skew o = None.
Proof.
  destruct (C93_total (fixed_fit 1 0 1) 1 4 1 one_beam one_beam_gathered) as [o Ho].
  - intros; discriminate.
  - exists o. split; [exact Ho|]. destruct C93_example as (d & Hd & Hn & _).
    apply (C96_single _ _ _ _ _ _ _ _ Ho Hd Hn).
Qed.
