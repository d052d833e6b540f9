(** What is stored with a surface, and when exactly one is moved. *)
From Coq Require Import Reals List Bool Lra Lia Sorted.
From Verif Require Import Common GeoModel GeoSpec GeoProofs SurfModel SurfSpec SurfProofs SurfProps.
Import ListNotations.
Open Scope R_scope.

(** the values kept with a surface agree with its position *)
Definition stored (g : settings) (s : surface) : Prop :=
  (forall l, s_loc s = Some l -> s_res s = resolution g (l_vel l)) /\
  (s_focused s = false -> s_dist s = target_distance (g_target g) (s_loc s) /\
     forall l, s_loc s = Some l -> s_dir s = vsub (l_surf l) (l_sat l)).
Definition sinv (g : settings) (t : st) : Prop :=
  (forall s, In s (t_surfs t) -> stored g s) /\
  (forall s, last1 (t_surfs t) = Some s -> s_focused s = false) /\
  (t_found t = false -> forall s, In s (t_surfs t) -> s_focused s = false).

Lemma new_stored : forall g u l, stored g (new_surface g u l).
Proof.
  intros g u l. split; [|intros _; split]; cbn [new_surface s_loc s_res s_dist s_dir].
  - intros l0 ->. reflexivity.
  - reflexivity.
  - intros l0 ->. reflexivity.
Qed.
Lemma focus_stored : forall g s p, stored g s -> stored g (focus_surface (g_k g) (g_target g) s p).
Proof.
  intros g s p [A _]. split; [|intro X; discriminate]. intros l. unfold focus_surface. cbn [s_loc s_res].
  destruct (s_loc s) as [l0|]; [|discriminate]. destruct (s_loc p) as [lp|]; [|discriminate].
  destruct (focus_point (g_target g) (l_surf l0) (l_surf lp)); [|discriminate]. intro E. injection E as <-.
  cbn [l_vel]. apply A. reflexivity.
Qed.
Lemma last1_app : forall {A} (l : list A) x, last1 (l ++ [x]) = Some x.
Proof. intros A l x. unfold last1. rewrite rev_app_distr. reflexivity. Qed.
Lemma op_sinv : forall g fuel o t, sinv g t -> sinv g (run_op g fuel o t).
Proof.
  intros g fuel o t [A [B C]]. destruct o as [force b| |n].
  - cbn [run_op]. pose proof (step_cases g fuel force b t) as SC. cbv zeta in SC.
    set (t' := fst (step_burst g fuel force b t)) in *. destruct SC as [_ [[E0 [E1 _]]|[l [_ [_ [E1 E0]]]]]].
    + unfold sinv. rewrite E1, E0. repeat split; try assumption; apply A; assumption.
    + destruct (focus_cases g (t_found t) (t_surfs t) (s_dist (new_surface g (t_next t) l))) as [Fo|[_ [Fd [r [p [s [X [_ Fo]]]]]]]];
        rewrite Fo in E1, E0; cbn [fst snd] in E1, E0.
      * split; [|split].
        -- intros s I. rewrite E1 in I. apply in_app_or in I. destruct I as [I|[<-|[]]]; [apply A, I|apply new_stored].
        -- intros s I. rewrite E1, last1_app in I. injection I as <-. reflexivity.
        -- intros F s I. rewrite E1 in I. apply in_app_or in I. destruct I as [I|[<-|[]]]; [|reflexivity].
           apply C; [congruence|exact I].
      * split; [|split].
        -- intros s' I. rewrite E1 in I. apply in_app_or in I. destruct I as [I|[<-|[]]]; [|apply new_stored].
           rewrite X in A. apply in_app_or in I. destruct I as [I|[<-|[<-|[]]]].
           ++ apply A, in_or_app. left. exact I.
           ++ apply A, in_or_app. right. left. reflexivity.
           ++ apply focus_stored, A, in_or_app. right. right. left. reflexivity.
        -- intros s' I. rewrite E1, last1_app in I. injection I as <-. reflexivity.
        -- congruence.
  - cbn [run_op]. unfold sinv. cbn [t_surfs t_found]. destruct (t_surfs t) as [|s r] eqn:E; [split; [intros s []|split; [discriminate|intros _ s []]]|].
    cbn [tl]. split; [|split].
    + intros s' I. apply A. right. exact I.
    + intros s' I. apply B. unfold last1 in *. cbn [rev]. destruct (rev r); [discriminate|]. exact I.
    + intros F s' I. apply (C F). right. exact I.
  - exact (conj A (conj B C)).
Qed.
Lemma ops_sinv : forall g fuel os t, sinv g t -> sinv g (run_ops g fuel os t).
Proof. intros g fuel os. induction os as [|o os IH]; intros t H; [exact H|]. apply IH, op_sinv, H. Qed.
Lemma sinv0 : forall g, sinv g st0.
Proof. intro g. split; [intros s []|]. split; [discriminate|intros _ s []]. Qed.

Lemma distance_eq : forall u v, norm (vlist (vsub u v)) = distance u v.
Proof. intros u v. unfold norm, vlist, vsub, distance. cbn [dot vx vy vz]. f_equal. ring. Qed.
Lemma norm_speed : forall v, norm (vlist v) = sqrt (sq v).
Proof. intros v. unfold norm, vlist, sq. cbn [dot]. f_equal. ring. Qed.

(** Over every history: the angular resolution kept with a surface is the angle
    whose sine is the wavelength over twice the distance flown in a burst; it
    is not a number exactly if that quotient is not a sine. *)
Theorem C67_angle : forall g fuel os s l,
  In s (t_surfs (run_ops g fuel os st0)) -> s_loc s = Some l ->
  let flown := sqrt (sq (l_vel l)) * (g_pulses g * g_pri g) in
  (forall r, s_res s = Some r -> - (PI / 2) <= r <= PI / 2 /\ sin r * (2 * g_freq g * flown) = k_c (g_k g)) /\
  (s_res s = None <-> g_freq g * flown = 0 \/ Rabs (2 * (g_freq g * flown)) < Rabs (k_c (g_k g))).
Proof.
  intros g fuel os s l I L flown. destruct (ops_sinv g fuel os st0 (sinv0 g)) as [A _].
  destruct (A s I) as [R0 _]. specialize (R0 l L). rewrite R0. clear R0. unfold resolution. rewrite norm_speed.
  set (v := sqrt (sq (l_vel l))) in *. set (c := k_c (g_k g)).
  replace (2 * g_freq g * v * g_pulses g * g_pri g) with (2 * (g_freq g * flown)) by (unfold flown; ring).
  replace (2 * g_freq g * flown) with (2 * (g_freq g * flown)) by ring.
  set (d := g_freq g * flown). destruct (Req_EM_T (2 * d) 0) as [Z|Z].
  - split; [discriminate|]. split; [left; lra|reflexivity].
  - assert (Q : c / (2 * d) * (2 * d) = c) by (field; lra).
    assert (P : 0 < Rabs (2 * d)) by (apply Rabs_pos_lt; exact Z).
    assert (QA : Rabs (c / (2 * d)) * Rabs (2 * d) = Rabs c) by (rewrite <- Rabs_mult, Q; reflexivity).
    set (q := c / (2 * d)) in *. unfold arcsin.
    assert (N : Rabs (2 * d) < Rabs c <-> 1 < Rabs q).
    { rewrite <- QA. split; intro H; [|nra]. apply Rmult_lt_reg_r with (1 := P). lra. }
    destruct (Rlt_dec q (-1)) as [X|X]; [|destruct (Rlt_dec 1 q) as [Y|Y]].
    + split; [discriminate|]. split; [|reflexivity]. intros _. right. apply N. rewrite Rabs_left; lra.
    + split; [discriminate|]. split; [|reflexivity]. intros _. right. apply N. rewrite Rabs_right; lra.
    + split.
      * intros r E. injection E as <-. split; [apply asin_bound|]. rewrite sin_asin by lra. exact Q.
      * split; [discriminate|]. intros [H|H]; [exfalso; lra|]. apply N in H. exfalso.
        revert H. unfold Rabs. destruct (Rcase_abs q); lra.
Qed.
Print Assumptions C67_angle.

(** Over every history: the last queued surface, from which the next one is
    found, has not been moved, and the direction it is measured from is that
    of its own position. *)
Theorem C68_last : forall g fuel os s,
  last1 (t_surfs (run_ops g fuel os st0)) = Some s ->
  s_focused s = false /\ forall l, s_loc s = Some l -> s_dir s = vsub (l_surf l) (l_sat l).
Proof.
  intros g fuel os s H. destruct (ops_sinv g fuel os st0 (sinv0 g)) as [A [B _]].
  pose proof (B s H) as F. split; [exact F|]. apply A; [|exact F].
  unfold last1 in H. apply in_rev. destruct (rev (t_surfs (run_ops g fuel os st0))); [discriminate|].
  injection H as ->. left. reflexivity.
Qed.
Print Assumptions C68_last.

(** Over every history: when a surface is added after a surface with a
    predecessor, focusing is on and nothing has been moved before, the earlier
    one is moved exactly if it is closer to the target than the added one. *)
Theorem C68_when : forall g fuel os o r prior s l new ln,
  let t := run_ops g fuel os st0 in let t' := run_op g fuel o t in
  g_focus g = true -> t_found t = false ->
  t_surfs t = r ++ [prior; s] -> s_loc s = Some l ->
  t_next t' <> t_next t -> last1 (t_surfs t') = Some new -> s_loc new = Some ln ->
  let d := distance (g_target g) in
  t_surfs t' = r ++ [prior; if Rlt_dec (d (l_surf l)) (d (l_surf ln))
                            then focus_surface (g_k g) (g_target g) s prior else s; new] /\
  (t_found t' = true <-> d (l_surf l) < d (l_surf ln)).
Proof.
  intros g fuel os o r prior s l new ln t t' G Fd X L N La Ln d. destruct (ops_sinv g fuel os st0 (sinv0 g)) as [A [_ C]].
  fold t in A, C. unfold t' in *. clear t'. destruct o as [force b| |n].
  - cbn [run_op] in *. pose proof (step_cases g fuel force b t) as SC. cbv zeta in SC.
    set (t' := fst (step_burst g fuel force b t)) in *. destruct SC as [_ [[_ [_ [E2 _]]]|[l' [_ [_ [E1 E0]]]]]]; [congruence|].
    set (new' := new_surface g (t_next t) l') in *. rewrite E1, last1_app in La. injection La as <-.
    assert (I : In s (t_surfs t)) by (rewrite X; apply in_or_app; right; right; left; reflexivity).
    destruct (proj2 (A s I) (C Fd s I)) as [Ds _].
    assert (Dn : s_dist new' = target_distance (g_target g) (s_loc new')) by reflexivity.
    rewrite L in Ds. rewrite Ln in Dn. cbn [target_distance option_map] in Ds, Dn. rewrite distance_eq in Ds, Dn.
    fold (d (l_surf l)) in Ds. fold (d (l_surf ln)) in Dn.
    unfold focus in E1, E0. rewrite G, Fd, X in E1, E0. cbn [andb negb] in E1, E0.
    rewrite rev_app_distr in E1, E0. cbn [rev app] in E1, E0. rewrite Ds, Dn in E1, E0. cbn [flt] in E1, E0.
    destruct (Rlt_dec (d (l_surf l)) (d (l_surf ln))) as [Y|Y]; cbn [fst snd] in E1, E0.
    + split; [|split; [intros _; exact Y|intros _; exact E0]].
      rewrite E1. cbn [rev]. rewrite rev_involutive, <- !app_assoc. reflexivity.
    + split; [|split; [congruence|intro; contradiction]].
      rewrite E1, <- app_assoc. reflexivity.
  - exfalso. apply N. reflexivity.
  - exfalso. apply N. reflexivity.
Qed.
Print Assumptions C68_when.
(** the history of C68_moved_example is one *)
Example C67_angle_example :
  resolution half_g (V 1 0 0) = Some (PI / 2).
Proof. exact half_res. Qed.
