(** Proofs about surface locations. *)
From Coq Require Import Reals List Bool Lra Lia Psatz ZArith Sorted.
From Verif Require Import Common GeoModel GeoSpec GeoProofs SurfModel SurfSpec.
Import ListNotations.
Open Scope R_scope.

Lemma between_weighted : forall k a p c, weighted a p c (between k a p c).
Proof.
  intros. unfold weighted, vmean, mean, between, vmix, mix.
  cbn [l_time l_surf l_sat l_vel l_rate l_roll l_pitch l_yaw vx vy vz]. repeat split; ring.
Qed.
Lemma mean_inside : forall a p c x, 0 <= a <= 1 -> mean a p c x -> inside p c x.
Proof.
  intros a p c x A H. unfold mean in H. unfold inside, Rmin, Rmax. destruct (Rle_dec p c); nra.
Qed.

Lemma find_spec : forall k s p c r, find_new_location k s p c = r ->
  (r = None <-> within s c) /\
  (forall l, r = Some (Some l) -> exists ap ac res, angle_to s p = Some ap /\ angle_to s c = Some ac /\
     s_res s = Some res /\ res <= ac /\ ac - ap <> 0 /\ l = between k ((res - ap) / (ac - ap)) p c) /\
  (within s p -> forall x, angle_to s c = Some x -> r <> Some None).
Proof.
  intros k s p c r <-. unfold find_new_location, within. cbv zeta. destruct (angle_to s c) as [ac|].
  - destruct (s_res s) as [res|].
    + cbn [flt]. destruct (Rlt_dec ac res) as [L|L].
      * split; [split; [intros _; exists ac, res; auto|reflexivity]|]. split; discriminate.
      * split.
        { split; [discriminate|]. intros [a [r [E1 [E2 H]]]]. injection E1 as ->. injection E2 as ->. contradiction. }
        split.
        { intros l H. destruct (angle_to s p) as [ap|]; [|discriminate]. cbn [weight] in H.
          destruct (Req_EM_T (ac - ap) 0) as [Z|Z]; [discriminate|]. injection H as <-.
          exists ap, ac, res. repeat split; try assumption; try reflexivity. lra. }
        intros [a [r [E1 [E2 H]]]] x _. rewrite E1. injection E2 as ->. cbn [weight].
        destruct (Req_EM_T (ac - a) 0); [lra|discriminate].
    + cbn [flt]. split.
      { split; [discriminate|]. intros [a [r [_ [E _]]]]. discriminate. }
      split; [intros l H; cbn [weight] in H; destruct (angle_to s p); discriminate|].
      intros [a [r [_ [E _]]]]. discriminate.
  - cbn [flt]. split.
    { split; [discriminate|]. intros [a [r [E _]]]. discriminate. }
    split; [intros l H; destruct (s_res s), (angle_to s p); discriminate|].
    intros _ x X. discriminate.
Qed.

Lemma weight_range : forall k s p c l, find_new_location k s p c = Some (Some l) -> within s p ->
  exists a, 0 < a <= 1 /\ l = between k a p c.
Proof.
  intros k s p c l H [ap' [r' [E1 [E2 Lt]]]]. destruct (find_spec k s p c _ H) as [_ [F _]].
  destruct (F l eq_refl) as [ap [ac [res [A1 [A2 [A3 [A4 [A5 ->]]]]]]]].
  rewrite A1 in E1. injection E1 as <-. rewrite A3 in E2. injection E2 as <-.
  exists ((res - ap) / (ac - ap)). split; [|reflexivity].
  assert (D : 0 < ac - ap) by lra. split.
  - apply Rdiv_lt_0_compat; lra.
  - apply (Rmult_le_reg_r (ac - ap)); [exact D|]. unfold Rdiv. rewrite Rmult_assoc, Rinv_l; lra.
Qed.

(** * Queues *)

Lemma last1_app : forall (A : Type) (l : list A) x, last1 (l ++ [x]) = Some x.
Proof. intros. unfold last1. rewrite rev_app_distr. reflexivity. Qed.
Lemma last2_app : forall (A : Type) (l : list A) x, last2 (l ++ [x]) = option_map (fun p => (p, x)) (last1 l).
Proof. intros. unfold last2, last1. rewrite rev_app_distr. cbn [rev app]. destruct (rev l); reflexivity. Qed.
Lemma last1_none : forall (A : Type) (l : list A), last1 l = None <-> l = [].
Proof.
  intros A l. unfold last1. split; [|intros ->; reflexivity]. intro H. destruct (rev l) eqn:E; [|discriminate].
  rewrite <- (rev_involutive l), E. reflexivity.
Qed.
Lemma last1_skipn : forall (A : Type) n (l : list A), (n < length l)%nat -> last1 (skipn n l) = last1 l.
Proof.
  intros A n. induction n as [|n IH]; intros l H; [reflexivity|]. destruct l as [|x l]; [cbn in H; lia|].
  cbn [skipn]. cbn [length] in H. rewrite IH by lia. unfold last1. cbn [rev].
  destruct (rev l) as [|y r] eqn:E.
  - apply (f_equal (@length A)) in E. rewrite rev_length in E. cbn in E. lia.
  - reflexivity.
Qed.
Lemma last1_tl : forall (A : Type) (l : list A) x, last1 (tl l) = Some x -> last1 l = Some x.
Proof.
  intros A [|y l] x H; [exact H|]. cbn [tl] in H. unfold last1 in *. cbn [rev]. destruct (rev l); [discriminate|exact H].
Qed.
Lemma last1_in : forall (A : Type) (l : list A) x, last1 l = Some x -> exists l', l = l' ++ [x].
Proof.
  intros A l x H. unfold last1 in H. destruct (rev l) as [|y r] eqn:E; [discriminate|]. injection H as <-.
  exists (rev r). rewrite <- (rev_involutive l), E. reflexivity.
Qed.

(** * Focusing in the queue *)

(** Either nothing changes, or the last surface is replaced. *)
Lemma focus_cases : forall g found ss d,
  (focus g found ss d = (found, ss)) \/
  (g_focus g = true /\ found = false /\ exists r prior s, ss = r ++ [prior; s] /\ flt (s_dist s) d = true /\
     focus g found ss d = (true, r ++ [prior; focus_surface (g_k g) (g_target g) s prior])).
Proof.
  intros g found ss d. unfold focus. destruct (g_focus g); [|left; reflexivity]. destruct found; [left; reflexivity|].
  cbn [andb negb]. destruct (rev ss) as [|s [|prior r]] eqn:E; try (left; reflexivity).
  destruct (flt (s_dist s) d) eqn:F; [|left; reflexivity]. right. split; [reflexivity|]. split; [reflexivity|].
  exists (rev r), prior, s. split.
  - rewrite <- (rev_involutive ss), E. cbn [rev]. rewrite <- app_assoc. reflexivity.
  - split; [exact F|]. cbn [rev]. rewrite <- app_assoc. reflexivity.
Qed.

(** The outcome of one burst. *)
Definition created_by (g : settings) (fuel : nat) (force : bool) (b : burst) (t : st) (l : option loc) : Prop :=
  ((force = true \/ t_surfs t = []) /\ exists l', first_location (g_k g) fuel (t_last t) b = Some l' /\ l = Some l') \/
  (force = false /\ exists s p, last1 (t_surfs t) = Some s /\ last1 (t_bursts t) = Some p /\
     find_new_location (g_k g) s p b = Some l).
Lemma step_cases : forall g fuel force b t,
  let t' := fst (step_burst g fuel force b t) in
  t_bursts t' = t_bursts t ++ [b] /\
  ((t_found t' = t_found t /\ t_surfs t' = t_surfs t /\ t_next t' = t_next t /\
    (forall s p, force = false -> last1 (t_surfs t) = Some s -> last1 (t_bursts t) = Some p ->
       find_new_location (g_k g) s p b = None)) \/
   (exists l, created_by g fuel force b t l /\ t_next t' = S (t_next t) /\
      let s := new_surface g (t_next t) l in
      t_surfs t' = snd (focus g (t_found t) (t_surfs t) (s_dist s)) ++ [s] /\
      t_found t' = fst (focus g (t_found t) (t_surfs t) (s_dist s)))).
Proof.
  intros g fuel force b t t'. unfold t', step_burst. clear t'. cbv zeta.
  destruct (if force then None else last1 (t_surfs t)) as [s|] eqn:E.
  - destruct force; [discriminate|]. rewrite last2_app. destruct (last1 (t_bursts t)) as [p|] eqn:EP.
    + cbn [option_map]. destruct (find_new_location (g_k g) s p b) as [l|] eqn:F.
      * destruct (focus g (t_found t) (t_surfs t) (s_dist (new_surface g (t_next t) l))) as [fo ss] eqn:Fo.
        cbn [fst snd t_bursts t_surfs t_next t_found]. split; [reflexivity|]. right. exists l. split.
        { right. split; [reflexivity|]. exists s, p. auto. }
        split; [reflexivity|]. rewrite Fo. split; reflexivity.
      * cbn [fst t_bursts t_surfs t_next t_found]. split; [reflexivity|]. left. repeat split.
        intros s' p' _ X Y. congruence.
    + cbn [option_map fst t_bursts t_surfs t_next t_found]. split; [reflexivity|]. left. repeat split.
      intros s' p' _ X Y. discriminate.
  - assert (C : force = true \/ t_surfs t = []).
    { destruct force; [left; reflexivity|]. right. apply last1_none. exact E. }
    destruct (first_location (g_k g) fuel (t_last t) b) as [l|] eqn:F.
    + destruct (focus g (t_found t) (t_surfs t) (s_dist (new_surface g (t_next t) (Some l)))) as [fo ss] eqn:Fo.
      cbn [fst snd t_bursts t_surfs t_next t_found]. split; [reflexivity|]. right. exists (Some l). split.
      { left. split; [exact C|]. exists l. auto. }
      split; [reflexivity|]. rewrite Fo. split; reflexivity.
    + cbn [fst t_bursts t_surfs t_next t_found]. split; [reflexivity|]. left. repeat split.
      intros s p Ff X Y. subst force. congruence.
Qed.

(** * Times *)

Lemma within_eq : forall s s' b, s = s' -> within s b -> within s' b.
Proof. intros s s' b -> H. exact H. Qed.

Definition tinv (t : st) (tm : option R) : Prop :=
  option_map b_time (last1 (t_bursts t)) = tm /\ ready t /\ (t_bursts t = [] -> t_surfs t = []).

Lemma angle_has_loc : forall s b a, angle_to s b = Some a -> exists l, s_loc s = Some l.
Proof. intros s b a H. unfold angle_to in H. destruct (s_loc s) as [l|]; [exists l; reflexivity|discriminate]. Qed.

Lemma times_increase : forall g fuel os t tm ub,
  tinv t tm -> dense g fuel os t ->
  (forall x, ub = Some x -> exists y, tm = Some y /\ x <= y) ->
  StronglySorted Rlt (match tm with Some x => [x] | None => [] end ++ map b_time (bursts_of os)) ->
  StronglySorted Rlt (match ub with Some x => [x] | None => [] end ++ times g fuel os t).
Proof.
  intros g fuel. induction os as [|o os IH]; intros t tm ub [I1 [I2 I3]] D U S.
  - cbn [times]. rewrite app_nil_r. destruct ub; repeat constructor.
  - cbn [times dense] in *. destruct D as [D1 D2]. destruct o as [force b| |n].
    + pose proof (step_cases g fuel force b t) as SC. cbv zeta in SC. cbn [run_op] in *.
      set (t' := fst (step_burst g fuel force b t)) in *. destruct SC as [B SC]. destruct D1 as [D0 D1].
      cbn [bursts_of map] in S.
      assert (Lt : forall y, tm = Some y -> y < b_time b).
      { intros y ->. cbn [app] in S. apply StronglySorted_inv in S. destruct S as [_ F]. inversion F. assumption. }
      assert (S' : StronglySorted Rlt ([b_time b] ++ map b_time (bursts_of os))).
      { destruct tm; cbn [app] in S |- *; [apply StronglySorted_inv in S; apply S|exact S]. }
      assert (L1 : option_map b_time (last1 (t_bursts t')) = Some (b_time b)) by (rewrite B, last1_app; reflexivity).
      assert (I3' : t_bursts t' = [] -> t_surfs t' = []) by (rewrite B; intro X; destruct (t_bursts t); discriminate).
      assert (U' : forall x, ub = Some x -> exists y, Some (b_time b) = Some y /\ x <= y).
      { intros x X. destruct (U x X) as [y [Y1 Y2]]. exists (b_time b). split; [reflexivity|]. specialize (Lt y Y1). lra. }
      destruct SC as [[_ [E2 [E3 Wt]]]|[l [Cr [E3 [E2 _]]]]].
      * rewrite E3, Nat.eqb_refl. cbn [app].
        apply (IH t' (Some (b_time b)) ub); [split; [exact L1|split; [|exact I3']]|exact D2|exact U'|exact S'].
        intros s p l X Y Z. rewrite B, last1_app in Z. injection Z as <-. rewrite E2 in X.
        destruct force; [rewrite D0 in X by reflexivity; discriminate|].
        destruct (last1 (t_bursts t)) as [p|] eqn:EP.
        -- pose proof (Wt s p eq_refl X eq_refl) as F. apply (find_spec _ _ _ _ _ F). reflexivity.
        -- apply last1_none in EP. rewrite (I3 EP) in X. discriminate.
      * assert (R' : ready t') by (apply D1; lia).
        rewrite E3. replace (Nat.eqb (Datatypes.S (t_next t)) (t_next t)) with false by (symmetry; apply Nat.eqb_neq; lia).
        rewrite E2, last1_app. cbn [s_loc new_surface]. destruct l as [l|].
        -- assert (T : l_time l <= b_time b /\ forall y, tm = Some y -> y < l_time l).
           { destruct Cr as [[_ [l' [F E]]]|[Ff [s [p [X [Y F]]]]]].
             - injection E as <-. unfold first_location in F.
               destruct (normalize fuel (k_pi (g_k g)) (vx (b_lla b))); [|discriminate].
               destruct (normalize fuel (k_pi (g_k g)) (vy (b_lla b))); [|discriminate].
               injection F as <-. cbn [l_time]. split; [lra|exact Lt].
             - assert (W : within s p).
               { destruct (find_spec _ _ _ _ _ F) as [_ [F2 _]]. destruct (F2 l eq_refl) as [ap [ac [res [A1 _]]]].
                 destruct (angle_has_loc _ _ _ A1) as [l0 L0]. apply (I2 s p l0 X L0 Y). }
               destruct (weight_range _ _ _ _ _ F W) as [a [A ->]].
               assert (tm = Some (b_time p)) by (rewrite <- I1, Y; reflexivity).
               pose proof (Lt _ H) as P. cbn [between l_time]. unfold mix. split; [nra|].
               intros y Hy. rewrite H in Hy. injection Hy as <-. nra. }
           assert (St : StronglySorted Rlt ([l_time l] ++ times g fuel os t')).
           { apply (IH t' (Some (b_time b)) (Some (l_time l))); [split; [exact L1|split; [exact R'|exact I3']]|exact D2| |exact S'].
             intros x X. injection X as <-. exists (b_time b). split; [reflexivity|apply T]. }
           destruct ub as [x|]; [|exact St]. cbn [app] in St |- *. constructor; [exact St|].
           destruct (U x eq_refl) as [y [Y1 Y2]]. pose proof (proj2 T y Y1).
           apply StronglySorted_inv in St. destruct St as [_ Fa]. constructor; [lra|].
           eapply Forall_impl; [|exact Fa]. cbn beta. intros. lra.
        -- cbn [app]. apply (IH t' (Some (b_time b)) ub); [split; [exact L1|split; [exact R'|exact I3']]|exact D2|exact U'|exact S'].
    + cbn [run_op t_next]. rewrite Nat.eqb_refl. cbn [app bursts_of] in *.
      apply (IH _ tm ub); [|exact D2|exact U|exact S].
      split; [exact I1|]. split.
      * intros s p l X Y Z. cbn [t_surfs] in X. apply (I2 s p l (last1_tl _ _ _ X) Y Z).
      * cbn [t_bursts t_surfs]. intro X. rewrite (I3 X). reflexivity.
    + cbn [run_op t_next]. rewrite Nat.eqb_refl. cbn [app bursts_of] in *.
      apply (IH _ tm ub); [|exact D2|exact U|exact S].
      split; [cbn [t_bursts]; rewrite last1_skipn by exact D1; exact I1|]. split.
      * intros s p l X Y Z. cbn [t_surfs t_bursts] in X, Z. rewrite last1_skipn in Z by exact D1. apply (I2 s p l X Y Z).
      * cbn [t_bursts t_surfs]. intro X. apply (f_equal (@length burst)) in X. rewrite skipn_length in X. cbn in X. lia.
Qed.

(** * The first surface *)

Lemma first_spec : forall k fuel old b l, oblate k -> k_pi k = PI ->
  first_location k fuel old (locate_burst k b) = Some l ->
  l_surf l = b_surf (locate_burst k b) /\ l_sat l = b_sat (locate_burst k b) /\ l_wd l = b_wd b /\ l_time l = b_time b /\
  l_vel l = b_vel b /\
  l_sat l = vadd (l_surf l) (vscale (b_wd b * k_c k / 2) (zenith (vx (b_lla b)) (vy (b_lla b)))).
Proof.
  intros k fuel old b l O P H. unfold first_location, locate_burst in H. cbn [b_lla b_wd b_sat b_time b_vel b_rate b_roll b_pitch b_yaw] in H.
  destruct (normalize fuel (k_pi k) (vx (b_lla b))) as [lat|] eqn:E1; [|discriminate].
  destruct (normalize fuel (k_pi k) (vy (b_lla b))) as [lon|] eqn:E2; [|discriminate].
  injection H as <-. cbn [l_surf l_sat l_wd l_time l_vel].
  assert (T : forall x y, normalize fuel (k_pi k) x = Some y -> sin y = sin x /\ cos y = cos x).
  { intros x y E. rewrite P in E. destruct (normalize_ends PI x PI_RGT_0) as [r [Hr [_ [[n En] _]]]].
    assert (y = r) by (apply (normalizes_unique PI x y r); [exists fuel; exact E|exact Hr]). subst y.
    rewrite En. clear. 
    assert (Pn : forall t (m : nat), sin (t + INR m * (2 * PI)) = sin t /\ cos (t + INR m * (2 * PI)) = cos t).
    { intros t m. replace (t + INR m * (2 * PI)) with (t + 2 * INR m * PI) by ring.
      split; [apply sin_period|apply cos_period]. }
    destruct (Z.le_ge_cases 0 n) as [H|H].
    - rewrite <- (Z2Nat.id n H), <- INR_IZR_INZ. apply Pn.
    - destruct (Pn (x + IZR n * (2 * PI)) (Z.to_nat (- n))) as [A B].
      rewrite INR_IZR_INZ, Z2Nat.id, opp_IZR in A, B by lia.
      replace (x + IZR n * (2 * PI) + - IZR n * (2 * PI)) with x in A, B by ring. split; symmetry; assumption. }
  destruct (T _ _ E1) as [Sa Ca]. destruct (T _ _ E2) as [So Co].
  assert (EQ : lla2ecef k false (V lat lon (vz (b_lla b) - b_wd b * k_c k / 2)) =
               lla2ecef k false (V (vx (b_lla b)) (vy (b_lla b)) (vz (b_lla b) - b_wd b * k_c k / 2))).
  { unfold lla2ecef. cbn [vx vy vz]. cbv zeta. rewrite Sa, Ca, So, Co. reflexivity. }
  unfold locate_burst. cbn [b_surf b_sat]. rewrite EQ. repeat split; try reflexivity.
  assert (W : b_lla b = V (vx (b_lla b)) (vy (b_lla b)) (vz (b_lla b))) by (destruct (b_lla b); reflexivity).
  rewrite W at 1. rewrite !lla2ecef_eq by exact O. unfold vadd, vscale, zenith. cbv zeta. cbn [vx vy vz]. f_equal; ring.
Qed.

(** * The closest point *)

Lemma focus_point_spec : forall target focus prior q, focus_point target focus prior = Some q ->
  exists k0, q = on_line prior focus k0 /\
    k0 = dot (vlist (vsub target prior)) (vlist (vsub focus prior)) / sq (vsub focus prior) /\ 0 < sq (vsub focus prior).
Proof.
  intros target focus prior q H. unfold focus_point in H. cbv zeta in H.
  remember (vsub focus prior) as along eqn:EA. remember (vsub target prior) as rel eqn:ER.
  destruct (Req_EM_T (norm (vlist along)) 0) as [|NA]; [discriminate|].
  destruct (Req_EM_T (norm (vlist rel)) 0) as [|NR]; [discriminate|]. injection H as <-.
  assert (SQ : norm (vlist along) ^ 2 = sq along).
  { rewrite norm_sq. unfold vlist, sq. cbn [dot]. ring. }
  pose proof (norm_nonneg (vlist along)).
  exists (dot (vlist rel) (vlist along) / sq along). rewrite <- SQ. split; [|split; [reflexivity|nra]].
  unfold on_line. rewrite <- EA. f_equal.
  clear - NA NR. revert NA NR. generalize (norm (vlist along)), (norm (vlist rel)). intros na nr NA NR.
  destruct along as [ax ay az]. destruct rel as [rx ry rz]. unfold vscale, vlist. cbn [vx vy vz dot].
  f_equal; field; split; assumption.
Qed.
Lemma distance_line : forall t p q a b,
  distance t (on_line p q b) ^ 2 = distance t (on_line p q a) ^ 2 +
    (b - a) * ((a + b) * sq (vsub q p) - 2 * dot (vlist (vsub t p)) (vlist (vsub q p))).
Proof.
  intros [tx ty tz] [px py pz] [qx qy qz] a b. unfold distance, on_line, vadd, vscale, vsub, vlist, sq. cbn [vx vy vz dot].
  rewrite !pow2_sqrt; [ring| |]; repeat apply Rplus_le_le_0_compat; apply pow2_ge_0.
Qed.
Lemma closest : forall t p q, 0 < sq (vsub q p) ->
  let k0 := dot (vlist (vsub t p)) (vlist (vsub q p)) / sq (vsub q p) in
  forall k, distance t (on_line p q k0) <= distance t (on_line p q k) /\
            (distance t (on_line p q k) = distance t (on_line p q k0) -> k = k0).
Proof.
  intros t p q S k0 k. pose proof (distance_line t p q k0 k) as H.
  assert (E : dot (vlist (vsub t p)) (vlist (vsub q p)) = k0 * sq (vsub q p)) by (unfold k0; field; lra).
  rewrite E in H. assert (D : forall x, 0 <= distance t (on_line p q x)) by (intro; apply sqrt_pos).
  pose proof (D k0). pose proof (D k).
  replace ((k - k0) * ((k0 + k) * sq (vsub q p) - 2 * (k0 * sq (vsub q p)))) with ((k - k0) ^ 2 * sq (vsub q p)) in H by ring.
  assert (P2 : 0 <= (k - k0) ^ 2 * sq (vsub q p)) by (apply Rmult_le_pos; [apply pow2_ge_0|lra]).
  split; [apply Rsqr_incr_0_var; [unfold Rsqr; nra|assumption]|]. intro Q. rewrite Q in H.
  assert (Z : (k - k0) ^ 2 * sq (vsub q p) = 0) by lra. apply Rmult_integral in Z. destruct Z as [Z|Z]; [|lra].
  assert (k - k0 = 0) by nra. lra.
Qed.

(** * Histories with focusing *)

Definition uids (t : st) : list nat := map s_uid (t_surfs t).
Definition hinv (t : st) : Prop :=
  NoDup (uids t) /\ (forall u, In u (uids t) -> (u < t_next t)%nat) /\ StronglySorted lt (uids t).

Lemma sorted_app_last : forall l n, StronglySorted lt l -> (forall u, In u l -> (u < n)%nat) -> StronglySorted lt (l ++ [n]).
Proof.
  induction l as [|x l IH]; intros n S H; [repeat constructor|]. apply StronglySorted_inv in S. destruct S as [S F].
  cbn [app]. constructor; [apply IH; [exact S|intros u I; apply H; right; exact I]|].
  apply Forall_app. split; [exact F|]. repeat constructor. apply H. left. reflexivity.
Qed.
Lemma sorted_nodup : forall l, StronglySorted lt l -> NoDup l.
Proof.
  induction l as [|x l IH]; intro S; [constructor|]. apply StronglySorted_inv in S. destruct S as [S F].
  constructor; [|apply IH; exact S]. intro I. rewrite Forall_forall in F. specialize (F x I). lia.
Qed.
Lemma focus_uids : forall g found ss d, map s_uid (snd (focus g found ss d)) = map s_uid ss.
Proof.
  intros g found ss d. destruct (focus_cases g found ss d) as [->|[_ [_ [r [prior [s [-> [_ ->]]]]]]]]; [reflexivity|].
  cbn [snd]. rewrite !map_app. reflexivity.
Qed.

Lemma op_hinv : forall g fuel o t, hinv t -> hinv (run_op g fuel o t).
Proof.
  intros g fuel o t [N [B S]]. destruct o as [force b| |n].
  - cbn [run_op]. pose proof (step_cases g fuel force b t) as SC. cbv zeta in SC.
    set (t' := fst (step_burst g fuel force b t)) in *. destruct SC as [_ [[_ [E1 [E2 _]]]|[l [_ [E2 [E1 _]]]]]].
    + unfold hinv, uids. rewrite E1, E2. repeat split; assumption.
    + assert (U : uids t' = uids t ++ [t_next t]).
      { unfold uids. rewrite E1, map_app, focus_uids. reflexivity. }
      assert (S' : StronglySorted lt (uids t')) by (rewrite U; apply sorted_app_last; assumption).
      split; [apply sorted_nodup; exact S'|]. split; [|exact S'].
      intros u I. rewrite U in I. apply in_app_or in I. rewrite E2. destruct I as [I|[<-|[]]]; [specialize (B u I); lia|lia].
  - cbn [run_op]. unfold hinv, uids in *. cbn [t_surfs t_next].
    destruct (t_surfs t) as [|s r]; [repeat split; assumption|]. cbn [tl map] in *.
    inversion N. subst. apply StronglySorted_inv in S. destruct S as [S _]. repeat split; try assumption.
    intros u I. apply B. right. exact I.
  - exact (conj N (conj B S)).
Qed.
Lemma ops_hinv : forall g fuel os t, hinv t -> hinv (run_ops g fuel os t).
Proof. intros g fuel os. induction os as [|o os IH]; intros t H; [exact H|]. apply IH, op_hinv, H. Qed.
Lemma hinv0 : hinv st0.
Proof. split; [constructor|]. split; [intros u []|constructor]. Qed.

Lemma same_uid : forall (l : list surface) s s', NoDup (map s_uid l) -> In s l -> In s' l -> s_uid s = s_uid s' -> s = s'.
Proof.
  induction l as [|x l IH]; intros s s' N I I' E; [destruct I|]. inversion N. subst.
  destruct I as [->|I], I' as [->|I']; try reflexivity.
  - exfalso. apply H1. rewrite E. apply in_map. exact I'.
  - exfalso. apply H1. rewrite <- E. apply in_map. exact I.
  - apply IH; assumption.
Qed.

(** An operation that changes a surface focuses the last one. *)
Lemma changed_focus : forall g fuel o t u, hinv t -> changed t (run_op g fuel o t) u ->
  g_focus g = true /\ t_found t = false /\ t_found (run_op g fuel o t) = true /\
  exists r prior s new, t_surfs t = r ++ [prior; s] /\ s_uid s = u /\ flt (s_dist s) (s_dist new) = true /\
    t_surfs (run_op g fuel o t) = r ++ [prior; focus_surface (g_k g) (g_target g) s prior; new].
Proof.
  intros g fuel o t u [N [B S]] [s [s' [I [I' [E [E' D]]]]]].
  destruct o as [force b| |n].
  - cbn [run_op] in *. pose proof (step_cases g fuel force b t) as SC. cbv zeta in SC.
    set (t' := fst (step_burst g fuel force b t)) in *. destruct SC as [_ [[_ [E1 [E2 _]]]|[l [_ [E2 [E1 E3]]]]]].
    + exfalso. apply D. apply (same_uid (t_surfs t)); [exact N|exact I|rewrite <- E1; exact I'|congruence].
    + set (new := new_surface g (t_next t) l) in *.
      assert (NN : In s' (snd (focus g (t_found t) (t_surfs t) (s_dist new)))).
      { rewrite E1 in I'. apply in_app_or in I'. destruct I' as [I'|[<-|[]]]; [exact I'|]. exfalso.
        assert (In u (uids t)) by (rewrite <- E; apply in_map; exact I). specialize (B u H).
        unfold new in E'. cbn in E'. lia. }
      destruct (focus_cases g (t_found t) (t_surfs t) (s_dist new)) as [Fo|[G [Fd [r [prior [s0 [X [Fl Fo]]]]]]]].
      * rewrite Fo in NN. cbn [snd] in NN. exfalso. apply D. apply (same_uid (t_surfs t)); [exact N|exact I|exact NN|congruence].
      * split; [exact G|]. split; [exact Fd|]. rewrite Fo in E1, E3, NN. cbn [fst snd] in *. split; [exact E3|].
        exists r, prior, s0, new. split; [exact X|]. split.
        -- assert (Q : s' = focus_surface (g_k g) (g_target g) s0 prior \/ In s' (t_surfs t)).
           { apply in_app_or in NN. destruct NN as [NN|[<-|[<-|[]]]].
             - right. rewrite X. apply in_or_app. left. exact NN.
             - right. rewrite X. apply in_or_app. right. left. reflexivity.
             - left. reflexivity. }
           destruct Q as [->|Q]; [cbn in E'; congruence|].
           exfalso. apply D. apply (same_uid (t_surfs t)); [exact N|exact I|exact Q|congruence].
        -- split; [exact Fl|]. rewrite E1, <- app_assoc. reflexivity.
  - exfalso. apply D. cbn [run_op t_surfs] in I'. apply (same_uid (t_surfs t)); [exact N|exact I| |congruence].
    destruct (t_surfs t); [exact I'|right; exact I'].
  - exfalso. apply D. apply (same_uid (t_surfs t)); [exact N|exact I|exact I'|congruence].
Qed.
Lemma found_stays : forall g fuel os t, t_found t = true -> t_found (run_ops g fuel os t) = true.
Proof.
  intros g fuel os. induction os as [|o os IH]; intros t H; [exact H|]. apply IH. destruct o as [force b| |n]; try exact H.
  cbn [run_op]. pose proof (step_cases g fuel force b t) as SC. cbv zeta in SC.
  destruct SC as [_ [[E _]|[l [_ [_ [_ E]]]]]]; [rewrite E; exact H|]. rewrite E, H. unfold focus.
  rewrite andb_false_r. reflexivity.
Qed.
