(** Lemmas on beam and Doppler angles. *)
From Coq Require Import Reals List Bool Sorted Lra Psatz.
From Verif Require Import Common GeoModel GeoSpec GeoProofs BeamModel BeamSpec DopModel DopSpec.
Import ListNotations.
Open Scope R_scope.

Lemma dot_inner : forall u v, dot (vlist u) (vlist v) = inner u v.
Proof. intros [a b c] [x y z]. unfold inner. cbn. ring. Qed.
Lemma norm_len : forall u, norm (vlist u) = len u.
Proof. intro u. unfold norm, len. rewrite dot_inner. reflexivity. Qed.
Lemma inner_comm : forall u v, inner u v = inner v u.
Proof. intros [a b c] [x y z]. unfold inner. cbn. ring. Qed.
Lemma inner_nonneg : forall u, 0 <= inner u u.
Proof. intros [a b c]. unfold inner. cbn. nra. Qed.
Lemma len_nonneg : forall u, 0 <= len u.
Proof. intro u. apply sqrt_pos. Qed.
Lemma len_sq : forall u, len u * len u = inner u u.
Proof. intro u. apply sqrt_sqrt, inner_nonneg. Qed.
Lemma inner_0 : forall u, inner u u = 0 <-> u = V 0 0 0.
Proof.
  intros [a b c]. unfold inner. cbn. split; intro H.
  - assert (a = 0) by nra. assert (b = 0) by nra. assert (c = 0) by nra. congruence.
  - injection H as -> -> ->. ring.
Qed.
Lemma len_0 : forall u, len u = 0 <-> u = V 0 0 0.
Proof.
  intro u. rewrite <- inner_0. rewrite <- len_sq. split; intro H; [rewrite H; ring|].
  destruct (Rmult_integral _ _ H); assumption.
Qed.
Lemma len_pos : forall u, u <> V 0 0 0 -> 0 < len u.
Proof.
  intros u H. destruct (len_nonneg u) as [X|X]; [exact X|]. exfalso. apply H, len_0. auto.
Qed.
Lemma inner_cauchy : forall u v, inner u v ^ 2 <= inner u u * inner v v.
Proof.
  intros u v. rewrite <- !dot_inner. apply cauchy. reflexivity.
Qed.
Lemma arccos_in : forall x, -1 <= x <= 1 -> arccos x = Some (acos x).
Proof. intros x H. unfold arccos. destruct (Rlt_dec x (-1)); [lra|]. destruct (Rlt_dec 1 x); [lra|]. reflexivity. Qed.
Lemma arccos_some : forall x a, arccos x = Some a -> -1 <= x <= 1 /\ a = acos x.
Proof.
  intros x a H. unfold arccos in H. destruct (Rlt_dec x (-1)); [discriminate|]. destruct (Rlt_dec 1 x); [discriminate|].
  injection H as <-. split; [lra|reflexivity].
Qed.
Lemma cosine_in : forall u v, u <> V 0 0 0 -> v <> V 0 0 0 -> -1 <= inner u v / (len u * len v) <= 1.
Proof.
  intros u v A B. rewrite <- dot_inner, <- !norm_len. apply cosine_range; [reflexivity|].
  rewrite !norm_len. pose proof (len_pos u A). pose proof (len_pos v B). nra.
Qed.
Lemma vsub_0 : forall u v, vsub u v = V 0 0 0 <-> u = v.
Proof.
  intros [a b c] [x y z]. unfold vsub. cbn. split; intro H.
  - injection H as H1 H2 H3. f_equal; lra.
  - injection H as -> -> ->. f_equal; ring.
Qed.
Lemma beam_angle_eq : forall pos vel p, p <> pos -> vel <> V 0 0 0 ->
  beam_angle pos vel p = Some (acos (inner (vsub p pos) vel / (len (vsub p pos) * len vel))).
Proof.
  intros pos vel p A B. assert (A' : vsub p pos <> V 0 0 0) by (rewrite vsub_0; exact A).
  unfold beam_angle. rewrite dot_inner, !norm_len.
  pose proof (len_pos _ A'). pose proof (len_pos _ B).
  destruct (Req_EM_T _ 0) as [E|E]; [nra|]. apply arccos_in, cosine_in; assumption.
Qed.
Lemma beam_angle_none : forall pos vel p, p = pos \/ vel = V 0 0 0 -> beam_angle pos vel p = None.
Proof.
  intros pos vel p H. unfold beam_angle. rewrite !norm_len.
  assert (E : len (vsub p pos) * len vel = 0).
  { destruct H as [H|H].
    - rewrite (proj2 (len_0 (vsub p pos))) by (apply vsub_0; exact H). ring.
    - rewrite (proj2 (len_0 vel)) by exact H. ring. }
  destruct (Req_EM_T _ 0); [reflexivity|contradiction].
Qed.

(** ** Visibility *)

Lemma q_eq : forall k prf freq vel q, 0 < prf -> 0 < freq -> q_min k prf freq vel = Some q ->
  vel <> V 0 0 0 /\ cos q = k_c k * prf / (4 * freq * len vel) /\ 0 <= q <= PI /\
  -1 <= k_c k * prf / (4 * freq * len vel) <= 1.
Proof.
  intros k prf freq vel q P F H. unfold q_min in H. rewrite norm_len in H.
  destruct (Req_EM_T (len vel) 0) as [E|E]; [discriminate|]. apply arccos_some in H. destruct H as [H ->].
  assert (X : k_c k / (1 / prf) / 4 / freq / len vel = k_c k * prf / (4 * freq * len vel)) by (field; lra).
  rewrite X in *. split; [intro V0; apply E, len_0, V0|]. split; [apply cos_acos; exact H|].
  split; [apply acos_bound|exact H].
Qed.
Lemma q_iff : forall k prf freq vel, 0 < prf -> 0 < freq -> 0 < k_c k ->
  ((exists q, q_min k prf freq vel = Some q) <-> vel <> V 0 0 0 /\ k_c k * prf <= 4 * freq * len vel).
Proof.
  intros k prf freq vel P F C. split.
  - intros [q H]. apply q_eq in H; try assumption. destruct H as [V0 [_ [_ [_ H]]]]. split; [exact V0|].
    pose proof (len_pos _ V0). assert (0 < 4 * freq * len vel) by nra.
    apply Rmult_le_reg_r with (/ (4 * freq * len vel)); [apply Rinv_0_lt_compat; assumption|].
    rewrite Rinv_r by lra. exact H.
  - intros [V0 H]. pose proof (len_pos _ V0). assert (D : 0 < 4 * freq * len vel) by nra.
    unfold q_min. rewrite norm_len. destruct (Req_EM_T (len vel) 0); [lra|].
    exists (acos (k_c k / (1 / prf) / 4 / freq / len vel)). apply arccos_in.
    replace (k_c k / (1 / prf) / 4 / freq / len vel) with (k_c k * prf / (4 * freq * len vel)) by (field; lra).
    split.
    + apply Rle_trans with 0; [lra|]. apply Rlt_le, Rdiv_lt_0_compat; nra.
    + apply Rmult_le_reg_r with (4 * freq * len vel); [exact D|]. unfold Rdiv. rewrite Rmult_assoc, Rinv_l by lra. lra.
Qed.

(** an angle is at least [q] away from both ends iff its cosine is small *)
Lemma band : forall q x, 0 <= q <= PI -> (q <= x <= PI - q <-> 0 <= x <= PI /\ Rabs (cos x) <= cos q).
Proof.
  intros q x Q. split.
  - intros [H1 H2]. assert (X : 0 <= x <= PI) by lra. split; [exact X|].
    apply Rabs_le. split.
    + rewrite <- Rtrigo_facts.cos_pi_minus. apply cos_decr_1; lra.
    + apply cos_decr_1; lra.
  - intros [X H]. assert (H1 : cos x <= cos q) by (apply Rle_trans with (Rabs (cos x)); [apply Rle_abs|exact H]).
    assert (H2 : cos (PI - q) <= cos x).
    { rewrite Rtrigo_facts.cos_pi_minus. rewrite <- Rabs_Ropp in H. pose proof (Rle_abs (- cos x)). lra. }
    split; [apply cos_decr_0 in H1|apply cos_decr_0 in H2]; lra.
Qed.

(** ** Surfaces in order of their angle *)

Lemma sorted_forall : forall A (R : A -> A -> Prop) a l, StronglySorted R (a :: l) -> StronglySorted R l /\ forall x, In x l -> R a x.
Proof. intros A R0 a l H. inversion H as [|? ? S F]. split; [exact S|]. rewrite Forall_forall in F. exact F. Qed.

Section Run.
Variable A : Type.
Variable f : A -> R.
Variable lo hi : R.
Variable vis : A -> bool.
Lemma take_filter : forall l, (forall x, In x l -> vis x = true <-> lo <= f x <= hi) ->
  (forall x, In x l -> f x <= hi) -> StronglySorted (fun a b => f b <= f a) l ->
  take_while vis l = filter vis l.
Proof.
  induction l as [|a l IH]; intros V H S; [reflexivity|]. apply sorted_forall in S. destruct S as [S F].
  cbn. destruct (vis a) eqn:E.
  - f_equal. apply IH; [|intros x X; apply H; right; exact X|exact S]. intros x X. apply V. right. exact X.
  - symmetry. assert (f a < lo).
    { apply Rnot_le_lt. intro L. assert (vis a = true); [|congruence]. apply V; [left; reflexivity|].
      split; [exact L|apply H; left; reflexivity]. }
    destruct (filter vis l) as [|y r] eqn:Fl; [reflexivity|]. exfalso.
    assert (I : In y (filter vis l)) by (rewrite Fl; left; reflexivity). apply filter_In in I. destruct I as [I Vy].
    apply V in Vy; [|right; exact I]. specialize (F y I). lra.
Qed.
Lemma run_filter : forall l, (forall x, In x l -> vis x = true <-> lo <= f x <= hi) ->
  StronglySorted (fun a b => f b <= f a) l -> first_run vis l = filter vis l.
Proof.
  unfold first_run. induction l as [|a l IH]; intros V S; [reflexivity|]. pose proof S as S0. apply sorted_forall in S. destruct S as [S F].
  cbn [drop_while]. destruct (vis a) eqn:E; cbn [negb].
  - cbn [take_while filter]. rewrite E. f_equal. apply take_filter; [|intros x X|exact S].
    + intros x X. apply V. right. exact X.
    + apply V in E; [|left; reflexivity]. specialize (F x X). lra.
  - cbn [filter]. rewrite E. apply IH; [|exact S]. intros x X. apply V. right. exact X.
Qed.
End Run.

Lemma slope_le : forall h a b, 0 <= h -> a <= b -> 0 < a * a + h -> 0 < b * b + h ->
  a / sqrt (a * a + h) <= b / sqrt (b * b + h).
Proof.
  intros h a b H L A B. pose proof (sqrt_lt_R0 _ A) as SA. pose proof (sqrt_lt_R0 _ B) as SB.
  pose proof (sqrt_sqrt _ (Rlt_le _ _ A)) as QA. pose proof (sqrt_sqrt _ (Rlt_le _ _ B)) as QB.
  set (u := sqrt (a * a + h)) in *. set (v := sqrt (b * b + h)) in *. clearbody u v.
  assert (K : a * v <= b * u).
  { destruct (Rle_lt_dec a 0) as [A0|A0]; destruct (Rle_lt_dec b 0) as [B0|B0].
    - assert (b * u * (b * u) <= a * v * (a * v)).
      { replace (b * u * (b * u)) with (b * b * (u * u)) by ring. replace (a * v * (a * v)) with (a * a * (v * v)) by ring.
        rewrite QA, QB. assert (b * b <= a * a) by nra. nra. }
      assert (0 <= - (b * u)) by nra. assert (0 <= - (a * v)) by nra.
      apply Ropp_le_cancel. apply Rsqr_incr_0; [unfold Rsqr; lra|assumption|assumption].
    - nra.
    - lra.
    - assert (a * v * (a * v) <= b * u * (b * u)).
      { replace (b * u * (b * u)) with (b * b * (u * u)) by ring. replace (a * v * (a * v)) with (a * a * (v * v)) by ring.
        rewrite QA, QB. assert (a * a <= b * b) by nra. nra. }
      apply Rsqr_incr_0; [unfold Rsqr; lra|nra|nra]. }
  apply Rmult_le_reg_r with (u * v); [nra|].
  replace (a / u * (u * v)) with (a * v) by (field; lra). replace (b / v * (u * v)) with (b * u) by (field; lra). exact K.
Qed.

(** along the direction of flight the cosine of the beam angle grows *)
Lemma cosine_along : forall pos p0 vel s t, vel <> V 0 0 0 -> s <= t ->
  let P x := vadd p0 (vscale x vel) in P s <> pos -> P t <> pos ->
  inner (vsub (P s) pos) vel / (len (vsub (P s) pos) * len vel) <=
  inner (vsub (P t) pos) vel / (len (vsub (P t) pos) * len vel).
Proof.
  intros pos p0 vel s t V0 L P Ns Nt.
  assert (Vp : 0 < inner vel vel).
  { pose proof (len_pos _ V0). rewrite <- len_sq. nra. }
  set (r := vsub p0 pos).
  assert (Ex : forall x, vsub (P x) pos = vadd r (vscale x vel)).
  { intro x. unfold P, r, vsub, vadd, vscale. destruct p0, pos, vel. cbn. f_equal; ring. }
  set (h := inner r r * inner vel vel - inner r vel ^ 2).
  assert (Hh : 0 <= h) by (unfold h; pose proof (inner_cauchy r vel); lra).
  assert (F : forall x, P x <> pos ->
    let a := inner (vsub (P x) pos) vel in
    0 < a * a + h /\ len (vsub (P x) pos) * len vel = sqrt (a * a + h)).
  { intros x Nx a. assert (E : inner (vsub (P x) pos) (vsub (P x) pos) * inner vel vel = a * a + h).
    { unfold a, h. rewrite Ex. unfold inner, vadd, vscale. destruct r, vel. cbn. ring. }
    assert (Nz : vsub (P x) pos <> V 0 0 0) by (rewrite vsub_0; exact Nx).
    pose proof (len_pos _ Nz) as Lp. rewrite <- E. split.
    - apply Rmult_lt_0_compat; [rewrite <- len_sq; nra|exact Vp].
    - unfold len. rewrite <- sqrt_mult by apply inner_nonneg. reflexivity. }
  destruct (F s Ns) as [F1 F2]. destruct (F t Nt) as [F3 F4]. rewrite F2, F4.
  apply slope_le; [exact Hh| |exact F1|exact F3].
  rewrite !Ex. assert (G : forall x, inner (vadd r (vscale x vel)) vel = inner r vel + x * inner vel vel).
  { intro x. unfold inner, vadd, vscale. destruct r, vel. cbn. ring. }
  rewrite !G. nra.
Qed.
Lemma acos_decr : forall x y, -1 <= x -> x <= y -> y <= 1 -> acos y <= acos x.
Proof.
  intros x y X L Y. pose proof (acos_bound x). pose proof (acos_bound y).
  apply cos_decr_0; try lra. rewrite !cos_acos by lra. exact L.
Qed.

(** ** The Doppler angle *)

Lemma asin_acos_sqrt : forall x, 0 <= x <= 1 -> acos (sqrt (1 - x * x)) = asin x.
Proof.
  intros x H. rewrite <- (acos_cos (asin x)).
  - rewrite cos_asin by lra. reflexivity.
  - pose proof (asin_bound x). split; [|pose proof PI_RGT_0; lra].
    rewrite <- asin_0. destruct (Rle_lt_or_eq_dec 0 x (proj1 H)) as [L|<-]; [|lra].
    rewrite (asin_acos 0), (asin_acos x) by lra. pose proof (acos_decr 0 x ltac:(lra) ltac:(lra) ltac:(lra)). lra.
Qed.
Lemma zenith_unit : forall lat lon, inner (zenith lat lon) (zenith lat lon) = 1.
Proof.
  intros lat lon. unfold inner, zenith. cbn [vx vy vz]. pose proof (sin2_cos2 lat) as A. pose proof (sin2_cos2 lon) as B.
  replace (cos lat * cos lon * (cos lat * cos lon) + cos lat * sin lon * (cos lat * sin lon) + sin lat * sin lat)
    with (cos lat ^ 2 * (sin lon ^ 2 + cos lon ^ 2) + sin lat ^ 2) by ring. rewrite B. lra.
Qed.
(** the component of [v] across the unit vector [z] *)
Lemma across : forall z v c, inner z z = 1 ->
  let m := cross (cross (vscale c z) v) (vscale c z) in
  inner v m = c ^ 2 * (inner v v - inner v z ^ 2) /\ inner m m = c ^ 4 * (inner v v - inner v z ^ 2).
Proof.
  intros z v c U m.
  assert (E : m = vscale (c ^ 2) (vsub (vscale (inner z z) v) (vscale (inner v z) z))).
  { unfold m, cross, vscale, vsub, inner. destruct z, v. cbn. f_equal; ring. }
  rewrite U in E. rewrite E. clear m E. split.
  - unfold inner, vsub, vscale. destruct z, v. cbn. ring.
  - assert (X : inner (vsub (vscale 1 v) (vscale (inner v z) z)) (vsub (vscale 1 v) (vscale (inner v z) z)) =
                inner v v - 2 * inner v z ^ 2 + inner v z ^ 2 * inner z z).
    { unfold inner, vsub, vscale. destruct z, v. cbn. ring. }
    rewrite U in X.
    assert (Y : forall k u, inner (vscale k u) (vscale k u) = k ^ 2 * inner u u).
    { intros k [a b d]. unfold inner, vscale. cbn. ring. }
    rewrite Y, X. ring.
Qed.
Lemma descent_sq : forall lat lon vel, vel <> V 0 0 0 ->
  descent lat lon vel ^ 2 * inner vel vel = inner vel (zenith lat lon) ^ 2 /\ -1 <= descent lat lon vel <= 1.
Proof.
  intros lat lon vel V0. pose proof (len_pos _ V0) as L. split.
  - unfold descent. rewrite <- len_sq. field. lra.
  - assert (Z : zenith lat lon <> V 0 0 0).
    { intro E. pose proof (zenith_unit lat lon) as U. rewrite E in U. unfold inner in U. cbn in U. lra. }
    pose proof (cosine_in vel (zenith lat lon) V0 Z) as C.
    assert (U : len (zenith lat lon) = 1) by (unfold len; rewrite zenith_unit; apply sqrt_1).
    rewrite U, Rmult_1_r in C. unfold descent, Rdiv in *.
    set (x := inner vel (zenith lat lon)) in *. set (y := / len vel) in *. clearbody x y. split; nra.
Qed.
Lemma doppler_eq : forall k mean lla vel, oblate k -> k_pi k = PI -> mean <> 0 -> vel <> V 0 0 0 ->
  Rabs (descent (vx lla) (vy lla) vel) < 1 ->
  doppler_angle k mean lla vel = Some (- asin (Rabs (descent (vx lla) (vy lla) vel))).
Proof.
  intros k mean [lat lon alt] vel O P M V0 D. cbn [vx vy vz] in *.
  destruct (descent_sq lat lon vel V0) as [Q B]. set (d := descent lat lon vel) in *.
  unfold doppler_angle. cbn [vx vy vz].
  rewrite (at_height k lat lon alt O), (at_height k lat lon (alt - mean) O).
  assert (En : vsub (vadd (lla2ecef k false (V lat lon 0)) (vscale (alt - mean) (zenith lat lon)))
                    (vadd (lla2ecef k false (V lat lon 0)) (vscale alt (zenith lat lon))) = vscale (- mean) (zenith lat lon)).
  { unfold vsub, vadd, vscale. destruct (zenith lat lon), (lla2ecef k false (V lat lon 0)). cbn. f_equal; ring. }
  rewrite En.
  destruct (across (zenith lat lon) vel (- mean) (zenith_unit lat lon)) as [I1 I2]. cbv zeta in I1, I2.
  set (m := cross (cross (vscale (- mean) (zenith lat lon)) vel) (vscale (- mean) (zenith lat lon))) in *. clearbody m.
  pose proof (len_pos _ V0) as L. pose proof (len_sq vel) as LS.
  assert (Ad : Rabs d * Rabs d = d ^ 2) by (rewrite <- Rabs_mult; rewrite Rabs_pos_eq; [ring|nra]).
  assert (W : inner vel vel - inner vel (zenith lat lon) ^ 2 = inner vel vel * (1 - Rabs d * Rabs d)) by (rewrite <- Q, Ad; ring).
  assert (Wp : 0 < 1 - Rabs d * Rabs d) by (pose proof (Rabs_pos d); nra).
  rewrite W in I1, I2.
  assert (M2 : 0 < mean * mean) by (destruct (Rtotal_order mean 0) as [?|[?|?]]; [nra|contradiction|nra]).
  pose proof (sqrt_lt_R0 _ Wp) as Sp. pose proof (sqrt_sqrt _ (Rlt_le _ _ Wp)) as SS.
  set (r := sqrt (1 - Rabs d * Rabs d)) in *. clearbody r.
  assert (Lm : len m = mean * mean * (len vel * r)).
  { unfold len at 1. rewrite I2, <- LS, <- SS. apply sqrt_lem_1.
    - replace ((- mean) ^ 4 * (len vel * len vel * (r * r))) with ((mean * mean * (len vel * r)) ^ 2) by ring. apply pow2_ge_0.
    - apply Rlt_le, Rmult_lt_0_compat; [exact M2|apply Rmult_lt_0_compat; assumption].
    - ring. }
  assert (Lmp : 0 < len m) by (rewrite Lm; apply Rmult_lt_0_compat; [exact M2|apply Rmult_lt_0_compat; assumption]).
  rewrite angle_eq; [|reflexivity|rewrite norm_len; lra|rewrite norm_len; lra].
  rewrite dot_inner, !norm_len, I1, Lm.
  assert (A : (- mean) ^ 2 * (inner vel vel * (1 - Rabs d * Rabs d)) / (len vel * (mean * mean * (len vel * r))) = r).
  { rewrite <- LS, <- SS. field. split; lra. }
  rewrite A. assert (Er : r = sqrt (1 - Rabs d * Rabs d)) by (symmetry; apply sqrt_lem_1; lra). rewrite Er.
  rewrite asin_acos_sqrt by (split; [apply Rabs_pos|lra]). rewrite P.
  assert (LT : asin (Rabs d) < PI / 2).
  { rewrite (asin_acos (Rabs d)) by (split; [pose proof (Rabs_pos d); lra|lra]).
    pose proof (acos_bound_lt (Rabs d) ltac:(pose proof (Rabs_pos d); lra)). lra. }
  destruct (Rlt_dec (asin (Rabs d)) (PI / 2)); [|contradiction]. f_equal. ring.
Qed.
