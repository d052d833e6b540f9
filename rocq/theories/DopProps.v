(** Theorems about visible surfaces, Doppler angles and look angles. *)
From Coq Require Import Reals List Bool Sorted Lra Psatz.
From Verif Require Import Common GeoModel GeoSpec GeoProofs BeamModel BeamSpec BeamProofs BeamProps DopModel DopSpec DopProofs.
Import ListNotations.
Open Scope R_scope.

(** * C84: a surface is visible when its Doppler shift is unambiguous *)

(** When the angles are defined: otherwise the run stops with a ValueError
    (first part) or the angle is not a number (second part). *)
Theorem C84_defined : forall k prf freq, 0 < k_c k -> 0 < prf -> 0 < freq -> forall pos vel p,
  ((exists q, q_min k prf freq vel = Some q) <-> vel <> V 0 0 0 /\ k_c k * prf <= 4 * freq * len vel) /\
  ((exists b, beam_angle pos vel p = Some b) <-> vel <> V 0 0 0 /\ p <> pos) /\
  (forall b, beam_angle pos vel p = Some b ->
     0 <= b <= PI /\ cos b = inner (vsub p pos) vel / (len (vsub p pos) * len vel)).
Proof.
  intros k prf freq C P F pos vel p. split; [apply q_iff; assumption|].
  assert (D : {p = pos \/ vel = V 0 0 0} + {vel <> V 0 0 0 /\ p <> pos}).
  { destruct (Req_EM_T (len vel) 0) as [E|E]; [left; right; apply len_0; exact E|].
    destruct (Req_EM_T (len (vsub p pos)) 0) as [E2|E2]; [left; left; apply vsub_0, len_0; exact E2|].
    right. split; intro X; [apply E, len_0, X|apply E2, len_0, vsub_0, X]. }
  destruct D as [D|[V0 N]].
  - rewrite (beam_angle_none pos vel p D). split; [|discriminate]. split; [intros [b B]; discriminate|]. tauto.
  - rewrite (beam_angle_eq pos vel p N V0). split; [split; [auto|eauto]|]. intros b B. injection B as <-.
    split; [apply acos_bound|]. apply cos_acos, cosine_in; [rewrite vsub_0|]; assumption.
Qed.
Print Assumptions C84_defined.

(** Without a Doppler angle correction a surface is visible exactly when the
    Doppler shift of its echo is at most half the pulse repetition frequency;
    with a correction the same holds of the corrected angle. *)
Theorem C84_visible : forall k prf freq pos vel p q b, 0 < k_c k -> 0 < prf -> 0 < freq -> k_pi k = PI ->
  q_min k prf freq vel = Some q -> beam_angle pos vel p = Some b ->
  (in_range k q (Some 0) (Some b) = true <-> Rabs (doppler_shift (k_c k) freq pos vel p) <= prf / 2) /\
  (forall d, in_range k q (Some d) (Some b) = true <->
     0 <= b - d <= PI /\ Rabs (2 * freq * (len vel * cos (b - d)) / k_c k) <= prf / 2) /\
  in_range k q None (Some b) = false.
Proof.
  intros k prf freq pos vel p q b C P F K Q B.
  destruct (q_eq k prf freq vel q P F Q) as [V0 [Cq [Bq _]]].
  assert (N : p <> pos) by (intro E; rewrite (beam_angle_none pos vel p (or_introl E)) in B; discriminate).
  pose proof (len_pos _ V0) as L.
  assert (Np : vsub p pos <> V 0 0 0) by (rewrite vsub_0; exact N). pose proof (len_pos _ Np) as L2.
  assert (G : forall d, in_range k q (Some d) (Some b) = true <->
     0 <= b - d <= PI /\ Rabs (2 * freq * (len vel * cos (b - d)) / k_c k) <= prf / 2).
  { intro d. unfold in_range. rewrite K.
    assert (E : 2 * freq * (len vel * cos (b - d)) / k_c k = (2 * freq * len vel / k_c k) * cos (b - d)) by (field; lra).
    assert (Pos : 0 < 2 * freq * len vel / k_c k) by (apply Rdiv_lt_0_compat; nra).
    rewrite E, Rabs_mult, (Rabs_pos_eq (2 * freq * len vel / k_c k)) by lra.
    assert (H : Rabs (cos (b - d)) <= cos q <-> 2 * freq * len vel / k_c k * Rabs (cos (b - d)) <= prf / 2).
    { rewrite Cq. assert (X : prf / 2 = 2 * freq * len vel / k_c k * (k_c k * prf / (4 * freq * len vel))) by (field; lra).
      rewrite X. split; intro Y; [apply Rmult_le_compat_l; lra|apply Rmult_le_reg_l in Y; assumption]. }
    rewrite <- H, <- (band q (b - d) Bq).
    destruct (Rle_dec q (b - d)); destruct (Rle_dec (b - d) (PI - q)); cbn; split; intro Y; try discriminate; try tauto; lra. }
  split; [|split; [exact G|reflexivity]].
  rewrite (G 0), Rminus_0_r. rewrite (beam_angle_eq pos vel p N V0) in B. injection B as <-.
  rewrite cos_acos by (apply cosine_in; assumption).
  assert (E : 2 * freq * (len vel * (inner (vsub p pos) vel / (len (vsub p pos) * len vel))) / k_c k
              = doppler_shift (k_c k) freq pos vel p) by (unfold doppler_shift; field; repeat split; lra).
  rewrite E. pose proof (acos_bound (inner (vsub p pos) vel / (len (vsub p pos) * len vel))). tauto.
Qed.
Print Assumptions C84_visible.

(** No visible surface is missed: when the beam angles do not increase along
    the list of surfaces (for instance on a straight line in the direction of
    flight), the scan, which stops at the first surface that is out of sight
    again, finds all visible ones (the last [N] if there are more). *)
Theorem C84_complete : forall N k prf freq pos vel d work surfs q, 0 < prf -> 0 < freq ->
  q_min k prf freq vel = Some q -> (forall s, In s surfs -> snd s <> pos) ->
  (exists p0, straight_track p0 vel surfs) \/
  StronglySorted (fun s t => inner (vsub (snd s) pos) vel / len (vsub (snd s) pos)
                             <= inner (vsub (snd t) pos) vel / len (vsub (snd t) pos)) surfs ->
  let vis s := in_range k q (Some d) (beam_angle pos vel (snd s)) in
  burst_beams N k prf freq pos vel (Some d) work surfs =
  Some (map (fun s => (beam_angle pos vel (snd s), fst s)) (last_n N (filter vis surfs)),
        existsb work (filter vis surfs)).
Proof.
  intros N k prf freq pos vel d work surfs q P F Q Ne H vis. unfold burst_beams. rewrite Q.
  destruct (q_eq k prf freq vel q P F Q) as [V0 _]. pose proof (len_pos _ V0) as L.
  set (f := fun s : nat * vec => acos (inner (vsub (snd s) pos) vel / (len (vsub (snd s) pos) * len vel))).
  assert (FR : first_run vis surfs = filter vis surfs).
  { apply (run_filter _ f (q + d) (k_pi k - q + d)).
    - intros s I. unfold vis. rewrite (beam_angle_eq pos vel (snd s) (Ne s I) V0). fold (f s). unfold in_range.
      destruct (Rle_dec q (f s - d)); destruct (Rle_dec (f s - d) (k_pi k - q)); cbn; split; intro Y; try discriminate; try lra; reflexivity.
    - assert (Step : forall s t : nat * vec, snd s <> pos -> snd t <> pos ->
        inner (vsub (snd s) pos) vel / (len (vsub (snd s) pos) * len vel) <=
        inner (vsub (snd t) pos) vel / (len (vsub (snd t) pos) * len vel) -> f t <= f s).
      { intros s t Ns Nt X. unfold f.
        assert (As : vsub (snd s) pos <> V 0 0 0) by (rewrite vsub_0; exact Ns).
        assert (At : vsub (snd t) pos <> V 0 0 0) by (rewrite vsub_0; exact Nt).
        pose proof (cosine_in _ _ As V0). pose proof (cosine_in _ _ At V0). apply acos_decr; lra. }
      destruct H as [[p0 [ts [Ts E]]]|H].
      + revert surfs Ne Ts E. induction ts as [|t ts IH]; intros [|s surfs] Ne Ts E; try discriminate; [constructor|].
        cbn [map] in E. injection E as E1 E2. apply sorted_forall in Ts. destruct Ts as [Ts Lt].
        constructor; [apply IH; [intros x X; apply Ne; right; exact X|exact Ts|exact E2]|].
        apply Forall_forall. intros x X. apply Step; [apply Ne; left; reflexivity|apply Ne; right; exact X|].
        assert (I : In (snd x) (map snd surfs)) by (apply in_map; exact X). rewrite E2 in I. apply in_map_iff in I.
        destruct I as [t' [Et It]]. rewrite E1, <- Et. specialize (Lt t' It).
        apply (cosine_along pos p0 vel t t' V0); [lra| |].
        * rewrite <- E1. apply Ne. left. reflexivity.
        * rewrite Et. apply Ne. right. exact X.
      + revert Ne H. induction surfs as [|s surfs IH]; intros Ne H; [constructor|].
        apply sorted_forall in H. destruct H as [Hs Hx].
        constructor; [apply IH; [intros x X; apply Ne; right; exact X|exact Hs]|].
        apply Forall_forall. intros x X. apply Step; [apply Ne; left; reflexivity|apply Ne; right; exact X|].
        specialize (Hx x X). unfold Rdiv in *. rewrite !Rinv_mult, <- !Rmult_assoc.
        apply Rmult_le_compat_r; [apply Rlt_le, Rinv_0_lt_compat; exact L|exact Hx]. }
  destruct (C15_beam_list (nat * vec) (option R) N vis (fun s => beam_angle pos vel (snd s)) fst work surfs) as [E1 [_ E2]].
  rewrite FR in E1, E2. fold vis.
  destruct (beam_angles N vis (fun s => beam_angle pos vel (snd s)) fst work surfs) as [l w]. cbn [fst snd] in E1, E2.
  rewrite E1, E2. reflexivity.
Qed.
Print Assumptions C84_complete.

Definition ex_k : consts := {| k_c := 4; k_pi := PI; k_major := 2; k_minor := 2; k_flat := 0; k_day := 86400 |}.
(** half the velocity is the limit here: the surface below is visible, the one
    ahead is not *)
Example C84_example : q_min ex_k 1 1 (V 2 0 0) = Some (acos (1 / 2)) /\
  k_c ex_k * 1 <= 4 * 1 * len (V 2 0 0) /\
  doppler_shift 4 1 (V 0 0 0) (V 2 0 0) (V 0 0 (-1)) = 0 /\
  doppler_shift 4 1 (V 0 0 0) (V 2 0 0) (V 1 0 0) = 1 /\
  straight_track (V 0 0 (-1)) (V 2 0 0) [(0%nat, V (-2) 0 (-1)); (1%nat, V 0 0 (-1)); (2%nat, V 2 0 (-1))].
Proof.
  assert (L : len (V 2 0 0) = 2).
  { unfold len, inner. cbn [vx vy vz]. replace (2 * 2 + 0 * 0 + 0 * 0) with (2 * 2) by ring. apply sqrt_square. lra. }
  split; [|split; [rewrite L; cbn; lra|split; [|split]]].
  - unfold q_min. rewrite norm_len, L. destruct (Req_EM_T 2 0); [lra|]. cbn [k_c ex_k].
    replace (4 / (1 / 1) / 4 / 1 / 2) with (1 / 2) by field. apply arccos_in. lra.
  - unfold doppler_shift, inner, vsub. cbn [vx vy vz].
    replace ((0 - 0) * 2 + (0 - 0) * 0 + (-1 - 0) * 0) with 0 by ring. unfold Rdiv. ring.
  - unfold doppler_shift, inner, vsub. cbn [vx vy vz].
    assert (E : len (V (1 - 0) (0 - 0) (0 - 0)) = 1).
    { unfold len, inner. cbn [vx vy vz]. replace ((1 - 0) * (1 - 0) + (0 - 0) * (0 - 0) + (0 - 0) * (0 - 0)) with 1 by ring. apply sqrt_1. }
    rewrite E. field.
  - exists [-1; 0; 1]. split.
    + repeat constructor; lra.
    + unfold vadd, vscale. cbn. repeat f_equal; ring.
Qed.

(** * C85: Doppler and look angles *)

(** The Doppler angle is minus the size of the angle between the velocity and
    the horizontal plane, whether the satellite climbs or descends, and does
    not depend on the mean altitude used to compute it. *)
Theorem C85_doppler : forall k mean lla vel, oblate k -> k_pi k = PI -> mean <> 0 -> vel <> V 0 0 0 ->
  let d := descent (vx lla) (vy lla) vel in
  -1 <= d <= 1 /\
  (Rabs d < 1 -> doppler_angle k mean lla vel = Some (- asin (Rabs d))) /\
  (forall a, doppler_angle k mean lla vel = Some a -> - (PI / 2) <= a <= 0).
Proof.
  intros k mean lla vel O P M V0 d. destruct (descent_sq (vx lla) (vy lla) vel V0) as [Q B]. fold d in Q, B.
  split; [exact B|]. split; [apply doppler_eq; assumption|].
  intros a H. destruct (Rlt_le_dec (Rabs d) 1) as [L|L].
  - rewrite (doppler_eq k mean lla vel O P M V0 L) in H. injection H as <-.
    pose proof (asin_bound (Rabs d)). pose proof (Rabs_pos d).
    rewrite (asin_acos (Rabs d)) in * by lra. pose proof (acos_decr 0 (Rabs d) ltac:(lra) ltac:(lra) ltac:(lra)) as Z.
    rewrite acos_0 in Z. fold d. rewrite (asin_acos (Rabs d)) by lra. lra.
  - (* parallel to the normal: the projection vanishes and the angle is not a number *)
    exfalso. assert (A : Rabs d = 1) by (apply Rle_antisym; [apply Rabs_le; lra|exact L]).
    unfold doppler_angle in H. destruct lla as [lat lon alt]. cbn [vx vy vz] in *.
    rewrite (at_height k lat lon alt O), (at_height k lat lon (alt - mean) O) in H.
    assert (En : vsub (vadd (lla2ecef k false (V lat lon 0)) (vscale (alt - mean) (zenith lat lon)))
                    (vadd (lla2ecef k false (V lat lon 0)) (vscale alt (zenith lat lon))) = vscale (- mean) (zenith lat lon)).
    { unfold vsub, vadd, vscale. destruct (zenith lat lon), (lla2ecef k false (V lat lon 0)). cbn. f_equal; ring. }
    rewrite En in H.
    destruct (across (zenith lat lon) vel (- mean) (zenith_unit lat lon)) as [_ I2]. cbv zeta in I2.
    set (m := cross (cross (vscale (- mean) (zenith lat lon)) vel) (vscale (- mean) (zenith lat lon))) in *. clearbody m.
    assert (D2 : d ^ 2 = 1).
    { replace (d ^ 2) with (Rabs d * Rabs d); [rewrite A; ring|]. rewrite <- Rabs_mult, Rabs_pos_eq; [ring|nra]. }
    rewrite <- Q, D2 in I2. assert (Z : inner m m = 0) by (rewrite I2; ring).
    unfold angle_between in H. rewrite !norm_len in H.
    assert (Lm : len m = 0) by (unfold len; rewrite Z; apply sqrt_0). rewrite Lm, Rmult_0_r in H.
    destruct (Req_EM_T 0 0); [discriminate|contradiction].
Qed.
Print Assumptions C85_doppler.

(** The look angle of the point below the satellite, as computed: zero when the
    satellite does not climb, otherwise twice the angle of climb. *)
Theorem C85_nadir_look_partial : forall k mean lat lon alt h vel dop b, oblate k -> k_pi k = PI -> mean <> 0 -> vel <> V 0 0 0 ->
  h < alt -> let d := descent lat lon vel in Rabs d < 1 ->
  doppler_angle k mean (V lat lon alt) vel = Some dop ->
  beam_angle (lla2ecef k false (V lat lon alt)) vel (lla2ecef k false (V lat lon h)) = Some b ->
  (0 <= d -> look_angle k dop b = 0) /\
  (d < 0 -> look_angle k dop b = 2 * asin d) /\
  (forall pitch, pointing_angle k dop b pitch = look_angle k dop b - pitch).
Proof.
  intros k mean lat lon alt h vel dop b O P M V0 Hh d D E B.
  pose proof (doppler_eq k mean (V lat lon alt) vel O P M V0 D) as E2. cbn [vx vy vz] in E2. fold d in E2.
  rewrite E in E2. injection E2 as ->.
  rewrite (at_height k lat lon alt O), (at_height k lat lon h O) in B.
  set (p0 := lla2ecef k false (V lat lon 0)) in *.
  assert (En : vsub (vadd p0 (vscale h (zenith lat lon))) (vadd p0 (vscale alt (zenith lat lon))) = vscale (h - alt) (zenith lat lon)).
  { unfold vsub, vadd, vscale. destruct (zenith lat lon), p0. cbn. f_equal; ring. }
  assert (Nz : zenith lat lon <> V 0 0 0).
  { intro X. pose proof (zenith_unit lat lon) as U. rewrite X in U. unfold inner in U. cbn in U. lra. }
  assert (N : vadd p0 (vscale h (zenith lat lon)) <> vadd p0 (vscale alt (zenith lat lon))).
  { rewrite <- vsub_0, En. intro X. apply len_0 in X. unfold len in X.
    assert (Y : inner (vscale (h - alt) (zenith lat lon)) (vscale (h - alt) (zenith lat lon)) = (h - alt) ^ 2 * inner (zenith lat lon) (zenith lat lon)).
    { unfold inner, vscale. destruct (zenith lat lon). cbn. ring. }
    rewrite Y, zenith_unit in X. apply sqrt_eq_0 in X; nra. }
  rewrite (beam_angle_eq _ _ _ N V0), En in B. injection B as <-.
  assert (C : inner (vscale (h - alt) (zenith lat lon)) vel / (len (vscale (h - alt) (zenith lat lon)) * len vel) = d).
  { assert (Y : inner (vscale (h - alt) (zenith lat lon)) (vscale (h - alt) (zenith lat lon)) = (alt - h) * (alt - h)).
    { assert (Y0 : inner (vscale (h - alt) (zenith lat lon)) (vscale (h - alt) (zenith lat lon)) = (h - alt) * (h - alt) * inner (zenith lat lon) (zenith lat lon)).
      { unfold inner, vscale. destruct (zenith lat lon). cbn. ring. }
      rewrite Y0, zenith_unit. ring. }
    assert (Ln : len (vscale (h - alt) (zenith lat lon)) = alt - h) by (unfold len; rewrite Y; apply sqrt_square; lra).
    rewrite Ln. unfold d, descent. pose proof (len_pos _ V0).
    assert (I : inner (vscale (h - alt) (zenith lat lon)) vel = (h - alt) * inner vel (zenith lat lon)).
    { unfold inner, vscale. destruct (zenith lat lon), vel. cbn. ring. }
    rewrite I. field. lra. }
  rewrite C. assert (Bd : -1 <= d <= 1) by (apply (descent_sq lat lon vel V0)).
  unfold look_angle. rewrite P, (acos_asin d) by lra. split; [|split].
  - intro D0. rewrite (Rabs_pos_eq d) by exact D0. ring.
  - intro D0. rewrite (Rabs_left d) by exact D0. rewrite asin_opp. ring.
  - intro pitch. unfold pointing_angle, look_angle. rewrite P. reflexivity.
Qed.
Print Assumptions C85_nadir_look_partial.

Lemma asin_neg : forall x, -1 <= x < 0 -> asin x < 0.
Proof.
  intros x H. destruct (Rlt_le_dec (asin x) 0) as [L|L]; [exact L|]. exfalso.
  pose proof (sin_asin x ltac:(lra)) as S. pose proof (asin_bound x).
  assert (0 <= sin (asin x)) by (apply sin_ge_0; pose proof PI_RGT_0; lra). lra.
Qed.
(** "The look angle of the point straight below is zero" is false for a
    climbing satellite. *)
Theorem C85_nadir_look_refuted : exists k mean lat lon alt h vel dop b, oblate k /\ k_pi k = PI /\ 0 < mean /\
  vel <> V 0 0 0 /\ h < alt /\
  doppler_angle k mean (V lat lon alt) vel = Some dop /\
  beam_angle (lla2ecef k false (V lat lon alt)) vel (lla2ecef k false (V lat lon h)) = Some b /\
  look_angle k dop b < 0.
Proof.
  assert (O : oblate ex_k) by (unfold oblate; cbn; lra).
  assert (V0 : V 3 4 0 <> V 0 0 0) by (intro X; injection X; lra).
  assert (L : len (V 3 4 0) = 5).
  { unfold len, inner. cbn [vx vy vz]. replace (3 * 3 + 4 * 4 + 0 * 0) with (5 * 5) by ring. apply sqrt_square. lra. }
  assert (D : descent 0 0 (V 3 4 0) = - (3 / 5)).
  { unfold descent. rewrite L. unfold inner, zenith. cbn [vx vy vz]. rewrite cos_0, sin_0. field. }
  assert (A : Rabs (descent 0 0 (V 3 4 0)) < 1) by (rewrite D, Rabs_Ropp, Rabs_pos_eq; lra).
  pose proof (doppler_eq ex_k 1 (V 0 0 1) (V 3 4 0) O eq_refl ltac:(lra) V0 A) as E. cbn [vx vy] in E.
  assert (P1 : lla2ecef ex_k false (V 0 0 1) = V 3 0 0).
  { rewrite lla2ecef_eq by exact O. cbv zeta. cbn [k_major k_minor ex_k]. rewrite cos_0, sin_0.
    unfold N_of. rewrite ?sin_0. replace (1 - (1 - (2 / 2) ^ 2) * 0 ^ 2) with 1 by field. rewrite sqrt_1. f_equal; field. }
  assert (P0 : lla2ecef ex_k false (V 0 0 0) = V 2 0 0).
  { rewrite lla2ecef_eq by exact O. cbv zeta. cbn [k_major k_minor ex_k]. rewrite cos_0, sin_0.
    unfold N_of. rewrite ?sin_0. replace (1 - (1 - (2 / 2) ^ 2) * 0 ^ 2) with 1 by field. rewrite sqrt_1. f_equal; field. }
  assert (N : V 2 0 0 <> V 3 0 0) by (intro X; injection X; lra).
  pose proof (beam_angle_eq (V 3 0 0) (V 3 4 0) (V 2 0 0) N V0) as B. rewrite <- P0, <- P1 in B.
  exists ex_k, 1, 0, 0, 1, 0, (V 3 4 0). do 2 eexists.
  split; [exact O|]. split; [reflexivity|]. split; [lra|]. split; [exact V0|]. split; [lra|].
  split; [exact E|]. split; [exact B|].
  destruct (C85_nadir_look_partial ex_k 1 0 0 1 0 (V 3 4 0) _ _ O eq_refl ltac:(lra) V0 ltac:(lra) A E B) as [_ [H _]].
  rewrite H by (rewrite D; lra). rewrite D. pose proof (asin_neg (- (3 / 5)) ltac:(lra)). lra.
Qed.
Print Assumptions C85_nadir_look_refuted.
(** The hypotheses are satisfiable: descending at the same angle. *)
Example C85_example : descent 0 0 (V (-3) 4 0) = 3 / 5 /\
  doppler_angle ex_k 1 (V 0 0 1) (V (-3) 4 0) = Some (- asin (3 / 5)) /\
  doppler_angle ex_k 1 (V 0 0 1) (V 3 4 0) = Some (- asin (3 / 5)).
Proof.
  assert (O : oblate ex_k) by (unfold oblate; cbn; lra).
  assert (H : forall a, a = 3 \/ a = -3 -> descent 0 0 (V a 4 0) = - a / 5 /\ doppler_angle ex_k 1 (V 0 0 1) (V a 4 0) = Some (- asin (3 / 5))).
  { intros a Ha. assert (V0 : V a 4 0 <> V 0 0 0) by (intro X; injection X; lra).
    assert (L : len (V a 4 0) = 5).
    { unfold len, inner. cbn [vx vy vz]. replace (a * a + 4 * 4 + 0 * 0) with (5 * 5) by nra. apply sqrt_square. lra. }
    assert (D : descent 0 0 (V a 4 0) = - a / 5).
    { unfold descent. rewrite L. unfold inner, zenith. cbn [vx vy vz]. rewrite cos_0, sin_0. field. }
    assert (A : Rabs (descent 0 0 (V a 4 0)) = 3 / 5).
    { rewrite D. destruct Ha as [-> | ->]; [rewrite Rabs_left by lra|rewrite Rabs_pos_eq by lra]; lra. }
    split; [exact D|]. rewrite (doppler_eq ex_k 1 (V 0 0 1) (V a 4 0) O eq_refl ltac:(lra) V0); cbn [vx vy]; rewrite A; [reflexivity|lra]. }
  destruct (H (-3) (or_intror eq_refl)) as [H1 H2]. destruct (H 3 (or_introl eq_refl)) as [_ H3].
  split; [rewrite H1; lra|]. split; assumption.
Qed.
