From Coq Require Import Reals List Bool Lra Lia Psatz.
From Verif Require Import Common GeoModel GeoSpec GeoProofs AccProofs IterModel IterSpec IterProofs.
Import ListNotations.
Open Scope R_scope.

Lemma ecc_range : forall k, earthlike k -> 0 <= ecc_sqr k <= 1 / 50.
Proof. intros k [A F]. unfold ecc_sqr. nra. Qed.
Lemma eccentric_eq : forall k, eccentric k = ecc_sqr k.
Proof. intros k. unfold eccentric, ecc_sqr. ring. Qed.
Lemma divide_some : forall x y, y <> 0 -> divide x y = Some (x / y).
Proof. intros x y H. unfold divide. destruct (Req_EM_T y 0); [contradiction|reflexivity]. Qed.

Section Loop.
  Variable k : consts.
  Variables p z : R.
  Hypothesis K : earthlike k.
  Hypothesis P : 0 < p.
  Let a : R := k_major k.
  Let e2 : R := ecc_sqr k.
  Let r : R := sqrt (p ^ 2 + z ^ 2).
  Hypothesis Rr : 9 / 10 * a <= r.

  Let A : 0 < a. Proof. exact (proj1 K). Qed.
  Let E2 : 0 <= e2 <= 1 / 50. Proof. exact (ecc_range k K). Qed.

  Definition state_of (x u alt : R) : state := St x (la p z u) alt.

  Lemma latitude_eq : forall xn alt u, 0 < xn + alt -> u = e2 * xn / (xn + alt) -> u <= 1 / 40 ->
    latitude k p z xn alt = Some (la p z u).
  Proof.
    intros xn alt u H E U. unfold latitude. rewrite divide_some by lra. fold e2. rewrite <- E.
    rewrite divide_some by (apply Rmult_integral_contrapositive_currified; lra). reflexivity.
  Qed.
  Lemma once_eq : forall x u alt, okay a x u ->
    once k p z (state_of x u alt) = Some (state_of (nn a e2 p z u) (next a e2 p z x u) (w p z u - x)).
  Proof.
    intros x u alt O. unfold once, state_of. cbn [s_lat s_x0].
    pose proof (den_ge a e2 p z A E2 P Rr x u O) as D. destruct (next_range a e2 p z A E2 P Rr x u O) as [NR [NU _]].
    pose proof (r_pos p z P) as RP. fold r in D, RP.
    rewrite (sin_la p z P u (proj1 O)), (cos_la p z P u (proj1 O)).
    change (k_major k / sqrt (1 - ecc_sqr k * sg p z u)) with (nn a e2 p z u).
    rewrite (latitude_eq _ _ (next a e2 p z x u)); [reflexivity|lra| |lra].
    unfold next. replace (nn a e2 p z u + (w p z u - x)) with (w p z u + nn a e2 p z u - x) by ring. reflexivity.
  Qed.

  Lemma rounds_settle : forall n x u y v done m, okay a x u -> okay a y v -> x = nn a e2 p z v -> u = next a e2 p z y v ->
    apart a x u y v m -> r <= 10 * a -> 12 * m * (13 / 250) ^ n < geodetic_err ->
    exists t c, rounds (S n) k p z (state_of x u (w p z v - y)) done = Some (Some (t, c)).
  Proof.
    induction n as [|n IH]; intros x u y v done m Ou Ov Ex Eu Ap RU M.
    - cbn [rounds]. rewrite once_eq by exact Ou.
      replace (settled _ _ _) with true; [eexists _, _; reflexivity|]. symmetry.
      pose proof (contract a e2 p z A E2 P Rr x u y v m Ou Ov Ap) as [C _]. rewrite <- Eu in C.
      pose proof (proj1 Ou) as U. destruct (next_range a e2 p z A E2 P Rr x u Ou) as [_ [NU _]].
      pose proof (la_diff p z P _ _ NU U) as L.
      pose proof (alt_diff a p z A P Rr x u y v m Ou Ov Ap) as D. fold r in D.
      assert (M0 : 0 <= m) by (destruct Ap as [H _]; pose proof (Rabs_pos (u - v)); lra).
      unfold settled, state_of. cbn [s_lat s_alt]. rewrite pow_O, Rmult_1_r in M.
      destruct (Rlt_dec _ _) as [_|N]; [|exfalso; apply N].
      + destruct (Rlt_dec _ _) as [_|N]; [reflexivity|exfalso; apply N].
        eapply Rle_lt_trans; [|exact M]. apply div_le; [exact A|]. fold a.
        eapply Rle_trans; [exact D|]. pose proof (r_pos p z P). fold r in H.
        apply Rle_trans with ((109 / 100 * (10 * a) + a) * m); [apply Rmult_le_compat_r; lra|]. assert (0 <= m * a) by nra. lra.
      + eapply Rle_lt_trans; [exact L|]. eapply Rle_lt_trans; [|exact M].
        assert (e2 * m <= 1 / 50 * m) by (apply Rmult_le_compat_r; lra). lra.
    - change (rounds (S (S n)) k p z (state_of x u (w p z v - y)) done) with
        (match once k p z (state_of x u (w p z v - y)) with
         | None => None
         | Some t => if settled k (state_of x u (w p z v - y)) t then Some (Some (t, S done)) else rounds (S n) k p z t (S done)
         end).
      rewrite once_eq by exact Ou. destruct (settled _ _ _); [eexists _, _; reflexivity|].
      destruct (next_range a e2 p z A E2 P Rr x u Ou) as [_ NO].
      apply (IH _ _ x u _ (13 / 250 * m)); try assumption; try reflexivity.
      + pose proof (contract a e2 p z A E2 P Rr x u y v m Ou Ov Ap) as [C1 C2]. rewrite <- Eu in C1. rewrite <- Ex in C2.
        assert (M0 : 0 <= m) by (destruct Ap as [H _]; pose proof (Rabs_pos (u - v)); lra).
        assert (13 / 5 * e2 * m <= 13 / 250 * m) by (apply Rmult_le_compat_r; lra).
        split; [lra|]. eapply Rle_trans; [exact C2|]. apply Rmult_le_compat_r; lra.
      + eapply Rle_lt_trans; [|exact M]. right. cbn [pow]. ring.
  Qed.

  Lemma rounds_near : forall xs us, okay a xs us -> xs = nn a e2 p z us -> us = next a e2 p z xs us ->
    forall n x u alt done m t c, okay a x u -> apart a x u xs us m ->
    rounds n k p z (state_of x u alt) done = Some (Some (t, c)) ->
    exists j, (c = done + S j /\ S j <= n)%nat /\
      Rabs (s_lat t - la p z us) <= 53 / 100 * m * (13 / 5 * e2) ^ S j /\
      Rabs (s_alt t - (w p z us - xs)) <= (109 / 100 * r + a) * m * (13 / 5 * e2) ^ j.
  Proof.
    intros xs us Os Xs Us. induction n as [|n IH]; intros x u alt done m t c O Ap E; [discriminate|].
    cbn [rounds] in E. rewrite once_eq in E by exact O.
    pose proof (contract a e2 p z A E2 P Rr x u xs us m O Os Ap) as C. rewrite <- Xs, <- Us in C.
    destruct (next_range a e2 p z A E2 P Rr x u O) as [_ NO].
    destruct (settled _ _ _) in E.
    - injection E as <- <-. exists 0%nat. split; [lia|]. unfold state_of. cbn [s_lat s_alt]. split.
      + eapply Rle_trans; [apply (la_diff p z P); [exact (proj1 NO)|exact (proj1 Os)]|].
        rewrite Rmult_assoc. apply Rmult_le_compat_l; [lra|]. destruct C as [C _]. rewrite pow_1. lra.
      + rewrite pow_O, Rmult_1_r. exact (alt_diff a p z A P Rr x u xs us m O Os Ap).
    - destruct (IH _ _ _ _ _ _ _ NO C E) as (j & J & L & H). exists (S j). split; [lia|]. split.
      + eapply Rle_trans; [exact L|]. right. cbn [pow]. ring.
      + eapply Rle_trans; [exact H|]. right. cbn [pow]. ring.
  Qed.
End Loop.

Lemma hyp_eq : forall v, sqrt (sqrt (vx v ^ 2 + vy v ^ 2) ^ 2 + vz v ^ 2) = sqrt (sq v).
Proof. intros v. rewrite pow2_sqrt by nra. reflexivity. Qed.
Lemma hyp_pos : forall v, (vx v, vy v) <> (0, 0) -> 0 < sqrt (vx v ^ 2 + vy v ^ 2).
Proof.
  intros v H. apply sqrt_lt_R0. destruct (Req_EM_T (vx v) 0) as [X|X].
  - destruct (Req_EM_T (vy v) 0) as [Y|Y]; [rewrite X, Y in H; contradiction|]. nra.
  - nra.
Qed.

(** the first estimates *)
Lemma start_eq : forall k v, earthlike k -> (vx v, vy v) <> (0, 0) -> 9 / 10 * k_major k <= sqrt (sq v) ->
  exists u alt, start k v = Some (state_of (sqrt (vx v ^ 2 + vy v ^ 2)) (vz v) (k_major k) u alt) /\
    0 <= u <= 6 / 5 * ecc_sqr k /\ okay (k_major k) (k_major k) u.
Proof.
  intros k v K O Rr. destruct K as [A F]. pose proof (ecc_range k (conj A F)) as E2.
  unfold start. change (vx v ^ 2 + vy v ^ 2 + vz v ^ 2) with (sq v).
  set (alt := sqrt (sq v) - k_major k * sqrt (1 - k_flat k)).
  assert (Q : sqrt (1 - k_flat k) <= 1) by (apply Rle_trans with (sqrt 1); [apply sqrt_le_1_alt; lra|rewrite sqrt_1; lra]).
  assert (D : 9 / 10 * k_major k <= k_major k + alt) by (unfold alt; nra).
  set (u := ecc_sqr k * k_major k / (k_major k + alt)).
  assert (U : 0 <= u <= 6 / 5 * ecc_sqr k).
  { unfold u. split; [apply Rmult_le_pos; [nra|apply Rlt_le, Rinv_0_lt_compat; lra]|]. apply div_le; [lra|].
    assert (0 <= ecc_sqr k * k_major k) by nra. nra. }
  exists u, alt. rewrite (latitude_eq k _ (vz v) (hyp_pos v O) (k_major k) alt u); [|lra|reflexivity|lra].
  split; [reflexivity|]. split; [exact U|]. split; lra.
Qed.

(** A point around the ellipsoid is always located. *)
Lemma loop_settles : forall k v, earthlike k -> around k v -> exists t c, loop k v = Some (Some (t, c)).
Proof.
  intros k v K (O & R1 & R2). pose proof (hyp_pos v O) as P. pose proof (hyp_eq v) as HE.
  unfold loop. cbv zeta. destruct (start_eq k v K O R1) as (u' & alt' & -> & U' & Ok').
  set (p := sqrt (vx v ^ 2 + vy v ^ 2)) in *. rewrite <- HE in R1, R2. pose proof (ecc_range k K) as E2.
  pose proof (proj1 K) as A.
  change (rounds coord_iters k p (vz v) (state_of p (vz v) (k_major k) u' alt') 0) with
    (match once k p (vz v) (state_of p (vz v) (k_major k) u' alt') with
     | None => None
     | Some t => if settled k (state_of p (vz v) (k_major k) u' alt') t then Some (Some (t, 1%nat)) else rounds 9 k p (vz v) t 1
     end).
  rewrite (once_eq k p (vz v) K P R1 _ _ _ Ok').
  destruct (settled _ _ _); [eexists _, _; reflexivity|].
  destruct (next_range _ _ p (vz v) A E2 P R1 _ _ Ok') as [NR NO].
  apply (rounds_settle k p (vz v) K P R1 8 _ _ (k_major k) u' 1 (1 / 40)); try assumption; try reflexivity.
  - destruct NO as [_ [N1 N2]]. split.
    + apply Rabs_le. lra.
    + rewrite Rabs_right by lra. lra.
  - unfold geodetic_err. lra.
Qed.

(** The coordinates of a point are where the iteration stays. *)
Lemma sq_eq : forall x y, 0 <= x -> 0 <= y -> x ^ 2 = y ^ 2 -> x = y.
Proof. intros x y X Y H. nra. Qed.
Lemma denoted : forall k lat lon h v, earthlike k -> denotes (k_major k) (polar k) (V lat lon h) v ->
  let n := k_major k / sqrt (1 - ecc_sqr k * sin lat ^ 2) in
  v = V ((n + h) * cos lat * cos lon) ((n + h) * cos lat * sin lon) ((n * (1 - ecc_sqr k) + h) * sin lat).
Proof.
  intros k lat lon h v K (foot & lam & H1 & H2 & H3 & H4) n. pose proof (ecc_range k K) as E2. destruct K as [A F].
  set (a := k_major k) in *. set (e2 := ecc_sqr k) in *.
  assert (B : polar k ^ 2 = a ^ 2 * (1 - e2)) by (unfold polar, e2, ecc_sqr, a; ring).
  assert (B0 : 0 < polar k) by (unfold polar; fold a; nra).
  destruct foot as [fx fy fz]. unfold gradient, vscale, zenith in H3. cbn [vx vy vz] in H3.
  pose proof (f_equal vx H3) as G1. pose proof (f_equal vy H3) as G2. pose proof (f_equal vz H3) as G3.
  cbn [vx vy vz] in G1, G2, G3.
  assert (X1 : fx = a ^ 2 * lam / 2 * (cos lat * cos lon)) by (replace fx with (a ^ 2 / 2 * (2 * fx / a ^ 2)) by (field; lra); rewrite G1; field).
  assert (X2 : fy = a ^ 2 * lam / 2 * (cos lat * sin lon)) by (replace fy with (a ^ 2 / 2 * (2 * fy / a ^ 2)) by (field; lra); rewrite G2; field).
  assert (X3 : fz = a ^ 2 * (1 - e2) * lam / 2 * sin lat).
  { replace fz with (polar k ^ 2 / 2 * (2 * fz / polar k ^ 2)) by (field; lra). rewrite G3, B. field. }
  pose proof (sin2_cos2 lat) as S. pose proof (sin2_cos2 lon) as S'.
  assert (G : 49 / 50 <= 1 - e2 * sin lat ^ 2 <= 1).
  { assert (0 <= sin lat ^ 2 <= 1) by nra. nra. }
  assert (N : a ^ 2 * lam / 2 = n).
  { pose proof (sqrt_lt_R0 (1 - e2 * sin lat ^ 2) ltac:(lra)) as Q0. pose proof (pow2_sqrt (1 - e2 * sin lat ^ 2) ltac:(lra)) as Q.
    apply sq_eq.
    - assert (0 < a ^ 2) by nra. nra.
    - unfold n. apply Rlt_le, Rdiv_lt_0_compat; assumption.
    - unfold n. replace ((a / sqrt (1 - e2 * sin lat ^ 2)) ^ 2) with (a ^ 2 / sqrt (1 - e2 * sin lat ^ 2) ^ 2) by (field; lra).
      rewrite Q. unfold on_ellipsoid in H1. cbn [vx vy vz] in H1. rewrite X1, X2, X3, B in H1.
      assert (Hh : a ^ 2 * lam ^ 2 / 4 * (1 - e2 * sin lat ^ 2) = 1).
      { eapply eq_trans; [|exact H1]. replace (1 - e2 * sin lat ^ 2) with (cos lat ^ 2 * (sin lon ^ 2 + cos lon ^ 2) + (1 - e2) * sin lat ^ 2)
          by (rewrite S'; lra). field. split; lra. }
      replace ((a ^ 2 * lam / 2) ^ 2) with (a ^ 2 * (a ^ 2 * lam ^ 2 / 4 * (1 - e2 * sin lat ^ 2)) / (1 - e2 * sin lat ^ 2)) by (field; lra).
      rewrite Hh. field. lra. }
  rewrite H4. unfold vadd, vscale, zenith. cbn [vx vy vz]. rewrite X1, X2, X3.
  replace (a ^ 2 * (1 - e2) * lam / 2) with (n * (1 - e2)) by (rewrite <- N; field). rewrite N.
  f_equal; ring.
Qed.

Lemma n_range : forall k lat, earthlike k ->
  let n := k_major k / sqrt (1 - ecc_sqr k * sin lat ^ 2) in k_major k <= n <= 1011 / 1000 * k_major k.
Proof.
  intros k lat K n. pose proof (ecc_range k K) as E2. destruct K as [A F]. unfold n.
  assert (S : 0 <= sin lat ^ 2 <= 1) by (pose proof (sin2_cos2 lat); nra).
  set (g := 1 - ecc_sqr k * sin lat ^ 2). assert (G : 49 / 50 <= g <= 1) by (unfold g; nra).
  pose proof (sqrt_pos g) as Q0. pose proof (pow2_sqrt g ltac:(lra)) as Q. set (q := sqrt g) in *.
  assert (Qr : 98913 / 100000 <= q <= 1) by nra.
  split; [|apply div_le; [lra|]; nra].
  apply (Rmult_le_reg_r q); [lra|]. unfold Rdiv. rewrite Rmult_assoc, Rinv_l by lra. nra.
Qed.

Lemma stays : forall k lat lon h v, earthlike k -> denotes (k_major k) (polar k) (V lat lon h) v ->
  - (PI / 2) < lat < PI / 2 -> - k_major k / 20 <= h ->
  let p := sqrt (vx v ^ 2 + vy v ^ 2) in
  let n := k_major k / sqrt (1 - ecc_sqr k * sin lat ^ 2) in
  let u := ecc_sqr k * n / (n + h) in
  (vx v, vy v) <> (0, 0) /\ 9 / 10 * k_major k <= sqrt (sq v) /\ okay (k_major k) n u /\
  0 <= u <= 6 / 5 * ecc_sqr k /\
  nn (k_major k) (ecc_sqr k) p (vz v) u = n /\ next (k_major k) (ecc_sqr k) p (vz v) n u = u /\
  la p (vz v) u = lat /\ w p (vz v) u - n = h.
Proof.
  intros k lat lon h v K D L H p n u.
  pose proof (denoted k lat lon h v K D) as V. cbv zeta in V. fold n in V.
  pose proof (ecc_range k K) as E2. pose proof (n_range k lat K) as N. cbv zeta in N. fold n in N.
  destruct K as [A F]. set (a := k_major k) in *. set (e2 := ecc_sqr k) in *.
  assert (C : 0 < cos lat) by (apply cos_gt_0; lra).
  pose proof (sin2_cos2 lat) as S. pose proof (sin2_cos2 lon) as S'.
  assert (HP : vx v ^ 2 + vy v ^ 2 = ((n + h) * cos lat) ^ 2).
  { rewrite V. cbn [vx vy]. replace (((n + h) * cos lat) ^ 2) with (((n + h) * cos lat) ^ 2 * (sin lon ^ 2 + cos lon ^ 2)) by (rewrite S'; ring). ring. }
  assert (PC : 0 < (n + h) * cos lat) by nra.
  assert (Pe : p = (n + h) * cos lat) by (unfold p; rewrite HP; apply sqrt_pow2; lra).
  assert (Vz : vz v = (n * (1 - e2) + h) * sin lat) by (rewrite V; reflexivity).
  assert (O : (vx v, vy v) <> (0, 0)).
  { intros Z. injection Z as Z1 Z2. rewrite Z1, Z2 in HP. assert (0 < ((n + h) * cos lat) ^ 2) by (apply pow_lt; exact PC). lra. }
  assert (M : 93 / 100 * a <= n * (1 - e2) + h) by nra.
  assert (Rr : 9 / 10 * a <= sqrt (sq v)).
  { rewrite <- (sqrt_pow2 (9 / 10 * a)) by lra. apply sqrt_le_1_alt. unfold sq. rewrite HP, Vz.
    set (m := n * (1 - e2) + h) in *. assert (m <= n + h) by (unfold m; nra).
    apply Rle_trans with (m ^ 2); [nra|].
    apply Rle_trans with (m ^ 2 * (sin lat ^ 2 + cos lat ^ 2)); [rewrite S; lra|].
    assert (m ^ 2 <= (n + h) ^ 2) by nra. assert (0 <= cos lat ^ 2) by nra. nra. }
  assert (U : 0 <= u <= 6 / 5 * e2).
  { unfold u. split; [apply Rmult_le_pos; [nra|apply Rlt_le, Rinv_0_lt_compat; lra]|]. apply div_le; [lra|].
    assert (n <= 6 / 5 * (n + h)) by lra. nra. }
  assert (U' : 0 <= u <= 1 / 40) by lra.
  assert (P : 0 < p) by lra.
  assert (La : la p (vz v) u = lat).
  { unfold la. rewrite <- (atan_tan lat) by lra. f_equal. unfold tan. rewrite Pe, Vz.
    assert (X : (n + h) * (1 - u) = n * (1 - e2) + h) by (unfold u; field; lra).
    replace ((n + h) * cos lat * (1 - u)) with (cos lat * (n * (1 - e2) + h)) by (rewrite <- X; ring).
    field. lra. }
  assert (W : w p (vz v) u = n + h).
  { rewrite <- (cos_la p (vz v) P u U'), La, Pe. field. lra. }
  assert (Nn : nn a e2 p (vz v) u = n).
  { unfold nn. rewrite <- (sin_la p (vz v) P u U'), La. unfold n. do 3 f_equal. ring. }
  repeat split; try assumption; try lra.
  unfold next. rewrite Nn, W. unfold u. replace (n + h + n - n) with (n + h) by ring. reflexivity.
Qed.
