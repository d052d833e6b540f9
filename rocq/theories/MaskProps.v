(** C26, C27, C28. *)
From Coq Require Import List ZArith QArith Qround Bool Lia Lqa.
From Coq Require Import ZifyBool ZifyNat.
From Verif Require Import Common MaskModel MaskSpec MaskProofs.
Import ListNotations.
Local Open Scope Z_scope.

(** C28: the geometry mask of a beam shifted by q, rounded to the nearest sample
    (halves to even), keeps exactly the samples that were not wrapped. *)
Theorem C28_exactly_wrapped : forall N zp q s j, nearest_even q s -> (j < N * zp)%nat ->
  exists v, nth_error (geometry_row N zp q) j = Some v /\
    (v = 0 \/ v = 1) /\ (v = 1 <-> not_wrapped N zp s j).
Proof.
  intros N zp q s j Hs Hj. pose proof (nearest_even_unique q _ _ (np_round_nearest q) Hs) as <-.
  rewrite geometry_row_at by auto. eexists. split; [reflexivity|].
  destruct (nw_b N zp (np_round q) j) eqn:E.
  - split; auto. split; auto. intros _. apply nw_spec; auto.
  - split; auto. split; [discriminate|]. intro H. apply nw_spec in H. congruence.
Qed.
Print Assumptions C28_exactly_wrapped.

(** C28: in numbers: the first s*zp samples are removed for s > 0, the last
    |s|*zp for s < 0, everything when |s| >= N. *)
Theorem C28_counts : forall N zp q s, nearest_even q s ->
  (0 < s < Z.of_nat N -> geometry_row N zp q =
     repeat 0 (Z.to_nat s * zp) ++ repeat 1 ((N - Z.to_nat s) * zp)) /\
  (- Z.of_nat N < s <= 0 -> geometry_row N zp q =
     repeat 1 ((N - Z.to_nat (- s)) * zp) ++ repeat 0 (Z.to_nat (- s) * zp)) /\
  (Z.of_nat N <= Z.abs s -> geometry_row N zp q = repeat 0 (N * zp)).
Proof.
  intros N zp q s Hs. pose proof (nearest_even_unique q _ _ (np_round_nearest q) Hs) as Es.
  assert (EXT : forall a b : list Z, length a = length b ->
    (forall j, (j < length a)%nat -> nth_error a j = nth_error b j) -> a = b).
  { induction a as [|x a IH]; intros [|y b] HL H; cbn in HL; try discriminate; auto.
    f_equal.
    - specialize (H 0%nat). cbn in H. assert (Some x = Some y) by (apply H; lia). congruence.
    - apply IH; [lia|]. intros j Hj. apply (H (S j)). cbn. lia. }
  assert (RP : forall (x y : Z) a b j, (j < a + b)%nat ->
     nth_error (repeat x a ++ repeat y b) j = Some (if Nat.ltb j a then x else y)).
  { intros x y a b j Hj. destruct (Nat.ltb_spec j a).
    - rewrite nth_error_app1 by (rewrite repeat_length; auto). apply nth_error_repeat; auto.
    - rewrite nth_error_app2 by (rewrite repeat_length; auto). apply nth_error_repeat.
      rewrite repeat_length. lia. }
  repeat split; intro H.
  - apply EXT. { rewrite geometry_row_length, app_length, !repeat_length. nia. }
    intros j Hj. rewrite geometry_row_length in Hj. rewrite geometry_row_at, RP by (auto; nia).
    f_equal. rewrite Es. unfold nw_b. replace (0 <? s) with true by lia.
    replace (s * Z.of_nat zp) with (Z.of_nat (Z.to_nat s * zp)) by nia.
    destruct (Nat.ltb_spec j (Z.to_nat s * zp)).
    + replace (Z.of_nat (Z.to_nat s * zp) <=? Z.of_nat j) with false by lia. auto.
    + replace (Z.of_nat (Z.to_nat s * zp) <=? Z.of_nat j) with true by lia. auto.
  - apply EXT. { rewrite geometry_row_length, app_length, !repeat_length. nia. }
    intros j Hj. rewrite geometry_row_length in Hj. rewrite geometry_row_at, RP by (auto; nia).
    f_equal. rewrite Es. unfold nw_b. replace (0 <? s) with false by lia.
    replace ((Z.of_nat N - Z.abs s) * Z.of_nat zp) with (Z.of_nat ((N - Z.to_nat (- s)) * zp)) by nia.
    destruct (Nat.ltb_spec j ((N - Z.to_nat (- s)) * zp)).
    + replace (Z.of_nat j <? Z.of_nat ((N - Z.to_nat (- s)) * zp)) with true by lia. auto.
    + replace (Z.of_nat j <? Z.of_nat ((N - Z.to_nat (- s)) * zp)) with false by lia. auto.
  - apply EXT. { rewrite geometry_row_length, !repeat_length. auto. }
    intros j Hj. rewrite geometry_row_length in Hj. rewrite geometry_row_at, nth_error_repeat by auto.
    rewrite Es. unfold nw_b. destruct (0 <? s) eqn:E0.
    + replace (s * Z.of_nat zp <=? Z.of_nat j) with false by nia. auto.
    + replace (Z.of_nat j <? (Z.of_nat N - Z.abs s) * Z.of_nat zp) with false by nia. auto.
Qed.
Print Assumptions C28_counts.

Example C28_ex_round : np_round (5#2) = 2 /\ np_round (7#2) = 4 /\ np_round (-(1#2)) = 0
  /\ np_round (-(3#2)) = -2 /\ np_round (8#3) = 3.
Proof. repeat split. Qed.
Example C28_ex_half : nearest_even (5#2) 2.
Proof. split; [split; vm_compute; discriminate|]. reflexivity. Qed.
Example C28_ex : geometry_row 4 2 (5#4) = [0; 0; 1; 1; 1; 1; 1; 1]
  /\ geometry_row 4 2 (-(3#1)) = [1; 1; 0; 0; 0; 0; 0; 0] /\ geometry_row 2 2 (9#2) = [0; 0; 0; 0].
Proof. repeat split. Qed.

(* ------------------------------------------------------------------ *)

Lemma masks_row : forall N zp nlooks size lo hi shift look i, (i < nlooks)%nat ->
  nth_error (stack_masks true N zp nlooks size lo hi shift look) i =
  let g := if Nat.ltb i (Nat.min size nlooks) then geometry_row N zp (shift i)
           else repeat 0 (N * zp)%nat in
  let a := match lo, hi with
           | Some l, Some h =>
               if Nat.ltb i (Nat.min size nlooks)
               then repeat (if strictly_between l (look i) h then 1 else 0) (N * zp)%nat
               else repeat 1 (N * zp)%nat
           | _, _ => repeat 1 (N * zp)%nat
           end in
  let row := mul_rows (mul_rows g (repeat 1 (N * zp)%nat)) a in
  Some (row, mask_vector row).
Proof.
  intros N zp nlooks size lo hi shift look i Hi. unfold stack_masks, combine_masks.
  rewrite nth_error_map. cbv zeta.
  erewrite zip3_at; [reflexivity| | |].
  - unfold geometry_mask. rewrite nth_error_seq_map by auto. reflexivity.
  - unfold ambiguity_mask. apply nth_error_repeat. auto.
  - unfold angle_mask. destruct lo as [l|]; [destruct hi as [h|]|];
      rewrite ?nth_error_seq_map by auto; try apply nth_error_repeat; auto.
Qed.

(** C26: a sample of the combined mask is zero or one; it is one exactly when
    the beam belongs to the stack, the geometry keeps the sample, and the look
    angle is strictly inside the limits (no limits: always). *)
Theorem C26_combined_mask : forall N zp nlooks size lo hi shift look i j s,
  (i < nlooks)%nat -> (j < N * zp)%nat -> nearest_even (shift i) s ->
  exists row vec v,
    nth_error (stack_masks true N zp nlooks size lo hi shift look) i = Some (row, vec) /\
    length row = (N * zp)%nat /\ nth_error row j = Some v /\ (v = 0 \/ v = 1) /\
    (v = 1 <-> (i < size)%nat /\ not_wrapped N zp s j /\
       forall l h, lo = Some l -> hi = Some h -> (l < look i /\ look i < h)%Q).
Proof.
  intros N zp nlooks size lo hi shift look i j s Hi Hj Hs.
  pose proof (nearest_even_unique _ _ _ (np_round_nearest (shift i)) Hs) as Es.
  rewrite masks_row by auto. cbv zeta.
  set (g := if Nat.ltb i (Nat.min size nlooks) then _ else _).
  set (a := match lo with Some _ => _ | None => _ end).
  assert (Lg : length g = (N * zp)%nat).
  { unfold g. destruct (Nat.ltb _ _); rewrite ?geometry_row_length, ?repeat_length; auto. }
  assert (La : length a = (N * zp)%nat).
  { unfold a. destruct lo; [destruct hi|]; [destruct (Nat.ltb _ _)| |]; apply repeat_length. }
  assert (Ga : nth_error g j = Some (if Nat.ltb i size && nw_b N zp s j then 1 else 0)).
  { unfold g. destruct (Nat.ltb_spec i (Nat.min size nlooks)).
    - rewrite geometry_row_at by auto. rewrite Es.
      destruct (Nat.ltb_spec i size); [|lia]. reflexivity.
    - rewrite nth_error_repeat by auto. destruct (Nat.ltb_spec i size); [lia|]. reflexivity. }
  assert (Aa : exists va, nth_error a j = Some va /\ (va = 0 \/ va = 1) /\
     ((i < size)%nat -> (va = 1 <-> forall l h, lo = Some l -> hi = Some h -> (l < look i /\ look i < h)%Q))).
  { unfold a. destruct lo as [l|]; [destruct hi as [h|]|].
    - destruct (Nat.ltb_spec i (Nat.min size nlooks)) as [HL|HL].
      + rewrite nth_error_repeat by auto. eexists. split; [reflexivity|].
        split. { destruct (strictly_between _ _ _); auto. }
        intros _. unfold strictly_between.
        destruct (Qle_bool (look i) l) eqn:E1; destruct (Qle_bool h (look i)) eqn:E2; cbn.
        * split; [discriminate|]. intro X. destruct (X l h eq_refl eq_refl).
          apply Qle_bool_iff in E1. lra.
        * split; [discriminate|]. intro X. destruct (X l h eq_refl eq_refl).
          apply Qle_bool_iff in E1. lra.
        * split; [discriminate|]. intro X. destruct (X l h eq_refl eq_refl).
          apply Qle_bool_iff in E2. lra.
        * split; auto. intros _ l' h' X1 X2. inversion X1; inversion X2; subst.
          split; apply Qnot_le_lt; intro X; apply Qle_bool_iff in X; congruence.
      + rewrite nth_error_repeat by auto. eexists. split; [reflexivity|]. split; auto. lia.
    - rewrite nth_error_repeat by auto. eexists. split; [reflexivity|]. split; auto.
      intros _. split; auto. discriminate.
    - rewrite nth_error_repeat by auto. eexists. split; [reflexivity|]. split; auto.
      intros _. split; auto. discriminate. }
  destruct Aa as (va & Aa & Bva & Hva).
  do 3 eexists. split; [reflexivity|].
  split. { rewrite !mul_rows_length, Lg, La, repeat_length. lia. }
  split. { eapply mul_rows_at; [eapply mul_rows_at; [exact Ga|]|exact Aa].
           apply nth_error_repeat; auto. }
  destruct (Nat.ltb_spec i size) as [Hsz|Hsz]; cbn [andb].
  - specialize (Hva Hsz). destruct (nw_b N zp s j) eqn:En.
    + split. { destruct Bva; subst va; auto. }
      replace (1 * 1 * va) with va by lia. rewrite Hva.
      apply nw_spec in En. tauto.
    + split. { left; lia. } split; [lia|]. intros (_ & X & _). apply nw_spec in X. congruence.
  - split. { left; lia. } split; [lia|]. intros (X & _). lia.
Qed.
Print Assumptions C26_combined_mask.

(** C26: the vector of a beam of at least two samples: zero exactly when the
    whole beam is masked, otherwise the number of samples up to and including
    the last kept one, except the last index when the last sample is kept. *)
Theorem C26_vector : forall row, (2 <= length row)%nat -> binary row ->
  exists v, mask_vector row = Some v /\
    (v = 0 <-> forall x, In x row -> x = 0) /\
    (forall p, last_one row p ->
       v = if Nat.eqb p (length row - 1) then Z.of_nat (length row) - 1 else Z.of_nat p + 1).
Proof.
  intros row HL HB. destruct (mask_vector_spec row) as [[H1 H2]|(p & H1 & H2)].
  { intro E; subst; cbn in HL; lia. }
  - exists 0. split; auto. split.
    + split; auto. intros _ x Hx. destruct (HB x Hx) as [|Hx1]; auto. subst.
      apply In_nth_error in Hx. destruct Hx as [j Hj]. exfalso. apply (H1 j); auto.
    + intros p [Hp _]. exfalso. apply (H1 p); auto.
  - eexists. split; [exact H2|]. split.
    + split; intro H0.
      * exfalso. destruct (Nat.eqb_spec p (length row - 1)); lia.
      * exfalso. destruct H1 as [H1 _]. apply nth_error_In in H1. apply H0 in H1. lia.
    + intros q Hq. assert (q = p) by (eapply last_one_unique; eauto). subst q.
      destruct (Nat.eqb_spec p (length row - 1)); lia.
Qed.
Print Assumptions C26_vector.

(** C26: with masking on, the masked sample is the sample or zero; with masking
    off beams are untouched, every mask is one and every vector is B-1. *)
Theorem C26_apply : forall beam row j x m, nth_error beam j = Some x -> nth_error row j = Some m ->
  (m = 0 \/ m = 1) ->
  exists y, nth_error (mask_row beam row) j = Some y /\
    (m = 1 -> (y == x)%Q) /\ (m = 0 -> (y == 0)%Q).
Proof.
  intros beam row j x m H1 H2 Hm. rewrite (mask_row_at _ _ _ _ _ H1 H2).
  eexists. split; [reflexivity|]. split; intros ->; ring.
Qed.
Print Assumptions C26_apply.

Theorem C26_masking_off : forall N zp nlooks size lo hi shift look beams i,
  (i < nlooks)%nat ->
  beams_masked false beams (stack_masks false N zp nlooks size lo hi shift look) = beams /\
  nth_error (stack_masks false N zp nlooks size lo hi shift look) i
    = Some (repeat 1 (N * zp)%nat, Some (Z.of_nat (N * zp) - 1)) /\
  ((0 < N * zp)%nat -> mask_vector (repeat 1 (N * zp)%nat) = Some (Z.of_nat (N * zp) - 1)).
Proof.
  intros. split; [reflexivity|]. split. { apply nth_error_repeat. auto. }
  intro HB. unfold mask_vector. rewrite py_get_last, nth_error_repeat; rewrite repeat_length; [|lia].
  reflexivity.
Qed.
Print Assumptions C26_masking_off.

Example C26_ex : stack_masks true 2 2 3 2 (Some (-(1))%Q) (Some 1%Q)
    (fun i => match i with O => 1 | _ => 0 end)%Q (fun i => match i with O => 0 | _ => 1 end)%Q
  = [([0; 0; 1; 1], Some 3); ([0; 0; 0; 0], Some 0); ([0; 0; 0; 0], Some 0)].
Proof. reflexivity. Qed.
Example C26_ex_vec : mask_vector [1; 1; 0; 1; 0] = Some 4 /\ last_one [1; 1; 0; 1; 0] 3 /\ binary [1; 1; 0; 1; 0].
Proof.
  split; [reflexivity|]. split.
  - split; [reflexivity|]. intros [|[|[|[|[|j]]]]] Hj; cbn; try lia; try discriminate.
    destruct j; discriminate.
  - intros x H. cbn in H. lia.
Qed.
(** one sample per beam: the vector of a kept beam is 0, as if it were masked *)
Example C26_ex_one_sample : mask_vector [1] = Some 0 /\ mask_vector [0] = Some 0.
Proof. split; reflexivity. Qed.

(** C27, false of the code (stack_masking.py lines 133-153). *)
Theorem C27_collision_refuted : exists row row' p p' v,
  (2 <= length row)%nat /\ length row = length row' /\ binary row /\ binary row' /\
  last_one row p /\ last_one row' p' /\ p <> p' /\
  mask_vector row = Some v /\ mask_vector row' = Some v.
Proof.
  exists [1; 1; 1; 1], [1; 1; 1; 0], 3%nat, 2%nat, 3.
  split; [cbn; lia|]. split; [reflexivity|].
  split. { intros x H; cbn in H; lia. } split. { intros x H; cbn in H; lia. }
  split. { split; [reflexivity|]. intros [|[|[|[|j]]]] Hj; cbn; try lia. destruct j; discriminate. }
  split. { split; [reflexivity|]. intros [|[|[|[|j]]]] Hj; cbn; try lia; try discriminate. destruct j; discriminate. }
  split; [discriminate|]. split; reflexivity.
Qed.
Print Assumptions C27_collision_refuted.

(** C27, what holds: that pair of positions (last and last but one) is the only
    ambiguity, and it happens for every beam size. *)
Theorem C27_only_collision_partial : forall row row' p p' v,
  length row = length row' -> last_one row p -> last_one row' p' ->
  mask_vector row = Some v -> mask_vector row' = Some v ->
  p = p' \/ (p = length row - 1 /\ S p' = p)%nat \/ (p' = length row - 1 /\ S p = p')%nat.
Proof.
  intros row row' p p' v HL Hp Hp' Hv Hv'.
  assert (P1 : (p < length row)%nat) by (apply nth_error_Some; destruct Hp as [-> _]; discriminate).
  assert (P2 : (p' < length row')%nat) by (apply nth_error_Some; destruct Hp' as [-> _]; discriminate).
  destruct (mask_vector_spec row) as [[H1 _]|(q & H1 & H2)].
  { intro E; subst; cbn in P1; lia. } { exfalso. apply (H1 p). apply Hp. }
  destruct (mask_vector_spec row') as [[H1' _]|(q' & H1' & H2')].
  { intro E; subst; cbn in P2; lia. } { exfalso. apply (H1' p'). apply Hp'. }
  assert (q = p) by (eapply last_one_unique; eauto).
  assert (q' = p') by (eapply last_one_unique; eauto). subst q q'.
  rewrite H2 in Hv. rewrite H2' in Hv'. inversion Hv; inversion Hv'.
  destruct (Nat.eqb_spec p (length row - 1)); destruct (Nat.eqb_spec p' (length row' - 1)); lia.
Qed.
Print Assumptions C27_only_collision_partial.

Theorem C27_same_position_partial : forall row row' p,
  length row = length row' -> last_one row p -> last_one row' p ->
  mask_vector row = mask_vector row'.
Proof.
  intros row row' p HL Hp Hp'.
  assert (P1 : (p < length row)%nat) by (apply nth_error_Some; destruct Hp as [-> _]; discriminate).
  destruct (mask_vector_spec row) as [[H1 _]|(q & H1 & H2)].
  { intro E; subst; cbn in P1; lia. } { exfalso. apply (H1 p). apply Hp. }
  destruct (mask_vector_spec row') as [[H1' _]|(q' & H1' & H2')].
  { intro E; subst; cbn in HL; lia. } { exfalso. apply (H1' p). apply Hp'. }
  assert (q = p) by (eapply last_one_unique; eauto).
  assert (q' = p) by (eapply last_one_unique; eauto). subst.
  rewrite H2, H2', HL. reflexivity.
Qed.
Print Assumptions C27_same_position_partial.
