(** Proofs for C26-C28. *)
From Coq Require Import List ZArith QArith Qround Bool Lia Lqa.
From Coq Require Import ZifyBool ZifyNat.
From Verif Require Import Common MaskModel MaskSpec.
Import ListNotations.
Local Open Scope Z_scope.

Lemma np_round_nearest : forall q, nearest_even q (np_round q).
Proof.
  intro q. unfold np_round, nearest_even.
  pose proof (Qfloor_le q) as F1. pose proof (Qlt_floor q) as F2.
  set (f := Qfloor q) in *. rewrite inject_Z_plus in F2. change (inject_Z 1) with 1%Q in F2.
  destruct (Qcompare (q - inject_Z f) (1#2)) eqn:E.
  - apply Qeq_alt in E. destruct (Z.even f) eqn:Ev.
    + split; [split; lra|]. auto.
    + rewrite inject_Z_plus. change (inject_Z 1) with 1%Q. split; [split; lra|]. intros _.
      rewrite Z.even_add, Ev. reflexivity.
  - apply Qlt_alt in E. split; [split; lra|]. intros [H|H]; lra.
  - apply Qgt_alt in E. rewrite inject_Z_plus. change (inject_Z 1) with 1%Q.
    split; [split; lra|]. intros [H|H]; lra.
Qed.

Lemma nearest_even_unique : forall q a b, nearest_even q a -> nearest_even q b -> a = b.
Proof.
  intros q a b [[A1 A2] A3] [[B1 B2] B3].
  destruct (Z.lt_trichotomy a b) as [H|[H|H]]; auto; exfalso.
  - assert (HQ : (inject_Z (a + 1) <= inject_Z b)%Q) by (rewrite <- Zle_Qle; lia).
    rewrite inject_Z_plus in HQ. change (inject_Z 1) with 1%Q in HQ.
    assert (Ea : (q == inject_Z a + (1#2))%Q) by lra.
    assert (Eb : (q == inject_Z b - (1#2))%Q) by lra.
    assert (E : (inject_Z b == inject_Z (a + 1))%Q)
      by (rewrite inject_Z_plus; change (inject_Z 1) with 1%Q; lra).
    apply (proj1 (inject_Z_injective _ _)) in E. subst b.
    pose proof (A3 (or_introl Ea)) as X. pose proof (B3 (or_intror Eb)) as Y.
    rewrite Z.even_add, X in Y. discriminate.
  - assert (HQ : (inject_Z (b + 1) <= inject_Z a)%Q) by (rewrite <- Zle_Qle; lia).
    rewrite inject_Z_plus in HQ. change (inject_Z 1) with 1%Q in HQ.
    assert (Ea : (q == inject_Z b + (1#2))%Q) by lra.
    assert (Eb : (q == inject_Z a - (1#2))%Q) by lra.
    assert (E : (inject_Z a == inject_Z (b + 1))%Q)
      by (rewrite inject_Z_plus; change (inject_Z 1) with 1%Q; lra).
    apply (proj1 (inject_Z_injective _ _)) in E. subst a.
    pose proof (B3 (or_introl Ea)) as X. pose proof (A3 (or_intror Eb)) as Y.
    rewrite Z.even_add, X in Y. discriminate.
Qed.

(* ---------- rows ---------- *)
Lemma nth_error_seq_map : forall A (f : nat -> A) n j, (j < n)%nat ->
  nth_error (map f (seq 0 n)) j = Some (f j).
Proof.
  intros. rewrite nth_error_map.
  rewrite nth_error_nth' with (d := 0%nat) by (rewrite seq_length; lia).
  cbn. rewrite seq_nth by lia. reflexivity.
Qed.

Lemma nth_error_repeat : forall A (x : A) n j, (j < n)%nat -> nth_error (repeat x n) j = Some x.
Proof. induction n; intros [|j] H; cbn; auto; try lia. apply IHn. lia. Qed.

Lemma ones_between_at : forall n a b j, (j < n)%nat -> 0 <= a -> 0 <= b ->
  nth_error (ones_between n a b) j
  = Some (if (a <=? Z.of_nat j) && (Z.of_nat j <? b) then 1 else 0).
Proof.
  intros n a b j Hj Ha Hb. unfold ones_between. rewrite nth_error_seq_map by auto.
  f_equal. unfold py_clip.
  replace (0 <=? a) with true by lia. replace (0 <=? b) with true by lia.
  set (lo := Nat.min n (Z.to_nat a)). set (hi := Nat.min n (Z.to_nat b)).
  destruct ((a <=? Z.of_nat j) && (Z.of_nat j <? b)) eqn:E1;
    destruct (Nat.leb lo j && Nat.ltb j hi) eqn:E2; auto; exfalso; unfold lo, hi in *;
    apply andb_false_iff in E1 || apply andb_true_iff in E1;
    apply andb_false_iff in E2 || apply andb_true_iff in E2;
    rewrite ?Nat.leb_le, ?Nat.leb_gt, ?Nat.ltb_lt, ?Nat.ltb_ge in E2; lia.
Qed.

Lemma ones_between_length : forall n a b, length (ones_between n a b) = n.
Proof. intros. unfold ones_between. rewrite map_length, seq_length. auto. Qed.

Definition nw_b (N zp : nat) (s : Z) (j : nat) : bool :=
  if 0 <? s then s * Z.of_nat zp <=? Z.of_nat j
  else Z.of_nat j <? (Z.of_nat N - Z.abs s) * Z.of_nat zp.
Lemma nw_spec : forall N zp s j, nw_b N zp s j = true <-> not_wrapped N zp s j.
Proof. intros. unfold nw_b, not_wrapped. destruct (0 <? s); lia. Qed.

Lemma geometry_row_length : forall N zp q, length (geometry_row N zp q) = (N * zp)%nat.
Proof.
  intros. unfold geometry_row. destruct (0 <? np_round q);
  match goal with |- context[if ?c then _ else _] => destruct c end;
  rewrite ?ones_between_length, ?repeat_length; auto.
Qed.

Lemma geometry_row_at : forall N zp q j, (j < N * zp)%nat ->
  nth_error (geometry_row N zp q) j = Some (if nw_b N zp (np_round q) j then 1 else 0).
Proof.
  intros N zp q j Hj. unfold geometry_row, nw_b. set (s := np_round q).
  assert (Hj' : Z.of_nat j < Z.of_nat N * Z.of_nat zp) by lia.
  destruct (0 <? s) eqn:Es.
  - destruct (s * Z.of_nat zp <? Z.of_nat N * Z.of_nat zp) eqn:E.
    + rewrite ones_between_at by (auto; nia).
      replace (Z.of_nat j <? Z.of_nat N * Z.of_nat zp) with true by lia.
      rewrite andb_true_r. reflexivity.
    + rewrite nth_error_repeat by auto.
      replace (s * Z.of_nat zp <=? Z.of_nat j) with false by lia. reflexivity.
  - destruct (0 <? (Z.of_nat N - Z.abs s) * Z.of_nat zp) eqn:E.
    + rewrite ones_between_at by (auto; lia).
      replace (0 <=? Z.of_nat j) with true by lia. reflexivity.
    + rewrite nth_error_repeat by auto.
      replace (Z.of_nat j <? (Z.of_nat N - Z.abs s) * Z.of_nat zp) with false by lia. reflexivity.
Qed.

Lemma mul_rows_at : forall a b j x y, nth_error a j = Some x -> nth_error b j = Some y ->
  nth_error (mul_rows a b) j = Some (x * y).
Proof.
  induction a as [|u a IH]; intros [|v b] [|j] x y H1 H2; cbn in *; try discriminate.
  - congruence.
  - auto.
Qed.
Lemma mul_rows_length : forall a b, length (mul_rows a b) = Nat.min (length a) (length b).
Proof. induction a; intros [|v b]; cbn; auto. Qed.

Lemma zip3_at : forall f a b c i x y z, nth_error a i = Some x -> nth_error b i = Some y ->
  nth_error c i = Some z -> nth_error (zip3 f a b c) i = Some (f x y z).
Proof.
  induction a as [|u a IH]; intros [|v b] [|w c] [|i] x y z H1 H2 H3; cbn in *; try discriminate.
  - congruence.
  - auto.
Qed.
Lemma zip3_length : forall f a b c, length a = length b -> length b = length c ->
  length (zip3 f a b c) = length a.
Proof. induction a; intros [|v b] [|w c] H1 H2; cbn in *; try discriminate; auto. Qed.

(* ---------- vector ---------- *)
Lemma py_get_last : forall A (l : list A), py_get l (-1) = nth_error l (length l - 1)%nat.
Proof.
  intros A l. unfold py_get, py_pos. replace (0 <=? -1) with false by reflexivity.
  destruct (- Z.of_nat (length l) <=? -1) eqn:E.
  - f_equal. lia.
  - assert (length l = 0)%nat by lia. destruct l; cbn in *; auto; lia.
Qed.

Lemma search_back_spec : forall B row i,
  (forall j, (j < length row)%nat -> nth_error row j <> Some 1) /\ search_back B row i = 0 \/
  exists k, (k < length row)%nat /\ nth_error row k = Some 1 /\
    (forall j, (j < k)%nat -> nth_error row j <> Some 1) /\
    search_back B row i = Z.of_nat B - Z.of_nat (i + k).
Proof.
  induction row as [|v r IH]; intro i; cbn.
  - left. split; auto. intros; lia.
  - destruct (v =? 1) eqn:E.
    + right. exists 0%nat. apply Z.eqb_eq in E. subst v. cbn [nth_error].
      split; [lia|]. split; [reflexivity|]. split; [intros; lia|lia].
    + destruct (IH (S i)) as [[H1 H2]|(k & H1 & H2 & H3 & H4)].
      * left. split; auto. intros [|j] Hj; cbn; [intro X; inversion X; subst; discriminate|]. apply H1. lia.
      * right. exists (S k). split; [lia|]. split; [auto|]. split.
        -- intros [|j] Hj; cbn; [intro X; inversion X; subst; discriminate|]. apply H3. lia.
        -- rewrite H4. f_equal. lia.
Qed.

Lemma nth_error_rev : forall A (l : list A) k, (k < length l)%nat ->
  nth_error (rev l) k = nth_error l (length l - 1 - k)%nat.
Proof.
  intros A l k H. destruct l as [|d l'] eqn:El; [cbn in H; lia|]. rewrite <- El in *.
  rewrite nth_error_nth' with (d := d) by (rewrite rev_length; lia).
  rewrite rev_nth by auto. rewrite nth_error_nth' with (d := d) by lia.
  do 2 f_equal. lia.
Qed.

Lemma mask_vector_spec : forall row, row <> [] ->
  ((forall j, nth_error row j <> Some 1) /\ mask_vector row = Some 0) \/
  exists p, last_one row p /\
    mask_vector row = Some (if Nat.eqb p (length row - 1) then Z.of_nat p else Z.of_nat p + 1).
Proof.
  intros row Hne. assert (HL : (0 < length row)%nat) by (destruct row; [congruence|cbn; lia]).
  unfold mask_vector. rewrite py_get_last.
  destruct (nth_error row (length row - 1)) as [last|] eqn:EL.
  2:{ apply nth_error_None in EL. lia. }
  destruct (last =? 1) eqn:E1.
  - right. exists (length row - 1)%nat. rewrite Nat.eqb_refl. split.
    + split. { rewrite EL. f_equal. lia. }
      intros j Hj. rewrite (proj2 (nth_error_None row j)) by lia. discriminate.
    + f_equal. lia.
  - destruct (search_back_spec (length row) (rev row) 0) as [[H1 H2]|(k & H1 & H2 & H3 & H4)].
    + left. rewrite H2. split; auto. intros j Hj.
      assert (j < length row)%nat by (apply nth_error_Some; congruence).
      rewrite rev_length in H1. apply (H1 (length row - 1 - j)%nat); [lia|].
      rewrite nth_error_rev by lia. rewrite <- Hj. f_equal. lia.
    + right. rewrite rev_length in H1. rewrite nth_error_rev in H2 by lia.
      exists (length row - 1 - k)%nat. split.
      * split; auto. intros j Hj HX.
        assert (j < length row)%nat by (apply nth_error_Some; congruence).
        apply (H3 (length row - 1 - j)%nat); [lia|]. rewrite nth_error_rev by lia.
        rewrite <- HX. f_equal. lia.
      * rewrite H4.
        destruct (Nat.eqb_spec (length row - 1 - k) (length row - 1)) as [Ek|Ek].
        -- replace (length row - 1 - k)%nat with (length row - 1)%nat in H2 by lia.
           rewrite EL in H2. inversion H2. lia.
        -- f_equal. lia.
Qed.

Lemma last_one_unique : forall row p q, last_one row p -> last_one row q -> p = q.
Proof.
  intros row p q [H1 H2] [H3 H4]. destruct (lt_eq_lt_dec p q) as [[L|E]|L]; auto; exfalso.
  - apply (H2 q); auto.
  - apply (H4 p); auto.
Qed.

Lemma mask_row_at : forall beam row j x m, nth_error beam j = Some x -> nth_error row j = Some m ->
  nth_error (mask_row beam row) j = Some (x * inject_Z m)%Q.
Proof.
  induction beam as [|u b IH]; intros [|v r] [|j] x m H1 H2; cbn in *; try discriminate.
  - congruence.
  - auto.
Qed.
