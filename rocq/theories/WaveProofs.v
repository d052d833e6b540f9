From Coq Require Import List ZArith QArith Reals Bool Lia Lra.
From Verif Require Import Common Cplx GeoModel WholeModel.
From Verif Require SurfModel DopModel GcorrModel MaskModel PointModel PointSpec LinModel.
From Verif Require Import WholeSpec WholeProofs WholeProps.
From Verif Require PointProps LinSpec.
From Verif Require Import WaveModel WaveSpec.
Import ListNotations.
Local Open Scope R_scope.

(** * Rounding *)

Lemma r_round_nearest : forall x, nearest x (r_round x).
Proof.
  intros x. unfold nearest, r_round. destruct (base_Int_part x) as (B1 & B2).
  set (f := Int_part x) in *. assert (F : 0 <= x - IZR f < 1) by lra.
  destruct (Rlt_dec (x - IZR f) (1 / 2)) as [L|L].
  - rewrite Rabs_pos_eq by lra. split; [lra|intros E; lra].
  - destruct (Rlt_dec (1 / 2) (x - IZR f)) as [G|G].
    + rewrite plus_IZR, Rabs_left1 by lra. split; [lra|intros E; lra].
    + assert (H : x - IZR f = 1 / 2) by lra. destruct (Z.even f) eqn:EV.
      * rewrite Rabs_pos_eq by lra. split; [lra|intros _; exact EV].
      * rewrite plus_IZR, Rabs_left1 by lra. split; [lra|]. intros _. rewrite Z.even_add, EV. reflexivity.
Qed.
Lemma nearest_unique : forall x z z', nearest x z -> nearest x z' -> z = z'.
Proof.
  intros x z z' (A & E) (A' & E'). pose proof (Rabs_triang (x - IZR z') (- (x - IZR z))) as T.
  rewrite Rabs_Ropp in T. replace (x - IZR z' + - (x - IZR z)) with (IZR z - IZR z') in T by ring.
  rewrite <- minus_IZR, <- abs_IZR in T.
  assert (D : (Z.abs (z - z') <= 1)%Z) by (apply le_IZR; lra).
  destruct (Z.eq_dec z z') as [|N]; [assumption|exfalso].
  assert (D1 : Z.abs (z - z') = 1%Z) by lia. rewrite D1 in T.
  specialize (E ltac:(lra)). specialize (E' ltac:(lra)).
  assert (z = z' + 1 \/ z' = z + 1)%Z as [->| ->] by lia; rewrite Z.even_add in *; [rewrite E' in E|rewrite E in E']; discriminate.
Qed.
Lemma np_round_int : forall z, MaskModel.np_round (inject_Z z) = z.
Proof.
  intros z. unfold MaskModel.np_round. rewrite Qround.Qfloor_Z.
  replace (Qcompare (inject_Z z - inject_Z z) (1 # 2)) with Lt; [reflexivity|].
  symmetry. rewrite <- Qlt_alt. setoid_replace (inject_Z z - inject_Z z)%Q with 0%Q by ring. reflexivity.
Qed.

(** * Masks *)

Lemma map_seq_at : forall {X} (f : nat -> X) n i d, (i < n)%nat -> nth i (map f (seq 0 n)) d = f i.
Proof.
  intros X f n i d H. rewrite (nth_indep _ d (f 0%nat)) by (rewrite map_length, seq_length; exact H).
  rewrite map_nth, seq_nth by exact H. reflexivity.
Qed.
Lemma ones_nth : forall n a b m, (m < n)%nat ->
  nth m (MaskModel.ones_between n a b) 0%Z = if (Nat.leb (py_clip n a) m && Nat.ltb m (py_clip n b)) then 1%Z else 0%Z.
Proof.
  intros n a b m L. unfold MaskModel.ones_between. apply map_seq_at. exact L.
Qed.
Lemma clip_mid : forall n (z : Z), (0 <= z)%Z -> (Z.of_nat (py_clip n z) = Z.min z (Z.of_nat n))%Z.
Proof.
  intros n z L. unfold py_clip. destruct (0 <=? z)%Z eqn:E; [apply Z.leb_le in E|apply Z.leb_gt in E]; lia.
Qed.
Lemma repeat_nth : forall {A} (x d : A) n m, (m < n)%nat -> nth m (repeat x n) d = x.
Proof. intros A x d n. induction n as [|n IH]; intros [|m] L; cbn; try lia; auto. apply IH. lia. Qed.
Lemma geometry_nth : forall N zp z m, (m < N * zp)%nat ->
  nth m (MaskModel.geometry_row N zp (inject_Z z)) 0%Z =
  if ((0 <=? Z.of_nat m - Z.of_nat zp * z) && (Z.of_nat m - Z.of_nat zp * z <? Z.of_nat (N * zp)))%Z then 1%Z else 0%Z.
Proof.
  intros N zp z m L. unfold MaskModel.geometry_row. rewrite np_round_int.
  destruct (0 <? z)%Z eqn:S.
  - apply Z.ltb_lt in S.
    destruct (z * Z.of_nat zp <? Z.of_nat N * Z.of_nat zp)%Z eqn:B.
    + apply Z.ltb_lt in B. rewrite ones_nth by exact L.
      pose proof (clip_mid (N * zp) (z * Z.of_nat zp) ltac:(nia)) as C1.
      pose proof (clip_mid (N * zp) (Z.of_nat N * Z.of_nat zp) ltac:(nia)) as C2.
      assert (PE : Z.of_nat (N * zp) = (Z.of_nat N * Z.of_nat zp)%Z) by apply Nat2Z.inj_mul.
      destruct (Nat.leb _ m) eqn:A1, (Nat.ltb m _) eqn:A2; cbn [andb];
      [apply Nat.leb_le in A1|apply Nat.leb_le in A1|apply Nat.leb_gt in A1|apply Nat.leb_gt in A1];
      [apply Nat.ltb_lt in A2|apply Nat.ltb_ge in A2|apply Nat.ltb_lt in A2|apply Nat.ltb_ge in A2];
      destruct (0 <=? _)%Z eqn:B1, (_ <? Z.of_nat (N * zp))%Z eqn:B2; cbn [andb]; try reflexivity; exfalso;
      rewrite ?Z.leb_le, ?Z.leb_gt, ?Z.ltb_lt, ?Z.ltb_ge in *; nia.
    + apply Z.ltb_ge in B. rewrite repeat_nth by exact L.
      destruct (0 <=? _)%Z eqn:B1, (_ <? Z.of_nat (N * zp))%Z eqn:B2; cbn [andb]; try reflexivity; exfalso;
      rewrite ?Z.leb_le, ?Z.leb_gt, ?Z.ltb_lt, ?Z.ltb_ge in *; nia.
  - apply Z.ltb_ge in S.
    destruct (0 <? (Z.of_nat N - Z.abs z) * Z.of_nat zp)%Z eqn:B.
    + apply Z.ltb_lt in B. rewrite ones_nth by exact L.
      pose proof (clip_mid (N * zp) 0 ltac:(lia)) as C1.
      pose proof (clip_mid (N * zp) ((Z.of_nat N - Z.abs z) * Z.of_nat zp) ltac:(nia)) as C2.
      assert (PE : Z.of_nat (N * zp) = (Z.of_nat N * Z.of_nat zp)%Z) by apply Nat2Z.inj_mul.
      destruct (Nat.leb _ m) eqn:A1, (Nat.ltb m _) eqn:A2; cbn [andb];
      [apply Nat.leb_le in A1|apply Nat.leb_le in A1|apply Nat.leb_gt in A1|apply Nat.leb_gt in A1];
      [apply Nat.ltb_lt in A2|apply Nat.ltb_ge in A2|apply Nat.ltb_lt in A2|apply Nat.ltb_ge in A2];
      destruct (0 <=? _)%Z eqn:B1, (_ <? Z.of_nat (N * zp))%Z eqn:B2; cbn [andb]; try reflexivity; exfalso;
      rewrite ?Z.leb_le, ?Z.leb_gt, ?Z.ltb_lt, ?Z.ltb_ge in *; rewrite ?Z.abs_neq in * by lia; nia.
    + apply Z.ltb_ge in B. rewrite repeat_nth by exact L.
      destruct (0 <=? _)%Z eqn:B1, (_ <? Z.of_nat (N * zp))%Z eqn:B2; cbn [andb]; try reflexivity; exfalso;
      rewrite ?Z.leb_le, ?Z.leb_gt, ?Z.ltb_lt, ?Z.ltb_ge in *; rewrite ?Z.abs_neq in * by lia; nia.
Qed.
Lemma geometry_length : forall N zp q, length (MaskModel.geometry_row N zp q) = (N * zp)%nat.
Proof.
  intros N zp q. unfold MaskModel.geometry_row, MaskModel.ones_between. destruct (0 <? _)%Z; destruct (_ <? _)%Z;
    rewrite ?map_length, ?seq_length, ?repeat_length; reflexivity.
Qed.
Lemma mul_rows_length : forall a b, length (MaskModel.mul_rows a b) = Nat.min (length a) (length b).
Proof. induction a as [|x a IH]; intros [|y b]; cbn; auto. Qed.
Lemma mul_rows_nth : forall a b m, (m < length a)%nat -> (m < length b)%nat ->
  nth m (MaskModel.mul_rows a b) 0%Z = (nth m a 0 * nth m b 0)%Z.
Proof. induction a as [|x a IH]; intros [|y b] [|m] A B; cbn in *; try lia. apply IH; lia. Qed.
Lemma mask_length : forall v N zp k, length (mask_of v N zp k) = (N * zp)%nat.
Proof.
  intros v N zp k. unfold mask_of. destruct (v_mask v); rewrite ?mul_rows_length, ?geometry_length, ?repeat_length; lia.
Qed.
Lemma mask_nth : forall v N zp k m, (m < N * zp)%nat ->
  nth m (mask_of v N zp k) 0%Z = if visible v N zp m k then 1%Z else 0%Z.
Proof.
  intros v N zp k m L. unfold mask_of, visible. destruct (v_mask v); cbn [negb orb].
  - rewrite mul_rows_nth by (rewrite ?geometry_length, ?repeat_length; exact L).
    rewrite geometry_nth by exact L. rewrite repeat_nth by exact L.
    destruct ((0 <=? _)%Z && (_ <? _)%Z); cbn [andb]; destruct (inside v (k_look k)); reflexivity.
  - rewrite repeat_nth by exact L. reflexivity.
Qed.

(** A look is skipped when its row of the mask is empty. *)
Lemma search_back_zero : forall n l i, (i + length l = n)%nat ->
  (MaskModel.search_back n l i = 0%Z <-> forall x, In x l -> x <> 1%Z).
Proof.
  intros n. induction l as [|x l IH]; intros i L; cbn [MaskModel.search_back In].
  - split; [intros _ x []|reflexivity].
  - cbn [length] in L. destruct (x =? 1)%Z eqn:E.
    + apply Z.eqb_eq in E. subst x. split; [intros H; exfalso; lia|intros H; exfalso; apply (H 1%Z); auto].
    + apply Z.eqb_neq in E. rewrite IH by lia. split; [intros H y [<-|I]; auto|intros H y I; apply H; auto].
Qed.
Lemma py_last : forall {A} (l : list A) x, py_get (l ++ [x]) (-1) = Some x.
Proof.
  intros A l x. unfold py_get, py_pos. rewrite app_length. cbn [length].
  destruct (0 <=? -1)%Z eqn:E; [apply Z.leb_le in E; lia|].
  match goal with |- context [ if ?b then _ else _ ] => destruct b eqn:F end.
  - replace (Z.to_nat _) with (length l) by lia. rewrite nth_error_app2, Nat.sub_diag by lia. reflexivity.
  - exfalso. rewrite ?Z.leb_gt, ?Z.ltb_ge in F. lia.
Qed.
Lemma vector_zero : forall row, (2 <= length row)%nat ->
  exists z, MaskModel.mask_vector row = Some z /\ (z = 0%Z <-> forall x, In x row -> x <> 1%Z).
Proof.
  intros row L. destruct (exists_last (l := row) ltac:(destruct row; [cbn in L; lia|discriminate])) as (l & x & ->).
  unfold MaskModel.mask_vector. rewrite py_last. destruct (x =? 1)%Z eqn:E.
  - apply Z.eqb_eq in E. subst x. eexists. split; [reflexivity|]. split; [intros H; exfalso; lia|].
    intros H. exfalso. apply (H 1%Z); [apply in_or_app; right; left|]; reflexivity.
  - eexists. split; [reflexivity|]. rewrite search_back_zero by (rewrite rev_length; reflexivity).
    split; intros H y I; apply H; [rewrite <- in_rev|rewrite in_rev]; exact I.
Qed.
Lemma used_mask : forall v N zp k, used v N zp k = false <-> forall x, In x (mask_of v N zp k) -> x <> 1%Z.
Proof.
  intros v N zp k. unfold used. split.
  - intros H x I. apply (In_nth _ _ 0%Z) in I as (m & L & <-). rewrite mask_length in L. rewrite mask_nth by exact L.
    destruct (visible v N zp m k) eqn:V; [|discriminate]. exfalso.
    assert (E : existsb (fun m => visible v N zp m k) (seq 0 (N * zp)) = true) by (apply existsb_exists; exists m; split; [apply in_seq; lia|exact V]).
    congruence.
  - intros H. destruct (existsb _ _) eqn:E; [|reflexivity]. exfalso. apply existsb_exists in E as (m & I & V). apply in_seq in I.
    apply (H 1%Z); [|reflexivity]. pose proof (mask_nth v N zp k m ltac:(lia)) as M. rewrite V in M. rewrite <- M.
    apply nth_In. rewrite mask_length. lia.
Qed.
Lemma vector_used : forall v N zp k, (2 <= N * zp)%nat ->
  exists z, vector_of v N zp k = Some z /\ (z =? 0)%Z = negb (used v N zp k).
Proof.
  intros v N zp k L. unfold vector_of. destruct (v_mask v) eqn:M.
  - destruct (vector_zero (mask_of v N zp k) ltac:(rewrite mask_length; exact L)) as (z & E & Z). exists z. split; [exact E|].
    destruct (used v N zp k) eqn:U; cbn [negb].
    + apply Z.eqb_neq. intros ->. assert (F : used v N zp k = false) by (apply used_mask, Z; reflexivity). congruence.
    + apply Z.eqb_eq, Z, used_mask, U.
  - eexists. split; [reflexivity|]. replace (used v N zp k) with true.
    + cbn [negb]. apply Z.eqb_neq. lia.
    + symmetry. apply existsb_exists. exists 0%nat. split; [apply in_seq; lia|]. unfold visible. rewrite M. reflexivity.
Qed.

(** * Sums *)

Lemma zipw_length : forall {A B} (f : A -> B -> R) a b, length (zipw f a b) = Nat.min (length a) (length b).
Proof. intros A B f. induction a as [|x a IH]; intros [|y b]; cbn; auto. Qed.
Lemma zipw_nth : forall {A B} (f : A -> B -> R) a b m da db, (m < length a)%nat -> (m < length b)%nat ->
  nth m (zipw f a b) 0 = f (nth m a da) (nth m b db).
Proof. intros A B f. induction a as [|x a IH]; intros [|y b] [|m] da db La Lb; cbn in *; try lia; auto. apply IH; lia. Qed.
Lemma masked_length : forall v N zp k, length (k_row k) = (N * zp)%nat -> length (masked v N zp k) = (N * zp)%nat.
Proof. intros v N zp k L. unfold masked. destruct (v_mask v); rewrite ?zipw_length, ?mask_length, ?L; lia. Qed.
Lemma masked_nth : forall v N zp k m, length (k_row k) = (N * zp)%nat -> (m < N * zp)%nat ->
  nth m (masked v N zp k) 0 = if visible v N zp m k then nth m (k_row k) 0 else 0.
Proof.
  intros v N zp k m L Lm. unfold masked. destruct (v_mask v) eqn:M.
  - rewrite (zipw_nth _ _ _ m 0 0%Z) by (rewrite ?mask_length, ?L; lia). rewrite mask_nth by exact Lm.
    destruct (visible v N zp m k); ring.
  - unfold visible. rewrite M. reflexivity.
Qed.
Lemma weighted_row : forall v k row, (exists w, weight v k = Some w) ->
  exists row', weighted v k row = Some row' /\ length row' = length row /\ forall m, nth m row' 0 = weight0 v k * nth m row 0.
Proof.
  intros v k row (w & W). unfold weighted, weight0, weight in *. destruct (v_weight v) as [f|].
  - rewrite W. cbn [option_map]. eexists. split; [reflexivity|]. split; [apply map_length|]. intros m.
    rewrite <- (Rmult_0_l w) at 1. rewrite (map_nth (fun x => x * w)). ring.
  - eexists. split; [reflexivity|]. split; [reflexivity|]. intros m. ring.
Qed.

Definition term (v : settings) (N zp m : nat) (k : look) : R :=
  if used v N zp k then if visible v N zp m k then weight0 v k * nth m (k_row k) 0 else 0 else 0.
Definition unit (v : settings) (N zp m : nat) (k : look) : R :=
  if used v N zp k then if v_avoid v then if visible v N zp m k then 1 else 0 else 1 else 0.
Lemma total_cons : forall f k ks, total f (k :: ks) = f k + total f ks.
Proof. reflexivity. Qed.
Lemma add_looks_sum : forall v N zp, (2 <= N * zp)%nat -> forall ks sum cnt, Forall (proper v N zp) ks ->
  length sum = (N * zp)%nat -> length cnt = (N * zp)%nat ->
  exists s c, add_looks v N zp ks sum cnt = Some (s, c) /\ length s = (N * zp)%nat /\ length c = (N * zp)%nat /\
    forall m, (m < N * zp)%nat -> nth m s 0 = nth m sum 0 + total (term v N zp m) ks /\ nth m c 0 = nth m cnt 0 + total (unit v N zp m) ks.
Proof.
  intros v N zp P2. induction ks as [|k ks IH]; intros sum cnt F Ls Lc; cbn [add_looks].
  - exists sum, cnt. repeat split; try assumption; unfold total; cbn; ring.
  - inversion F as [|? ? (Lr & W) F']; subst.
    destruct (weighted_row v k (masked v N zp k) W) as (row & E & Lrow & Q). rewrite E.
    destruct (vector_used v N zp k P2) as (z & EV & Z0). rewrite EV, Z0. rewrite masked_length in Lrow by exact Lr.
    destruct (used v N zp k) eqn:U; cbn [negb].
    + set (mask := if v_avoid v then map IZR (mask_of v N zp k) else repeat 1 (N * zp)).
      assert (LM : length mask = (N * zp)%nat) by (unfold mask; destruct (v_avoid v); rewrite ?map_length, ?mask_length, ?repeat_length; reflexivity).
      assert (NM : forall m, (m < N * zp)%nat -> nth m mask 0 = if v_avoid v then if visible v N zp m k then 1 else 0 else 1).
      { intros m Lm. unfold mask. destruct (v_avoid v); [|apply repeat_nth; exact Lm].
        change 0 with (IZR 0). rewrite map_nth, mask_nth by exact Lm. destruct (visible v N zp m k); reflexivity. }
      destruct (IH (zipw Rplus sum (zipw Rmult row mask)) (zipw Rplus cnt mask) F'
                  ltac:(rewrite !zipw_length, Ls, Lrow, LM; lia) ltac:(rewrite zipw_length, Lc, LM; lia)) as (s & c & A & L1 & L2 & V).
      exists s, c. split; [exact A|]. split; [exact L1|]. split; [exact L2|]. intros m Lm. destruct (V m Lm) as (V1 & V2). rewrite V1, V2.
      rewrite (zipw_nth Rplus sum _ m 0 0) by (rewrite ?zipw_length, ?Ls, ?Lrow, ?LM; lia).
      rewrite (zipw_nth Rmult row _ m 0 0) by (rewrite ?Lrow, ?LM; lia).
      rewrite (zipw_nth Rplus cnt _ m 0 0) by (rewrite ?Lc, ?LM; lia).
      rewrite NM by exact Lm. rewrite Q, masked_nth by assumption. rewrite !total_cons. unfold term at 2, unit at 2. rewrite U.
      destruct (v_avoid v), (visible v N zp m k); split; ring.
    + destruct (IH sum cnt F' Ls Lc) as (s & c & A & L1 & L2 & V).
      exists s, c. split; [exact A|]. split; [exact L1|]. split; [exact L2|]. intros m Lm. destruct (V m Lm) as (V1 & V2). rewrite V1, V2.
      rewrite !total_cons. unfold term at 2, unit at 2. rewrite U. split; ring.
Qed.
Lemma quotients_length : forall s c, length s = length c -> length (quotients s c) = length s.
Proof. induction s as [|x s IH]; intros [|y c] L; cbn in *; try lia. rewrite IH; lia. Qed.
Lemma quotients_at : forall s c m, length s = length c -> (m < length s)%nat ->
  nth m (quotients s c) None = quotient (nth m s 0) (nth m c 0).
Proof. induction s as [|x s IH]; intros [|y c] [|m] L Lm; cbn in *; try lia; [reflexivity|]. apply IH; lia. Qed.
Lemma quotients_nth : forall s c m, length s = length c -> (m < length s)%nat ->
  length (quotients s c) = length s /\ nth m (quotients s c) None = quotient (nth m s 0) (nth m c 0).
Proof. intros s c m L Lm. split; [apply quotients_length; exact L|apply quotients_at; assumption]. Qed.
Lemma total_filter : forall (b : look -> bool) f ks, total (fun k => if b k then f k else 0) ks = total f (filter b ks).
Proof.
  intros b f. unfold total. induction ks as [|k ks IH]; cbn; [reflexivity|]. rewrite IH. destruct (b k); cbn; ring.
Qed.
Lemma total_ext : forall f g ks, (forall k, In k ks -> f k = g k) -> total f ks = total g ks.
Proof.
  intros f g. unfold total. induction ks as [|k ks IH]; intros H; cbn; [reflexivity|]. rewrite (H k) by (left; reflexivity). rewrite IH by (intros; apply H; right; assumption). reflexivity.
Qed.
Lemma total_one : forall ks, total (fun _ => 1) ks = INR (length ks).
Proof.
  unfold total. induction ks as [|k ks IH]; [reflexivity|]. cbn [fold_right length]. rewrite IH, S_INR. ring.
Qed.

Lemma multilooked_sample : forall v N zp ks, (2 <= N * zp)%nat -> Forall (proper v N zp) ks ->
  exists w, multilooked v N zp ks = Some w /\ length w = (N * zp)%nat /\
    forall m, (m < N * zp)%nat -> nth m w None = sample v N zp ks m.
Proof.
  intros v N zp ks P2 F. unfold multilooked.
  destruct (add_looks_sum v N zp P2 ks (repeat 0 (N * zp)) (repeat 0 (N * zp)) F (repeat_length _ _) (repeat_length _ _)) as (s & c & E & Ls & Lc & V).
  rewrite E. exists (quotients s c). split; [reflexivity|].
  split; [destruct (quotients_nth s c 0%nat ltac:(lia) ltac:(lia)) as (A & _); lia|].
  intros m Lm. destruct (quotients_nth s c m ltac:(lia) ltac:(lia)) as (_ & B). rewrite B. destruct (V m Lm) as (V1 & V2).
  rewrite V1, V2, !repeat_nth by exact Lm. rewrite !Rplus_0_l. unfold sample.
  set (us := filter (used v N zp) ks).
  assert (T1 : total (term v N zp m) ks = total (fun k => weight0 v k * nth m (k_row k) 0) (filter (visible v N zp m) us)).
  { unfold us, term. rewrite (total_filter (used v N zp)), (total_filter (visible v N zp m)). reflexivity. }
  assert (T2 : total (unit v N zp m) ks = INR (length (if v_avoid v then filter (visible v N zp m) us else us))).
  { unfold us, unit. rewrite (total_filter (used v N zp)). destruct (v_avoid v).
    - rewrite (total_filter (visible v N zp m)). apply total_one.
    - apply total_one. }
  rewrite T1, T2. unfold quotient.
  destruct (length (if v_avoid v then filter (visible v N zp m) us else us)) as [|n] eqn:Ln.
  - destruct (Req_EM_T (INR 0) 0) as [|C]; [reflexivity|exfalso; apply C; reflexivity].
  - destruct (Req_EM_T (INR (S n)) 0) as [C|]; [exfalso; revert C; apply not_0_INR; discriminate|reflexivity].
Qed.

(** * A point target *)

Lemma filter_all : forall {A} (b : A -> bool) l, (forall x, In x l -> b x = true) -> filter b l = l.
Proof.
  intros A b. induction l as [|x l IH]; intros H; cbn; [reflexivity|]. rewrite (H x) by (left; reflexivity).
  f_equal. apply IH. intros y I. apply H. right. exact I.
Qed.
Lemma total_const : forall f c ks, (forall k, In k ks -> f k = c) -> total f ks = INR (length ks) * c.
Proof.
  intros f c. induction ks as [|k ks IH]; intros H; [unfold total; cbn; ring|]. rewrite total_cons. cbn [length]. rewrite S_INR.
  rewrite (H k) by (left; reflexivity). rewrite IH by (intros; apply H; right; assumption). ring.
Qed.
Lemma total_nonneg : forall f ks, (forall k, In k ks -> 0 <= f k) -> 0 <= total f ks.
Proof.
  intros f. induction ks as [|k ks IH]; intros H; [unfold total; cbn; lra|]. rewrite total_cons.
  assert (0 <= f k) by (apply H; left; reflexivity). assert (0 <= total f ks) by (apply IH; intros; apply H; right; assumption). lra.
Qed.
Lemma total_below : forall f c ks, (forall k, In k ks -> f k < c) -> ks <> [] -> total f ks < INR (length ks) * c.
Proof.
  intros f c. induction ks as [|k ks IH]; intros H N; [congruence|]. rewrite total_cons. cbn [length]. rewrite S_INR.
  assert (f k < c) by (apply H; left; reflexivity). destruct ks as [|k' ks].
  - unfold total. cbn. lra.
  - assert (total f (k' :: ks) < INR (length (k' :: ks)) * c) by (apply IH; [intros; apply H; right; assumption|discriminate]). lra.
Qed.
Lemma peak : forall v N zp ks c top, (2 <= N * zp)%nat -> v_weight v = None -> ks <> [] -> (c < N * zp)%nat ->
  (forall k, In k ks -> length (k_row k) = (N * zp)%nat /\ visible v N zp c k = true /\ nth c (k_row k) 0 = top /\
     forall m, (m < N * zp)%nat -> m <> c -> 0 <= nth m (k_row k) 0 < top) ->
  exists w, multilooked v N zp ks = Some w /\ length w = (N * zp)%nat /\ peaked w c top.
Proof.
  intros v N zp ks c top P2 W NE Lc H.
  assert (PR : Forall (proper v N zp) ks).
  { apply Forall_forall. intros k I. split; [apply (H k I)|]. unfold weight. rewrite W. eauto. }
  destruct (multilooked_sample v N zp ks P2 PR) as (w & E & L & V). exists w. split; [exact E|]. split; [exact L|].
  assert (W1 : forall k, weight0 v k = 1) by (intros k; unfold weight0, weight; rewrite W; reflexivity).
  assert (US : filter (used v N zp) ks = ks).
  { apply filter_all. intros k I. destruct (H k I) as (_ & VC & _). apply existsb_exists. exists c. split; [apply in_seq; lia|exact VC]. }
  assert (VS : filter (visible v N zp c) ks = ks) by (apply filter_all; intros k I; apply (H k I)).
  assert (LP : 0 < INR (length ks)) by (apply lt_0_INR; destruct ks; [congruence|cbn; lia]).
  assert (LN : exists n, length ks = S n) by (destruct ks; [congruence|cbn; eauto]).
  split; [rewrite L; exact Lc|]. split.
  - rewrite V by exact Lc. unfold sample. rewrite US, VS. replace (if v_avoid v then ks else ks) with ks by (destruct (v_avoid v); reflexivity).
    rewrite (total_const _ top) by (intros k I; rewrite W1; destruct (H k I) as (_ & _ & T & _); rewrite T; ring).
    destruct LN as (n & ->). f_equal. field. apply not_0_INR. discriminate.
  - intros m x Lm NEm X. rewrite L in Lm. rewrite V in X by exact Lm. unfold sample in X. rewrite US in X.
    set (vs := filter (visible v N zp m) ks) in *.
    assert (SUB : forall k, In k vs -> In k ks) by (intros k I; apply filter_In in I; apply I).
    assert (B1 : 0 <= total (fun k => weight0 v k * nth m (k_row k) 0) vs).
    { apply total_nonneg. intros k I. rewrite W1. destruct (H k (SUB k I)) as (_ & _ & _ & Q). specialize (Q m Lm NEm). lra. }
    assert (B2 : vs <> [] -> total (fun k => weight0 v k * nth m (k_row k) 0) vs < INR (length vs) * top).
    { intros N0. apply total_below; [|exact N0]. intros k I. rewrite W1. destruct (H k (SUB k I)) as (_ & _ & _ & Q). specialize (Q m Lm NEm). lra. }
    assert (TP : 0 < top).
    { destruct ks as [|k0 ks0]; [congruence|]. destruct (H k0 (or_introl eq_refl)) as (_ & _ & _ & Q). specialize (Q m Lm NEm). lra. }
    assert (LE : (length vs <= length ks)%nat) by (unfold vs; clear; induction ks as [|k ks IH]; cbn; [lia|]; destruct (visible v N zp m k); cbn; lia).
    set (n := length (if v_avoid v then vs else ks)) in *.
    assert (LNV : (length vs <= n)%nat) by (unfold n; destruct (v_avoid v); lia).
    destruct n as [|n]; [discriminate|]. injection X as <-.
    assert (NP : 0 < INR (S n)) by (apply lt_0_INR; lia).
    split.
    + apply Rmult_le_pos; [exact B1|left; apply Rinv_0_lt_compat; exact NP].
    + apply (Rmult_lt_reg_r (INR (S n))); [exact NP|]. unfold Rdiv. rewrite Rmult_assoc, Rinv_l, Rmult_1_r by lra.
      assert (LI : INR (length vs) <= INR (S n)) by (apply le_INR; exact LNV).
      destruct vs as [|k1 vs1] eqn:EV.
      * unfold total. cbn [fold_right]. apply Rmult_lt_0_compat; assumption.
      * specialize (B2 ltac:(discriminate)). assert (INR (length (k1 :: vs1)) * top <= INR (S n) * top) by (apply Rmult_le_compat_r; lra). lra.
Qed.

(** The middle of the waveform is in sight when the shift is less than half the
    window. *)
Lemma middle_visible : forall v N zp k, (0 < zp)%nat -> Rabs (k_shift k) < (INR N - 1) / 2 -> inside v (k_look k) = true ->
  visible v N zp ((N * zp) / 2) k = true.
Proof.
  intros v N zp k Z H I. unfold visible. destruct (v_mask v); cbn [negb orb]; [|reflexivity]. rewrite I, andb_true_r.
  destruct (r_round_nearest (k_shift k)) as (A & _). set (z := r_round (k_shift k)) in *.
  assert (B : (2 * Z.abs z < Z.of_nat N)%Z).
  { apply lt_IZR. rewrite mult_IZR, abs_IZR, <- INR_IZR_INZ.
    pose proof (Rabs_triang (k_shift k) (- (k_shift k - IZR z))) as T. rewrite Rabs_Ropp in T.
    replace (k_shift k + - (k_shift k - IZR z)) with (IZR z) in T by ring. lra. }
  assert (D : (2 * ((N * zp) / 2) <= N * zp < 2 * ((N * zp) / 2) + 2)%nat).
  { pose proof (Nat.div_mod (N * zp) 2 ltac:(lia)). pose proof (Nat.mod_upper_bound (N * zp) 2 ltac:(lia)). lia. }
  apply andb_true_intro. split; [apply Z.leb_le|apply Z.ltb_lt]; set (c := ((N * zp) / 2)%nat) in *; nia.
Qed.

(** * Runs *)
Import ChainModel.

Lemma chosen_kept : forall u input p, chosen u input p = kept_looks u input p.
Proof.
  intros u input p. unfold chosen, kept_looks. f_equal. f_equal. apply map_ext. intros e.
  unfold look_at, WholeSpec.look_of, data, record_of. destruct (nth_error input (fst (fst e))) as [[r| |]|]; try reflexivity.
Qed.
Lemma kept_in : forall u input p e, In e (kept_looks u input p) -> In e (pr_stack p).
Proof.
  intros u input p e I. unfold kept_looks in I. apply in_flat_map in I as (i & _ & I).
  destruct (nth_error (pr_stack p) i) as [e'|] eqn:N; [|destruct I]. destruct I as [<-|[]]. eapply nth_error_In; exact N.
Qed.
(** The record and the angle of an entry. *)
Definition entry_is (u : setup) (input : list witem) (y : vec) (e : nat * nat * option R) (ra : rec * R) : Prop :=
  nth_error input (fst (fst e)) = Some (WValid (fst ra)) /\ snd e = Some (snd ra) /\ sees_at u (fst ra) y (snd ra).
Lemma entries : forall u input p x l, seen_by_stack u input p -> pr_surf p = Some x -> SurfModel.s_loc x = Some l ->
  forall es, (forall e, In e es -> In e (pr_stack p)) -> exists ras, Forall2 (entry_is u input (SurfModel.l_surf l)) es ras.
Proof.
  intros u input p x l (x' & X & _ & S) X' L es. rewrite X in X'. injection X' as ->.
  induction es as [|[[i j] a] es IH]; intros H; [exists []; constructor|].
  destruct (IH ltac:(intros e I; apply H; right; exact I)) as (ras & F).
  destruct (S i j a (H _ (or_introl eq_refl))) as (l' & r & a' & L' & N & -> & SA). rewrite L in L'. injection L' as <-.
  exists ((r, a') :: ras). constructor; [|exact F]. split; [exact N|]. split; [reflexivity|exact SA].
Qed.
Lemma plain_calibrated : forall k N w, LinModel.calibrated false false k N w = Some (LinModel.r_burst w).
Proof. intros k N [o ag sg pw ph tb]. destruct o. reflexivity. Qed.
Lemma steered_entries : forall u input y es ras, u_cal1 u = false -> u_cal2 u = false -> Forall2 (entry_is u input y) es ras ->
  exists raws, all_some (map (steered u input) es) = Some raws /\
    LinModel.calibrated_all false false (u_k u) (c_N (u_cf u)) raws = Some (map (fun ra => aimed u (fst ra) (snd ra)) ras).
Proof.
  intros u input y es ras C1 C2 F. induction F as [|e [r a] es ras (N & A & _) F (raws & IH1 & IH2)]; [exists []; split; reflexivity|].
  cbn [map fst snd] in *. assert (H : held u input (fst (fst e)) (w_echo r) = Some (PointModel.b_wfm (LinModel.r_burst (w_echo r)))).
  { unfold held. rewrite C1, C2, plain_calibrated. destruct (after_gap _ _ _ _); reflexivity. }
  assert (S : exists q, steered u input e = Some q /\ LinModel.r_burst q = aimed u r a).
  { unfold steered. rewrite N, A, H. eexists. split; reflexivity. }
  destruct S as (q & S1 & S2). rewrite S1. exists (q :: raws). cbn [all_some]. rewrite IH1. split; [reflexivity|].
  cbn [LinModel.calibrated_all]. rewrite plain_calibrated, IH2, S2. reflexivity.
Qed.
Lemma shift_heard : forall u l r a, GcorrModel.f_doppler (u_flags u) = true -> GcorrModel.f_slant (u_flags u) = true ->
  PointSpec.sound (u_k u) -> PointModel.b_t0 (LinModel.r_burst (w_echo r)) <> 0 ->
  forall e row input k, nth_error input (fst (fst e)) = Some (WValid r) -> snd e = Some a ->
    look_of u input (ground l) e row = Some k -> k_shift k = - heard u r (SurfModel.l_surf l) a.
Proof.
  intros u l r a F1 F2 (_ & C & LA & BW & _) T e row input k N A K. unfold look_of, record_of in K. rewrite N, A in K.
  destruct (dop u (prepared u r)) as [d|]; [|discriminate]. injection K as <-. cbn [k_shift].
  unfold GcorrModel.correct_beam, GcorrModel.doppler_correction, GcorrModel.slant_correction, GcorrModel.win_delay_correction. rewrite F1, F2.
  cbn [GcorrModel.o_doppler GcorrModel.o_slant GcorrModel.o_wdc GcorrModel.g_speed GcorrModel.g_angle GcorrModel.g_t0 GcorrModel.g_wd GcorrModel.s_wd ground].
  unfold heard, PointSpec.beat, PointSpec.doppler_hz.
  change (GcorrModel.range_to _ _) with (PointSpec.distance (aimed u r a) (vx (SurfModel.l_surf l)) (vy (SurfModel.l_surf l)) (vz (SurfModel.l_surf l))).
  cbn [aimed PointModel.b_speed PointModel.b_wd PointModel.b_t0 prepared SurfModel.locate_burst SurfModel.b_vel SurfModel.b_wd].
  field. repeat split; try assumption; apply Rgt_not_eq; assumption.
Qed.
Lemma looks_with_all : forall u input s y es ras, Forall2 (entry_is u input y) es ras -> forall rows, exists ks,
  looks_with u input s es rows = Some ks /\ length ks = Nat.min (length es) (length rows) /\
  forall i k, nth_error ks i = Some k -> exists e r a row, nth_error ras i = Some (r, a) /\ nth_error es i = Some e /\ nth_error rows i = Some row /\
    entry_is u input y e (r, a) /\ look_of u input s e row = Some k /\ k_row k = row.
Proof.
  intros u input s y es ras F. induction F as [|e [r a] es ras E F IH]; intros rows.
  - exists []. split; [reflexivity|]. split; [reflexivity|]. intros [|i] k H; discriminate.
  - destruct rows as [|row rows]; [exists []; split; [reflexivity|]; split; [reflexivity|]; intros [|i] k H; discriminate|].
    cbn [looks_with]. destruct (IH rows) as (ks & K1 & K2 & K3). rewrite K1.
    destruct (look_of u input s e row) as [k|] eqn:LK.
    + exists (k :: ks). split; [reflexivity|]. split; [cbn; lia|]. intros [|i] k' H.
      * injection H as <-. exists e, r, a, row. repeat split; try reflexivity; try exact LK; try apply E.
        unfold look_of in LK. destruct (record_of _ _); [|discriminate]. destruct (snd e); [|discriminate]. destruct (dop _ _); [|discriminate]. injection LK as <-. reflexivity.
      * apply K3 in H. destruct H as (e' & r' & a' & row' & H). exists e', r', a', row'. exact H.
    + exfalso. destruct E as (N & A & q & d & _ & D & _). unfold look_of, record_of in LK. cbn [fst snd] in *. rewrite N, A in LK.
      unfold dop in LK. cbn [prepared SurfModel.locate_burst SurfModel.b_lla SurfModel.b_vel] in LK. rewrite D in LK. discriminate.
Qed.

Lemma Forall2_right : forall {A B} (R : A -> B -> Prop) l l', Forall2 R l l' -> forall y, In y l' -> exists x, In x l /\ R x y.
Proof.
  intros A B R l l' F. induction F as [|x y l l' H F IH]; intros z I; [destruct I|].
  destruct I as [<-|I]; [exists x; split; [left; reflexivity|exact H]|]. destruct (IH z I) as (x' & I' & H'). exists x'. split; [right; exact I'|exact H'].
Qed.
(** A bright point where a surface was laid. *)
Lemma target : forall u v input p x l rows A, seen_by_stack u input p -> pr_surf p = Some x -> SurfModel.s_loc x = Some l ->
  pr_looks p = Some rows -> looks_of u input l p = Some rows ->
  GcorrModel.f_doppler (u_flags u) = true -> GcorrModel.f_slant (u_flags u) = true -> PointSpec.sound (u_k u) ->
  u_cal1 u = false -> u_cal2 u = false -> (2 <= c_N (u_cf u))%nat -> (0 < u_zp u)%nat -> (0 < c_looks (u_cf u))%nat -> (2 <= GcorrModel.k_n (u_k u))%nat ->
  v_weight v = None -> A <> 0 -> kept_looks u input p <> [] ->
  (forall e r a, In e (kept_looks u input p) -> nth_error input (fst (fst e)) = Some (WValid r) -> snd e = Some a ->
     sees_at u r (SurfModel.l_surf l) a ->
     holds_echo u (SurfModel.l_surf l) A r a /\
     forall d, dop u (prepared u r) = Some d -> inside v (DopModel.look_angle (SurfModel.g_k (u_g u)) d a) = true) ->
  exists w, wave_of u v input p = Some w /\ length w = (u_zp u * GcorrModel.k_n (u_k u))%nat /\
    peaked w ((u_zp u * GcorrModel.k_n (u_k u)) / 2) (PointProps.full_power A (c_N (u_cf u)) (GcorrModel.k_n (u_k u)) (u_zp u)).
Proof.
  intros u v input p x l rows A S X L PL LO F1 F2 SK C1 C2 HN2 HZ HL HK W NZ NE H. assert (HN : (0 < c_N (u_cf u))%nat) by lia.
  destruct (entries u input p x l S X L (kept_looks u input p) (kept_in u input p)) as (ras & F).
  assert (H2 : forall ra, In ra ras -> exists e, In e (kept_looks u input p) /\ entry_is u input (SurfModel.l_surf l) e ra).
  { intros ra. apply (Forall2_right _ _ _ F). }
  set (N := c_N (u_cf u)) in *. set (k := u_k u) in *. set (zp := u_zp u) in *.
  set (os := map (fun ra => aimed u (fst ra) (snd ra)) ras).
  assert (BEAM : forall ra, In ra ras -> PointSpec.in_beam N (aimed u (fst ra) (snd ra)) (snd ra) /\ holds_echo u (SurfModel.l_surf l) A (fst ra) (snd ra)).
  { intros [r a] I. destruct (H2 _ I) as (e & Ie & N1 & N2 & N3). cbn [fst snd] in *. destruct (H e r a Ie N1 N2 N3) as (HE & _).
    split; [|exact HE]. split; [reflexivity|]. split; [cbn; lia|]. exact (proj1 HE). }
  assert (US : Forall (PointSpec.usable N) os).
  { unfold os. apply Forall_map, Forall_forall. intros ra I. destruct (BEAM ra I) as (B & _ & (phi & E & _) & _). split; [eauto|exact E]. }
  destruct (steered_entries u input (SurfModel.l_surf l) _ _ C1 C2 F) as (raws & RW1 & RW2).
  unfold looks_of, LinModel.looks in LO. rewrite RW1, C1, C2, RW2 in LO. fold os N k zp in LO.
  change {| GcorrModel.sx := vx (SurfModel.l_surf l); GcorrModel.sy := vy (SurfModel.l_surf l); GcorrModel.sz := vz (SurfModel.l_surf l); GcorrModel.s_wd := SurfModel.l_wd l |} with (ground l) in LO.
  destruct (PointProps.C115_look (u_flags u) k (ground l) N zp (c_looks (u_cf u)) os F1 F2 SK HN HZ US) as (rows1 & E1 & LEN & Q1).
  destruct (PointProps.C115_focus (u_flags u) k (ground l) N zp (c_looks (u_cf u)) os F1 F2 SK HN HZ US) as (rows2 & E2 & Q2).
  rewrite LO in E1, E2. injection E1 as <-. injection E2 as <-.
  destruct (looks_with_all u input (ground l) (SurfModel.l_surf l) _ _ F rows) as (ks & K1 & K2 & K3).
  unfold wave_of. rewrite X, PL, L, chosen_kept, K1. fold k zp.
  rewrite (Nat.mul_comm zp (GcorrModel.k_n k)) in *.
  assert (LR : length ras = length (kept_looks u input p)) by (clear - F; induction F; cbn; auto).
  unfold os in LEN. rewrite map_length, LR in LEN.
  assert (LKS : length ks = Nat.min (length (kept_looks u input p)) (c_looks (u_cf u))) by (rewrite K2, LEN; lia).
  assert (KN : ks <> []).
  { intros EK. rewrite EK in LKS. cbn [length] in LKS. assert (0 < length (kept_looks u input p))%nat by (destruct (kept_looks u input p); [congruence|cbn; lia]). lia. }
  apply peak; [nia|exact W|exact KN|apply Nat.div_lt; nia|].
  intros kk IK. apply In_nth_error in IK as (i & IK). assert (Li : (i < length ks)%nat) by (apply nth_error_Some; congruence).
  destruct (K3 i kk IK) as (e & r & a & row & N1 & N2 & N3 & (M1 & M2 & M3) & LK & KR). cbn [fst snd] in *.
  destruct (H e r a (nth_error_In _ _ N2) M1 M2 M3) as (HE & IN).
  destruct (BEAM (r, a) (nth_error_In _ _ N1)) as (B & _). cbn [fst snd] in B.
  destruct HE as (T0 & (phi & EC) & SH).
  assert (NO : nth_error os i = Some (aimed u r a)) by (unfold os; rewrite nth_error_map, N1; reflexivity).
  assert (NR : nth i rows [] = row) by (apply nth_error_nth; exact N3).
  destruct (Q1 i (aimed u r a) a A phi _ a NO ltac:(lia) B EC) as (LRow & _). rewrite NR in LRow.
  destruct (Q2 i (aimed u r a) a A phi NO ltac:(lia) B EC) as (TOP & LOW). cbv zeta in LOW; rewrite NR in TOP, LOW.
  rewrite KR. split; [exact LRow|]. split.
  - apply middle_visible; [exact HZ| |].
    + rewrite (shift_heard u l r a F1 F2 SK T0 e row input kk M1 M2 LK), Rabs_Ropp. exact SH.
    + unfold look_of, record_of in LK. rewrite M1, M2 in LK. destruct (dop u (prepared u r)) as [d|]; [|discriminate]. injection LK as <-. cbn [k_look]. apply IN. reflexivity.
  - split; [exact TOP|]. intros m Lm NEm. split; [|apply LOW; assumption].
    destruct (PointProps.C115_off_beam (u_flags u) k (ground l) N zp (c_looks (u_cf u)) os F1 F2 SK HN2 HZ US) as (rows3 & E3 & Q3).
    rewrite LO in E3. injection E3 as <-.
    rewrite <- NR. apply (Q3 i (aimed u r a) a A phi _ a m NO ltac:(lia) B EC); [rewrite Nat.mul_comm; exact Lm|exact NZ].
Qed.

Lemma looks_exist : forall u v input p x l A, seen_by_stack u input p -> pr_surf p = Some x -> SurfModel.s_loc x = Some l -> plain u v ->
  (forall e r a, In e (kept_looks u input p) -> nth_error input (fst (fst e)) = Some (WValid r) -> snd e = Some a ->
     sees_at u r (SurfModel.l_surf l) a -> holds_echo u (SurfModel.l_surf l) A r a) ->
  exists rows, looks_of u input l p = Some rows.
Proof.
  intros u v input p x l A S X L [F1 F2 SK C1 C2 HN2 HZ HL HK W] H. assert (HN : (0 < c_N (u_cf u))%nat) by lia.
  destruct (entries u input p x l S X L (kept_looks u input p) (kept_in u input p)) as (ras & F).
  assert (H2 : forall ra, In ra ras -> exists e, In e (kept_looks u input p) /\ entry_is u input (SurfModel.l_surf l) e ra).
  { intros ra. apply (Forall2_right _ _ _ F). }
  set (N := c_N (u_cf u)) in *. set (k := u_k u) in *. set (zp := u_zp u) in *.
  set (os := map (fun ra => aimed u (fst ra) (snd ra)) ras).
  assert (US : Forall (PointSpec.usable N) os).
  { unfold os. apply Forall_map, Forall_forall. intros [r a] I. destruct (H2 _ I) as (e & Ie & N1 & N2 & N3). cbn [fst snd] in *.
    destruct (H e r a Ie N1 N2 N3) as (T0 & (phi & E & _) & _). split; [|exact E]. exists a. split; [reflexivity|]. split; [cbn; lia|exact T0]. }
  destruct (steered_entries u input (SurfModel.l_surf l) _ _ C1 C2 F) as (raws & RW1 & RW2).
  unfold looks_of, LinModel.looks. rewrite RW1, C1, C2, RW2. fold os N k zp.
  destruct (PointProps.C115_look (u_flags u) k (ground l) N zp (c_looks (u_cf u)) os F1 F2 SK HN HZ US) as (rows1 & E1 & _).
  exists rows1. exact E1.
Qed.
Lemma run_target : forall u v cancel input p x l A, SurfModel.g_focus (u_g u) = false -> c_approx (u_cf u) = false ->
  beams_fit u (x_angles (wfinal (whole u cancel input))) ->
  In p (x_out (wfinal (whole u cancel input))) -> pr_surf p = Some x -> SurfModel.s_loc x = Some l -> plain u v -> admitted u v input p ->
  A <> 0 -> pr_bursts p <> [] -> (forall i, In i (pr_bursts p) -> bright u input (SurfModel.l_surf l) A i) ->
  exists w, wave_of u v input p = Some w /\ length w = (u_zp u * GcorrModel.k_n (u_k u))%nat /\
    peaked w ((u_zp u * GcorrModel.k_n (u_k u)) / 2) (PointProps.full_power A (c_N (u_cf u)) (GcorrModel.k_n (u_k u)) (u_zp u)).
Proof.
  intros u v cancel input p x l A NF AP BF IP X L PL AD NZ NB BR.
  pose proof (C122_stack u cancel input NF) as ST. rewrite Forall_forall in ST. specialize (ST p IP).
  destruct (C122_looks u cancel input NF p IP) as (PB & LK). destruct (LK x l X L) as (_ & LQ). specialize (LQ AP BF).
  assert (HE : forall e r a, In e (kept_looks u input p) -> nth_error input (fst (fst e)) = Some (WValid r) -> snd e = Some a ->
     sees_at u r (SurfModel.l_surf l) a -> holds_echo u (SurfModel.l_surf l) A r a).
  { intros e r a I N1 N2 (q & d & _ & _ & B & _). apply (BR (fst (fst e))); [rewrite PB; apply in_map_iff; eauto|exact N1|exact B]. }
  destruct (looks_exist u v input p x l A ST X L PL HE) as (rows & LO).
  pose proof PL as [F1 F2 SK C1 C2 HN2 HZ HL HK W].
  apply (target u v input p x l rows A); auto.
  - rewrite LQ. exact LO.
  - intros EK. apply NB. rewrite PB, EK. reflexivity.
  - intros e r a I N1 N2 SA. split; [apply (HE e r a I N1 N2 SA)|]. intros d D.
    apply (AD e); [apply (kept_in u input p), I|]. unfold look_at, data, record_of. rewrite N1, N2. cbn [option_map]. rewrite D. reflexivity.
Qed.

(** No burst has more beams than pulses. *)
From Verif Require Import ChainInv ChainMain ChainProofs WholeChain.
Lemma step_fits : forall u input n w r w' o, so_far u input o n w -> Forall (fun x => (length (snd x) <= c_N (u_cf u))%nat) (x_angles w) ->
  wbody u input w = Some (r, w') ->
  Forall (fun x => (length (snd x) <= c_N (u_cf u))%nat) (x_angles w') /\
  exists o', so_far u input o' n w /\ body (u_cf u) o' 0 (x_s w) = r /\ x_s w' = step_st r.
Proof.
  intros u input n w r w' o SO F B. pose proof (wbody_merge u input o n w r w' SO B) as M. cbv zeta in M.
  destruct M as (M1 & M2 & M3). split; [|eexists; split; [exact M1|]; split; [exact M2|exact M3]].
  pose proof (steps_inv _ _ _ n _ (x_s w) (init_inv _ _ (map erase input)) (proj2 M1)) as IV.
  destruct (step_KI u input _ (x_s w) r IV M2) as (KI' & _).
  unfold wbody in B. destruct (geo_read u input w) as [t1 ok]. destruct ok; [|discriminate]. injection B as B1 <-.
  unfold advance. cbn [x_angles]. apply Forall_app. split; [exact F|]. apply Forall_map, Forall_forall. intros a I.
  cbn [stored snd]. rewrite map_length. apply (k_len _ _ _ _ _ KI'). rewrite <- B1.
  rewrite <- (firstn_skipn (length (q_az (s_q (x_s w)))) (q_az _)). apply in_or_app. right. exact I.
Qed.
Lemma whole_fits : forall u input cancel, beams_fit u (x_angles (wfinal (whole u cancel input))).
Proof.
  intros u input cancel.
  assert (G : Forall (fun x => (length (snd x) <= c_N (u_cf u))%nat) (x_angles (wfinal (whole u cancel input)))).
  { pose proof (wloop_ind u input (fun k w => (exists o, so_far u input o k w) /\ Forall (fun x => (length (snd x) <= c_N (u_cf u))%nat) (x_angles w))
                  cancel (enough [] (map erase input)) 0 (wst0 input)) as H.
    assert (ST : forall (k : nat) w s w', (exists o, so_far u input o k w) /\ Forall (fun x => (length (snd x) <= c_N (u_cf u))%nat) (x_angles w) ->
      wbody u input w = Some (BCont s, w') -> (exists o, so_far u input o (S k) w') /\ Forall (fun x => (length (snd x) <= c_N (u_cf u))%nat) (x_angles w')).
    { intros k w s w' ((o & SO) & F) B. destruct (step_fits u input k w _ w' o SO F B) as (F' & o' & (M1 & M2) & M3 & M4). split; [|exact F'].
      exists o'. split; [exact M1|]. rewrite M4. eapply steps_snoc; [exact M2|exact M3]. }
    specialize (H ST ltac:(split; [exists (oracle0 u input); apply so_far_0|constructor])). unfold whole.
    destruct (wloop u input cancel (enough [] (map erase input)) 0 (wst0 input)) as [w c|e w|w]; cbn [wfinal].
    - destruct H as (k & w0 & r & ((o & SO) & F) & B). exact (proj1 (step_fits u input k w0 r w o SO F B)).
    - destruct H as (k & w0 & r & ((o & SO) & F) & B). exact (proj1 (step_fits u input k w0 r w o SO F B)).
    - destruct H as (k & (_ & F) & _). exact F. }
  rewrite Forall_forall in G. intros i l I. exact (G (i, l) I).
Qed.

(** * Louder echoes *)

Definition loud (q : R) (k k' : look) : Prop :=
  k_row k' = map (Rmult q) (k_row k) /\ k_shift k' = k_shift k /\ k_look k' = k_look k /\ k_point k' = k_point k.
Lemma zipw_scale : forall {B} q (f : R -> B -> R) a b, (forall x y, f (q * x) y = q * f x y) ->
  zipw f (map (Rmult q) a) b = map (Rmult q) (zipw f a b).
Proof. intros B q f a b H. revert b. induction a as [|x a IH]; intros [|y b]; cbn; [reflexivity..|]. rewrite H, IH. reflexivity. Qed.
Lemma zipw_plus_scale : forall q a b, zipw Rplus (map (Rmult q) a) (map (Rmult q) b) = map (Rmult q) (zipw Rplus a b).
Proof. intros q. induction a as [|x a IH]; intros [|y b]; cbn; [reflexivity..|]. rewrite IH. f_equal. ring. Qed.
Lemma weighted_scale : forall q v k k' row, k_point k' = k_point k ->
  weighted v k' (map (Rmult q) row) = option_map (map (Rmult q)) (weighted v k row).
Proof.
  intros q v k k' row E. unfold weighted. destruct (v_weight v) as [f|]; [|reflexivity]. rewrite E. destruct (f (k_point k)) as [w|]; [|reflexivity].
  cbn [option_map]. f_equal. rewrite !map_map. apply map_ext. intros x. ring.
Qed.
Lemma add_looks_scale : forall q v N zp ks ks', Forall2 (loud q) ks ks' -> forall sum cnt,
  add_looks v N zp ks' (map (Rmult q) sum) cnt = option_map (fun p => (map (Rmult q) (fst p), snd p)) (add_looks v N zp ks sum cnt).
Proof.
  intros q v N zp ks ks' F. induction F as [|k k' ks ks' (E1 & E2 & E3 & E4) F IH]; intros sum cnt; [reflexivity|].
  cbn [add_looks].
  assert (M : mask_of v N zp k' = mask_of v N zp k) by (unfold mask_of; rewrite E2, E3; reflexivity).
  assert (V : vector_of v N zp k' = vector_of v N zp k) by (unfold vector_of; rewrite M; reflexivity).
  assert (R0 : masked v N zp k' = map (Rmult q) (masked v N zp k)).
  { unfold masked. rewrite M, E1. destruct (v_mask v); [|reflexivity]. apply zipw_scale. intros x y. ring. }
  rewrite R0, M, V, (weighted_scale q v k k' _ E4). destruct (weighted v k (masked v N zp k)) as [row|]; [|reflexivity]. cbn [option_map].
  destruct (vector_of v N zp k) as [z|]; [|reflexivity]. destruct (z =? 0)%Z; [apply IH|].
  rewrite (zipw_scale q Rmult) by (intros x y; ring). rewrite zipw_plus_scale. apply IH.
Qed.
Lemma quotients_scale : forall q s c, quotients (map (Rmult q) s) c = map (option_map (Rmult q)) (quotients s c).
Proof.
  intros q. induction s as [|x s IH]; intros [|y c]; cbn; [reflexivity..|]. rewrite IH. f_equal. unfold quotient.
  destruct (Req_EM_T y 0); [reflexivity|]. cbn. f_equal. unfold Rdiv. ring.
Qed.
Lemma multilooked_scale : forall q v N zp ks ks', Forall2 (loud q) ks ks' ->
  multilooked v N zp ks' = option_map (map (option_map (Rmult q))) (multilooked v N zp ks).
Proof.
  intros q v N zp ks ks' F. unfold multilooked.
  pose proof (add_looks_scale q v N zp ks ks' F (repeat 0 (N * zp)) (repeat 0 (N * zp))) as H.
  replace (map (Rmult q) (repeat 0 (N * zp))) with (repeat 0 (N * zp)) in H.
  - rewrite H. destruct (add_looks v N zp ks _ _) as [[s c]|]; [|reflexivity]. cbn [option_map fst snd]. f_equal. apply quotients_scale.
  - generalize (N * zp)%nat as n. induction n as [|n IH]; cbn; [reflexivity|]. rewrite <- IH, Rmult_0_r. reflexivity.
Qed.
Lemma louder_rows : forall g gs rows rows', (forall x, In x gs -> x = g) -> LinSpec.louder gs rows rows' ->
  rows' = map (map (Rmult (Cnorm2 g))) rows.
Proof.
  intros g gs rows rows' H L. induction L; cbn; try reflexivity.
  rewrite (H g0) by (left; reflexivity). f_equal. apply IHL. intros x I. apply H. right. exact I.
Qed.
Lemma record_louder : forall gain n input i,
  record_of (louder_input gain n input) i =
  option_map (fun r => mk_rec (w_time r) (w_geo r) (LinSpec.amplified (gain (n + i)%nat) (w_echo r))) (record_of input i).
Proof.
  intros gain n input. revert n. induction input as [|x l IH]; intros n [|i]; cbn [louder_input].
  - reflexivity.
  - reflexivity.
  - unfold record_of. cbn [nth_error]. rewrite Nat.add_0_r. destruct x; reflexivity.
  - specialize (IH (S n) i). unfold record_of in *. cbn [nth_error]. rewrite IH. replace (S n + i)%nat with (n + S i)%nat by lia. reflexivity.
Qed.
Lemma look_louder : forall g u input s e row k, look_of u input s e row = Some k ->
  exists k', look_of u (louder_input (fun _ => g) 0 input) s e (map (Rmult (Cnorm2 g)) row) = Some k' /\ loud (Cnorm2 g) k k'.
Proof.
  intros g u input s e row k H. unfold look_of in *. rewrite record_louder. destruct (record_of input (fst (fst e))) as [r|]; [|discriminate].
  cbn [option_map]. destruct (snd e) as [a|]; [|discriminate].
  change (prepared u {| w_time := w_time r; w_geo := w_geo r; w_echo := LinSpec.amplified g (w_echo r) |}) with (prepared u r).
  destruct (dop u (prepared u r)) as [d|]; [|discriminate]. injection H as <-. eexists. split; [reflexivity|]. repeat split.
Qed.
Lemma look_louder_none : forall g u input s e row, look_of u input s e row = None ->
  look_of u (louder_input (fun _ => g) 0 input) s e (map (Rmult (Cnorm2 g)) row) = None.
Proof.
  intros g u input s e row H. unfold look_of in *. rewrite record_louder. destruct (record_of input (fst (fst e))) as [r|]; [|reflexivity].
  cbn [option_map]. destruct (snd e) as [a|]; [|reflexivity].
  change (prepared u {| w_time := w_time r; w_geo := w_geo r; w_echo := LinSpec.amplified g (w_echo r) |}) with (prepared u r).
  destruct (dop u (prepared u r)) as [d|]; [discriminate|reflexivity].
Qed.
Lemma looks_louder : forall g u input s es rows,
  match looks_with u input s es rows, looks_with u (louder_input (fun _ => g) 0 input) s es (map (map (Rmult (Cnorm2 g))) rows) with
  | Some ks, Some ks' => Forall2 (loud (Cnorm2 g)) ks ks'
  | None, None => True
  | _, _ => False
  end.
Proof.
  intros g u input s. induction es as [|e es IH]; intros [|row rows]; cbn [looks_with map]; try constructor.
  specialize (IH rows). destruct (look_of u input s e row) as [k|] eqn:K.
  - destruct (look_louder g u input s e row k K) as (k' & K' & LD). rewrite K'.
    destruct (looks_with u input s es rows) as [ks|], (looks_with u _ s es _) as [ks'|]; try contradiction; [|exact I]. constructor; assumption.
  - rewrite (look_louder_none g u input s e row K). exact I.
Qed.
Lemma chosen_louder : forall g u input p p', pr_stack p' = pr_stack p ->
  chosen u (louder_input (fun _ => g) 0 input) p' = chosen u input p.
Proof.
  intros g u input p p' E. unfold chosen. rewrite E. f_equal. f_equal. apply map_ext. intros e. unfold look_at, data. rewrite record_louder.
  destruct (record_of input (fst (fst e))) as [r|]; reflexivity.
Qed.
Lemma wave_louder : forall g u v input p p', louder_product (fun _ => g) p p' ->
  wave_of u v (louder_input (fun _ => g) 0 input) p' = option_map (map (option_map (Rmult (Cnorm2 g)))) (wave_of u v input p).
Proof.
  intros g u v input p p' (_ & E1 & E2 & _ & L). unfold wave_of. rewrite E1. destruct (pr_surf p) as [x|]; [|reflexivity].
  destruct (pr_looks p) as [rows|], (pr_looks p') as [rows'|]; cbn in L; try contradiction; [|reflexivity].
  destruct (SurfModel.s_loc x) as [l|]; [|reflexivity].
  assert (R0 : rows' = map (map (Rmult (Cnorm2 g))) rows).
  { apply (louder_rows g (map (fun _ => g) (pr_bursts p))); [|exact L]. intros y I. apply in_map_iff in I as (i & <- & _). reflexivity. }
  rewrite (chosen_louder g u input p p' E2), R0. pose proof (looks_louder g u input (ground l) (chosen u input p) rows) as H.
  destruct (looks_with u input (ground l) (chosen u input p) rows) as [ks|], (looks_with u _ (ground l) (chosen u input p) _) as [ks'|]; try contradiction; [|reflexivity].
  apply multilooked_scale. exact H.
Qed.

(** * Counts *)
Lemma all_some_map : forall {A} (f : A -> A) l, all_some (map (option_map f) l) = option_map (map f) (all_some l).
Proof. intros A f. induction l as [|[x|] l IH]; cbn; [reflexivity| |reflexivity]. rewrite IH. destruct (all_some l); reflexivity. Qed.
Lemma max_scale : forall q l x, 0 < q -> fold_left Rmax (map (Rmult q) l) (q * x) = q * fold_left Rmax l x.
Proof.
  intros q l. induction l as [|y l IH]; intros x Q; cbn; [reflexivity|]. rewrite RmaxRmult by lra. apply IH. exact Q.
Qed.
Lemma counts_scale : forall rnd q w, 0 < q ->
  counts rnd (map (option_map (Rmult q)) w) = option_map (fun p => (q * fst p, snd p)) (counts rnd w).
Proof.
  intros rnd q w Q. unfold counts, scale_factor. rewrite all_some_map. destruct (all_some w) as [[|x l]|]; [reflexivity| |reflexivity].
  cbn [option_map map]. rewrite max_scale by exact Q. set (s := fold_left Rmax l x).
  destruct (Req_EM_T s 0) as [S0|S0].
  - rewrite S0, Rmult_0_r. destruct (Req_EM_T 0 0); [reflexivity|congruence].
  - destruct (Req_EM_T (q * s) 0) as [C|_]; [exfalso; apply Rmult_integral in C; lra|]. cbn [option_map fst snd].
    assert (E : forall y, q * y / (q * s) = y / s) by (intros y; field; lra).
    rewrite E. f_equal. f_equal. f_equal. rewrite map_map. apply map_ext. intros y. rewrite E. reflexivity.
Qed.
Lemma all_some_nth : forall {A} (w : list (option A)) l m d, all_some w = Some l -> (m < length w)%nat -> nth m w None = Some (nth m l d).
Proof.
  intros A. induction w as [|[x|] w IH]; intros l m d E L; cbn in *; try lia; [|discriminate].
  destruct (all_some w) as [l'|]; [|discriminate]. injection E as <-. destruct m; [reflexivity|]. cbn. apply IH; [reflexivity|lia].
Qed.
Lemma all_some_length : forall {A} (w : list (option A)) l, all_some w = Some l -> length l = length w.
Proof.
  intros A. induction w as [|[x|] w IH]; intros l E; cbn in *; try discriminate; [injection E as <-; reflexivity|].
  destruct (all_some w) as [l'|]; [|discriminate]. injection E as <-. cbn. rewrite (IH l' eq_refl). reflexivity.
Qed.
Lemma max_is : forall l x top, (forall y, In y (x :: l) -> y <= top) -> In top (x :: l) -> fold_left Rmax l x = top.
Proof.
  induction l as [|y l IH]; intros x top H I; cbn [fold_left].
  - destruct I as [<-|[]]. reflexivity.
  - apply IH.
    + intros z [<-|Z]; [apply Rmax_lub; apply H; cbn; auto|apply H; right; right; exact Z].
    + destruct I as [->|[->|I]]; [| |right; exact I]; left; [apply Rmax_left|apply Rmax_right]; apply H; cbn; auto.
Qed.
Lemma counts_peak : forall rnd w c top, (1 < length w)%nat -> peaked w c top -> (forall m, (m < length w)%nat -> nth m w None <> None) ->
  exists ns, counts rnd w = Some (top, ns) /\ length ns = length w /\ nth c ns 0%Z = rnd 4294967294 /\
    forall m, (m < length w)%nat -> m <> c -> exists x, nth m ns 0%Z = rnd x /\ 0 <= x < 4294967294.
Proof.
  intros rnd w c top L1 (LC & TOP & LOW) DEF.
  assert (EX : exists l, all_some w = Some l).
  { clear - DEF. induction w as [|[x|] w IH]; cbn; [eauto| |exfalso; apply (DEF 0%nat); [cbn; lia|reflexivity]].
    destruct IH as (l & ->); [|cbn; eauto]. intros m Lm. apply (DEF (S m)). cbn. lia. }
  destruct EX as (l & E). pose proof (all_some_length w l E) as LL.
  assert (TP : 0 < top).
  { assert (M : exists m, (m < length w)%nat /\ m <> c) by (destruct c; [exists 1%nat|exists 0%nat]; lia). destruct M as (m & Lm & NE).
    specialize (LOW m (nth m l 0) Lm NE (all_some_nth w l m 0 E Lm)). lra. }
  assert (NC : nth c l 0 = top) by (pose proof (all_some_nth w l c 0 E LC) as A; rewrite TOP in A; injection A as A; symmetry; exact A).
  assert (SF : scale_factor w = Some top).
  { unfold scale_factor. rewrite E. destruct l as [|x l']; [cbn in LL; lia|]. f_equal. apply max_is.
    - intros y I. apply (In_nth _ _ 0) in I as (m & Lm & <-). rewrite LL in Lm. destruct (Nat.eq_dec m c) as [->|NE]; [rewrite NC; lra|].
      specialize (LOW m _ Lm NE (all_some_nth w (x :: l') m 0 E Lm)). lra.
    - rewrite <- NC at 1. apply nth_In. rewrite LL. exact LC. }
  unfold counts. rewrite SF, E. destruct (Req_EM_T top 0) as [Z|_]; [lra|]. eexists. split; [reflexivity|]. split; [rewrite map_length; exact LL|].
  assert (NM : forall m, (m < length w)%nat -> nth m (map (fun x => rnd (x / top / (1 / 4294967294))) l) 0%Z = rnd (nth m l 0 / top / (1 / 4294967294))).
  { intros m Lm. rewrite (nth_indep _ 0%Z (rnd (0 / top / (1 / 4294967294)))) by (rewrite map_length, LL; exact Lm).
    exact (map_nth (fun x => rnd (x / top / (1 / 4294967294))) l 0 m). }
  split.
  - rewrite NM by exact LC. rewrite NC. f_equal. field. lra.
  - intros m Lm NE. rewrite NM by exact Lm. eexists. split; [reflexivity|].
    specialize (LOW m _ Lm NE (all_some_nth w l m 0 E Lm)).
    replace (nth m l 0 / top / (1 / 4294967294)) with (nth m l 0 / top * 4294967294) by (field; lra).
    assert (0 <= nth m l 0 / top < 1).
    { split; [apply Rmult_le_pos; [lra|left; apply Rinv_0_lt_compat; exact TP]|]. apply (Rmult_lt_reg_r top); [exact TP|]. unfold Rdiv. rewrite Rmult_assoc, Rinv_l by lra. lra. }
    lra.
Qed.

(** * The mask and the window *)
Lemma window_lemma : forall v N zp m k, v_mask v = true -> (0 < zp)%nat ->
  let b := INR m - INR zp * k_shift k in
  let half := INR zp / 2 in
  (visible v N zp m k = true -> inside v (k_look k) = true /\ - half <= b <= INR (N * zp) - 1 + half) /\
  (inside v (k_look k) = true -> half <= b < INR (N * zp) - half -> visible v N zp m k = true).
Proof.
  intros v N zp m k VM Z b half. destruct (r_round_nearest (k_shift k)) as (NR & _). unfold visible. rewrite VM. cbn [negb orb].
  set (z := r_round (k_shift k)) in *. assert (ZP : 0 < INR zp) by (apply lt_0_INR; exact Z).
  assert (D : Rabs (b - IZR (Z.of_nat m - Z.of_nat zp * z)) <= half).
  { rewrite minus_IZR, mult_IZR, <- !INR_IZR_INZ. unfold b, half. replace (INR m - INR zp * k_shift k - (INR m - INR zp * IZR z)) with (- (INR zp * (k_shift k - IZR z))) by ring.
    rewrite Rabs_Ropp, Rabs_mult, (Rabs_right (INR zp)) by lra. nra. }
  apply Rabs_def2b in D || apply Rabs_le_inv in D || idtac.
  assert (D1 : - half <= b - IZR (Z.of_nat m - Z.of_nat zp * z) <= half).
  { revert D. try (intros D; exact D). unfold Rabs. destruct (Rcase_abs _); lra. }
  rewrite !andb_true_iff, Z.leb_le, Z.ltb_lt. split.
  - intros ((A & B) & C). split; [exact C|]. apply IZR_le in A. assert (B' : (Z.of_nat m - Z.of_nat zp * z <= Z.of_nat (N * zp) - 1)%Z) by lia.
    apply IZR_le in B'. rewrite (minus_IZR (Z.of_nat (N * zp)) 1), <- INR_IZR_INZ in B'. lra.
  - intros C (A & B). split; [split|exact C].
    + apply le_IZR. lra.
    + apply lt_IZR. rewrite <- INR_IZR_INZ. lra.
Qed.
