From Coq Require Import List ZArith Bool Lia Arith.
From Coq Require Import ZifyBool ZifyNat.
From Verif Require Import Common BeamModel BeamSpec.
Import ListNotations.

Ltac Zify.zify_post_hook ::= Z.div_mod_to_equations.

(* ---------------- scan ---------------- *)

Lemma last_n_all : forall {A} n (l : list A), length l <= n -> last_n n l = l.
Proof. intros. unfold last_n. replace (length l - n) with 0 by lia. reflexivity. Qed.

Lemma last_n_length : forall {A} n (l : list A), length (last_n n l) = Nat.min n (length l).
Proof. intros. unfold last_n. rewrite skipn_length. lia. Qed.

Lemma tl_skipn : forall {A} (l : list A), tl l = skipn 1 l.
Proof. destruct l; reflexivity. Qed.

Lemma skipn_skipn' : forall {A} a b (l : list A), skipn a (skipn b l) = skipn (b + a) l.
Proof.
  intros A a b; revert a; induction b; intros a l; simpl; auto.
  destruct l; simpl; auto. now rewrite skipn_nil.
Qed.

Lemma last_n_snoc : forall {A} n (l : list A) x,
  (let acc1 := last_n n l ++ [x] in
   if Nat.ltb n (length acc1) then tl acc1 else acc1) = last_n n (l ++ [x]).
Proof.
  intros A n l x. cbv zeta.
  rewrite app_length, last_n_length. cbn [length].
  destruct (Nat.ltb_spec n (Nat.min n (length l) + 1)) as [H|H].
  - assert (n <= length l) by lia.
    unfold last_n. rewrite app_length. cbn [length].
    rewrite <- (skipn_app_le x l (length l - n)) || idtac.
    rewrite tl_skipn.
    assert (E : skipn (length l - n) l ++ [x] = skipn (length l - n) (l ++ [x])).
    { rewrite skipn_app. replace (length l - n - length l) with 0 by lia. reflexivity. }
    rewrite E, skipn_skipn'. f_equal. lia.
  - assert (length l < n) by lia.
    rewrite !last_n_all; auto. rewrite app_length; simpl; lia. lia.
Qed.

Section Scan.
  Context {S A : Type} (N : nat) (vis : S -> bool) (angle : S -> A)
          (counter : S -> nat) (work : S -> bool).

  Let f (s : S) : A * nat := (angle s, counter s).

  Lemma scan_run : forall surfs done w,
    beam_scan N vis angle counter work surfs true (last_n N (map f done)) w
    = (last_n N (map f (done ++ take_while vis surfs)),
       w || existsb work (take_while vis surfs)).
  Proof.
    induction surfs as [|s surfs IH]; intros done w; cbn [beam_scan take_while].
    - rewrite app_nil_r. simpl. now rewrite orb_false_r.
    - destruct (vis s) eqn:V.
      + pose proof (last_n_snoc N (map f done) (f s)) as L. cbv zeta in L.
        change (angle s, counter s) with (f s).
        rewrite L.
        replace (map f done ++ [f s]) with (map f (done ++ [s])) by (rewrite map_app; reflexivity).
        rewrite IH. rewrite <- app_assoc. simpl. now rewrite orb_assoc.
      + rewrite app_nil_r. simpl. now rewrite orb_false_r.
  Qed.

  Lemma last_n_nil : forall {B} n, @last_n B n [] = [].
  Proof. intros. unfold last_n. now rewrite skipn_nil. Qed.

  Lemma scan_start : forall surfs,
    beam_scan N vis angle counter work surfs false [] false
    = (last_n N (map f (first_run vis surfs)), existsb work (first_run vis surfs)).
  Proof.
    induction surfs as [|s surfs IH]; unfold first_run; cbn [beam_scan drop_while].
    - simpl. now rewrite last_n_nil.
    - destruct (vis s) eqn:V; cbn [negb].
      + pose proof (last_n_snoc N (map f []) (f s)) as L. cbv zeta in L.
        cbn [map] in L. rewrite last_n_nil in L.
        change (angle s, counter s) with (f s).
        rewrite L.
        change (([] ++ [f s])) with (map f [s]).
        rewrite scan_run. cbn [take_while]. rewrite V. reflexivity.
      + exact IH.
  Qed.

  Lemma beam_angles_spec : forall surfs,
    beam_angles N vis angle counter work surfs
    = (last_n N (map f (first_run vis surfs)), existsb work (first_run vis surfs)).
  Proof. exact scan_start. Qed.
End Scan.

(* ---------------- trend ---------------- *)

Lemma trends_from_nth : forall N sizes psize ptrend older k s,
  (older = [] -> psize = (-1)%Z) ->
  (forall p o, older = p :: o -> psize = Z.of_nat p /\
      ptrend = (if Nat.eqb p N then 0%Z else last_direction p o)) ->
  nth_error sizes k = Some s ->
  nth_error (trends_from N psize ptrend sizes) k
  = Some (if Nat.eqb s N then 0%Z else last_direction s (rev (firstn k sizes) ++ older)).
Proof.
  intros N. induction sizes as [|a sizes IH]; intros psize ptrend older k s H0 H1 Hk.
  - destruct k; discriminate.
  - assert (T : trend N a psize ptrend = if Nat.eqb a N then 0%Z else last_direction a older).
    { unfold trend. destruct (Nat.eqb_spec a N) as [E|E]; auto.
      destruct older as [|p o].
      - rewrite (H0 eq_refl). reflexivity.
      - destruct (H1 p o eq_refl) as [-> ->]. cbn [last_direction].
        replace (Z.of_nat p =? -1)%Z with false by lia. cbn [orb].
        destruct (Nat.ltb_spec p a) as [L|L].
        + replace (Z.of_nat p <? Z.of_nat a)%Z with true by lia. reflexivity.
        + replace (Z.of_nat p <? Z.of_nat a)%Z with false by lia.
          destruct (Nat.ltb_spec a p) as [L2|L2].
          * replace (Z.of_nat a <? Z.of_nat p)%Z with true by lia. reflexivity.
          * replace (Z.of_nat a <? Z.of_nat p)%Z with false by lia.
            assert (p = a) by lia. subst p.
            destruct (Nat.eqb_spec a N); [contradiction|reflexivity]. }
    destruct k as [|k].
    + injection Hk as ->. cbn. now rewrite T.
    + cbn [nth_error trends_from]. cbn [nth_error] in Hk.
      rewrite (IH (Z.of_nat a) _ (a :: older) k s); auto.
      * cbn [firstn rev]. now rewrite <- app_assoc.
      * discriminate.
      * intros p o E; inversion E; subst. split; auto.
Qed.

Lemma trends_spec : forall N sizes k,
  nth_error (trends N sizes) k = trend_spec N sizes k.
Proof.
  intros N sizes k. unfold trends, trend_spec.
  destruct (nth_error sizes k) as [s|] eqn:E.
  - rewrite (trends_from_nth N sizes (-1)%Z (-1)%Z [] k s); auto.
    + rewrite app_nil_r. destruct (Nat.eqb s N); reflexivity.
    + discriminate.
  - apply nth_error_None. apply nth_error_None in E.
    assert (L : forall l a b, length (trends_from N a b l) = length l).
    { induction l; intros; simpl; auto. }
    now rewrite L.
Qed.

Lemma last_direction_pm : forall cur older,
  last_direction cur older = 1%Z \/ last_direction cur older = (-1)%Z.
Proof.
  intros cur older; induction older as [|p o IH]; cbn [last_direction]; auto.
  destruct (Nat.ltb p cur); auto. destruct (Nat.ltb cur p); auto.
Qed.

Lemma trends_zero_iff : forall N sizes k s t,
  nth_error sizes k = Some s -> nth_error (trends N sizes) k = Some t ->
  (t = 0%Z <-> s = N) /\ (t = 0 \/ t = 1 \/ t = -1)%Z.
Proof.
  intros N sizes k s t Hs Ht. rewrite trends_spec in Ht. unfold trend_spec in Ht.
  rewrite Hs in Ht. destruct (Nat.eqb_spec s N) as [E|E]; inversion Ht; subst.
  - tauto.
  - destruct (last_direction_pm s (rev (firstn k sizes))) as [-> | ->]; split; lia.
Qed.

(* ---------------- nadir ---------------- *)

(** trends the processor can pair with a list of [size] beams *)
Definition ok_trend (N size : nat) (t : Z) : Prop :=
  (t = 0%Z <-> size = N) /\ (t = 0 \/ t = 1 \/ t = -1)%Z.

Lemma py_get_nth : forall {A} (l : list A) i k a,
  py_pos (length l) i = Some k -> nth_error l k = Some a -> py_get l i = Some a.
Proof. intros A l i k a H1 H2. unfold py_get. now rewrite H1. Qed.

Lemma nadir_pos : forall N size t,
  0 < size <= N -> ok_trend N size t ->
  exists i k, nadir_index N size t = Ok i /\ py_pos size i = Some k /\ k < size /\
    (Nat.even N = true ->
      k = (if Z.eqb t 1 then Nat.max (N/2) (N - size) - (N - size)
           else Nat.min (N/2) (size - 1))).
Proof.
  intros N size t Hs [Hz Ht]. unfold nadir_index.
  assert (EV : Nat.even N = true -> N = 2 * (N/2)).
  { intro E. apply Nat.even_spec in E. destruct E as [m ->].
    rewrite Nat.mul_comm, Nat.div_mul by lia. lia. }
  destruct Ht as [-> | [-> | ->]].
  - assert (size = N) by tauto. subst size. cbn [Z.eqb Pos.eqb].
    exists (Z.of_nat (N/2)), (N/2).
    repeat split; auto.
    + apply py_pos_nonneg. lia.
    + lia.
    + intro E. specialize (EV E). lia.
  - assert (size <> N) by lia. cbn [Z.eqb Pos.eqb].
    destruct (Nat.ltb_spec size (N/2)) as [L|L].
    + exists 0%Z, 0. repeat split; auto; try lia.
      apply (py_pos_nonneg size 0); lia.
    + exists (- Z.of_nat (N/2))%Z, (size - N/2).
      repeat split; auto; try lia.
      unfold py_pos.
      destruct (0 <=? - Z.of_nat (N / 2))%Z eqn:E1.
      * assert (N/2 = 0) by lia. assert (N = 1) by lia. lia.
      * replace (- Z.of_nat size <=? - Z.of_nat (N / 2))%Z with true by lia.
        f_equal. lia.
  - assert (size <> N) by lia. cbn [Z.eqb Pos.eqb].
    destruct (Nat.leb_spec size (N/2)) as [L|L].
    + exists (-1)%Z, (size - 1). repeat split; auto; try lia.
      unfold py_pos. cbn [Z.leb Z.compare].
      replace (- Z.of_nat size <=? -1)%Z with true by lia. f_equal. lia.
    + exists (Z.of_nat (N/2)), (N/2). repeat split; auto; try lia.
      apply py_pos_nonneg. lia.
Qed.

Lemma nadir_beam_ok : forall {A} N (l : list A) t,
  0 < length l <= N -> ok_trend N (length l) t -> Nat.even N = true ->
  exists k a, nadir_beam N l t = Ok a /\ nth_error l k = Some a /\
    full_position N (length l) t k =
      (if Z.eqb t 1 then Nat.max (N/2) (N - length l) else Nat.min (N/2) (length l - 1)).
Proof.
  intros A N l t Hl Ht E.
  destruct (nadir_pos N (length l) t Hl Ht) as (i & k & Hi & Hk & Hlt & Hf).
  destruct (nth_error l k) as [a|] eqn:Ha.
  2:{ apply nth_error_None in Ha. lia. }
  exists k, a. unfold nadir_beam. rewrite Hi. cbn [bind].
  rewrite (py_get_nth l i k a Hk Ha). repeat split; auto.
  specialize (Hf E). unfold full_position.
  destruct (Z.eqb t 1); lia.
Qed.

Lemma nadir_beam_ok_any : forall {A} N (l : list A) t,
  0 < length l <= N -> ok_trend N (length l) t ->
  exists a, nadir_beam N l t = Ok a /\ In a l.
Proof.
  intros A N l t Hl Ht.
  destruct (nadir_pos N (length l) t Hl Ht) as (i & k & Hi & Hk & Hlt & _).
  destruct (nth_error l k) as [a|] eqn:Ha.
  2:{ apply nth_error_None in Ha. lia. }
  exists a. unfold nadir_beam. rewrite Hi. cbn [bind].
  rewrite (py_get_nth l i k a Hk Ha). split; auto. eapply nth_error_In; eauto.
Qed.

Lemma nadir_beam_empty : forall {A} N t,
  exists e, @nadir_beam A N [] t = Err e.
Proof.
  intros A N t. unfold nadir_beam.
  destruct (nadir_index N (length (@nil A)) t) as [i|e]; cbn [bind]; eauto.
  unfold py_get. destruct (py_pos (length (@nil A)) i) eqn:E; eauto.
  apply py_pos_lt in E. simpl in E. lia.
Qed.

(* ---------------- look index ---------------- *)

Lemma abs_index_full : forall N idx t size,
  size <= N ->
  abs_index N idx t size = (Z.of_nat (full_position N size t idx) - Z.of_nat (N / 2))%Z.
Proof.
  intros N idx t size Hs. unfold abs_index, full_position.
  destruct (t =? 1)%Z; lia.
Qed.

Lemma abs_index_range : forall N idx t size,
  idx < size <= N ->
  (- Z.of_nat (N/2) <= abs_index N idx t size <= Z.of_nat N - Z.of_nat (N/2) - 1)%Z.
Proof.
  intros N idx t size H. rewrite abs_index_full by lia.
  unfold full_position. destruct (t =? 1)%Z; lia.
Qed.

Lemma abs_index_inj : forall N i j t size,
  abs_index N i t size = abs_index N j t size -> i = j.
Proof. intros N i j t size. unfold abs_index. destruct (t =? 1)%Z; lia. Qed.

(* ---------------- focused rows ---------------- *)

Lemma nth_error_skipn' : forall {A} n (l : list A) k,
  nth_error (skipn n l) k = nth_error l (n + k).
Proof.
  induction n; intros l k; simpl; auto. destruct l; simpl; auto. now destruct k.
Qed.

Lemma nth_error_firstn' : forall {A} n (l : list A) k,
  k < n -> nth_error (firstn n l) k = nth_error l k.
Proof.
  induction n; intros l k H. lia. destruct l; simpl; auto.
  destruct k; simpl; auto. apply IHn. lia.
Qed.

Lemma approx_row_defined : forall {R} N size t (fft : list R) i,
  length fft = N -> i < size <= N ->
  exists r, nth_error (approx_rows N size t fft) i = Some (Row r) /\
            nth_error fft (full_position N size t i) = Some r.
Proof.
  intros R N size t fft i Hf Hi. unfold approx_rows, approx_offset, full_position.
  set (off := if (t =? 1)%Z then N - size else 0).
  assert (Ho : off + i < N). { unfold off. destruct (t =? 1)%Z; lia. }
  destruct (nth_error fft (off + i)) as [r|] eqn:E.
  2:{ apply nth_error_None in E. lia. }
  exists r. split.
  - rewrite nth_error_app1.
    + rewrite nth_error_map, nth_error_firstn' by lia.
      rewrite nth_error_skipn', E. reflexivity.
    + rewrite map_length, firstn_length, skipn_length. lia.
  - rewrite <- E. f_equal. unfold off. destruct (t =? 1)%Z; lia.
Qed.

Lemma exact_row_defined : forall {A R} N (steer : A -> list R) angles i a,
  0 < N -> length angles <= N ->
  (forall x, length (steer x) = N) ->
  nth_error angles i = Some a ->
  exists rows r, exact_rows N steer angles = Ok rows /\
    nth_error rows i = Some (Row r) /\ nth_error (steer a) (N/2) = Some r.
Proof.
  intros A R N steer angles i a HN Hl Hs Ha. unfold exact_rows.
  destruct (Nat.ltb_spec N (length angles)); [lia|].
  destruct (nth_error (steer a) (N/2)) as [r|] eqn:E.
  2:{ apply nth_error_None in E. rewrite Hs in E. lia. }
  eexists; exists r. split; [reflexivity|]. split; auto.
  rewrite nth_error_app1.
  - rewrite nth_error_map, Ha. cbn [option_map]. now rewrite E.
  - rewrite map_length. apply nth_error_Some. congruence.
Qed.
