(** A longer recording, with the geometry. *)
From Coq Require Import List ZArith QArith Reals Bool Lia Arith.
From Verif Require Import Common Cplx GeoModel BeamModel BeamProofs ChainModel ChainSpec ChainAux ChainProofs ChainInv ChainMain WholeModel WholeSpec WholeChain WholeProofs
  LongSpec LongProofs.
From Verif Require SurfModel DopModel LinModel.
Import ListNotations.
Local Open Scope nat_scope.

Arguments Nat.ltb : simpl never.
Arguments Nat.leb : simpl never.
Arguments Nat.div : simpl never.

Section Longer.
Variables (u : setup) (xs ys : list witem).
Notation cf := (u_cf u).
Notation items := (map erase xs).
Notation n := (length xs).
Definition more_w (w : wst) : wst := mk_wst (more (map erase ys) (x_s w)) (x_t w) (x_angles w) (x_out w).

Lemma record_more : forall p, p < n -> record_of (xs ++ ys) p = record_of xs p.
Proof. intros p L. unfold record_of. rewrite nth_error_app1 by exact L. reflexivity. Qed.
Lemma data_more : forall p, p < n -> data u (xs ++ ys) p = data u xs p.
Proof. intros p L. unfold data. rewrite record_more by exact L. reflexivity. Qed.
Lemma oracle_more : forall t t1, same_before n (oracle_at u xs t t1) (oracle_at u (xs ++ ys) t t1).
Proof.
  intros t t1. split; [|repeat split]. intros p L. cbn. unfold found. rewrite (data_more p L). repeat split.
Qed.
Lemma oracle_items : forall t t1, same_before (length items) (oracle_at u xs t t1) (oracle_at u (xs ++ ys) t t1).
Proof. intros t t1. rewrite map_length. apply oracle_more. Qed.
Lemma arrived_more : forall s r, arrived (more (map erase ys) s) (more_read (map erase ys) r) = arrived s r.
Proof. intros s [i q m|i q m|e i q m]; reflexivity. Qed.
Lemma arrived_below : forall o d s p, Inv cf o items s -> arrived s (read_phase cf d 0 s) = Some p -> p < n.
Proof.
  intros o d s p I A. destruct (arrived_packs cf d 0 s p A) as (k & K1 & K2). subst p.
  rewrite <- (map_length erase). apply (read_below cf o items s d I). rewrite K1. apply in_or_app. right. left. reflexivity.
Qed.
Lemma geo_more : forall o w, Inv cf o items (x_s w) -> ~ spent (x_s w) -> geo_read u (xs ++ ys) (more_w w) = geo_read u xs w.
Proof.
  intros o w I NS. unfold geo_read. cbn [more_w x_s x_t].
  rewrite (read_more _ _ _ _ NS), arrived_more, (read_same cf o items _ _ _ I (oracle_items (x_t w) (x_t w))).
  destruct (arrived (x_s w) (read_phase cf (oracle_at u xs (x_t w) (x_t w)) 0 (x_s w))) as [p|] eqn:A; [|reflexivity].
  rewrite (data_more p (arrived_below _ _ _ _ I A)). reflexivity.
Qed.
Lemma stored_more : forall t1 a, a_uid a < n -> stored u (xs ++ ys) t1 a = stored u xs t1 a.
Proof. intros t1 a L. unfold stored. rewrite (data_more _ L). reflexivity. Qed.
Lemma gap_more : forall gap l l' b p, p < length l -> after_gap gap b (l ++ l') p = after_gap gap b l p.
Proof.
  intros gap. induction l as [|i l IH]; intros l' b p L; [cbn in L; lia|]. cbn [length] in L.
  destruct i as [t| |], p as [|p]; cbn [app after_gap]; try reflexivity; apply IH; lia.
Qed.
Lemma echo_more : forall p r, p < n -> echo_of u (xs ++ ys) p r = echo_of u xs p r.
Proof. intros p r L. unfold echo_of. rewrite map_app, gap_more by (rewrite map_length; exact L). reflexivity. Qed.
Lemma product_more : forall t1 angles s, (forall e, In e (s_stack s) -> e_uid e < n) ->
  product_of u (xs ++ ys) t1 angles s = product_of u xs t1 angles s.
Proof.
  intros t1 angles s L.
  assert (LK : map (look u (xs ++ ys) angles) (s_stack s) = map (look u xs angles) (s_stack s)).
  { apply map_ext_in. intros e E. unfold look. rewrite (data_more _ (L e E)). reflexivity. }
  assert (PK : picked u (xs ++ ys) angles (s_stack s) = picked u xs angles (s_stack s)) by (unfold picked; rewrite LK; reflexivity).
  assert (VW : map (view u (xs ++ ys) angles) (picked u xs angles (s_stack s)) = map (view u xs angles) (picked u xs angles (s_stack s))).
  { apply map_ext_in. intros e E.
    cut (e_uid e < n); [intros B; unfold view; rewrite (record_more _ B); destruct (record_of xs (e_uid e)); [rewrite (echo_more _ _ B)|]; reflexivity|].
    apply L. unfold picked in E. apply in_flat_map in E.
    destruct E as (i & _ & E). destruct (nth_error (s_stack s) i) as [e'|] eqn:NE; [|destruct E]. destruct E as [<-|[]]. eapply nth_error_In. exact NE. }
  unfold product_of. rewrite PK, VW. reflexivity.
Qed.
(** Entries of stacks written in an iteration. *)
Lemma stack_below : forall o s x, Inv cf o items s -> In x (w_l1b (s_out (step_st (body cf o 0 s)))) ->
  forall e, In e (s_stack x) -> e_uid e < n.
Proof.
  intros o s x I X e E. pose proof (body_ok cf o items s I) as B. pose proof (step_counted cf o items s I) as (_ & C & _).
  set (s' := step_st (body cf o 0 s)) in *.
  assert (K : KI cf o items (decided (s_out s')) (s_q s') /\ (forall a, In a (q_az (s_q s')) -> a_uid a < length items)).
  { unfold s' in *. destruct (body cf o 0 s) as [s1|s1|e1 s1]; cbn [step_ok step_st] in *.
    - destruct B as (B & _). split; [exact (ii_K _ _ _ _ _ _ _ B)|]. intros a IA. pose proof (ii_n _ _ _ _ _ _ _ B).
      destruct (pi_az _ _ _ _ (ii_P _ _ _ _ _ _ _ B) a IA) as (L & _). unfold bound in L. destruct (_ || _); lia.
    - destruct B as (B & _). split; [exact (ii_K _ _ _ _ _ _ _ B)|]. intros a IA. pose proof (ii_n _ _ _ _ _ _ _ B).
      destruct (pi_az _ _ _ _ (ii_P _ _ _ _ _ _ _ B) a IA) as (L & _). unfold bound in L. destruct (_ || _); lia.
    - split; [exact (ir_K _ _ _ _ _ B)|]. intros a IA. pose proof (ir_n _ _ _ _ _ B). destruct (ir_az _ _ _ _ _ B a IA) as (L & _).
      unfold bound in L. destruct (_ || _); lia. }
  destruct K as (K & AZ). rewrite map_length in AZ.
  assert (XI : In x (decided (s_out s') ++ q_surfs (s_q s'))).
  { assert (KD : forall y, In y (kept (s_out s')) -> In y (decided (s_out s'))).
    { intros y Y. unfold kept in Y. unfold decided. apply in_map_iff in Y. destruct Y as (z & <- & Z). apply filter_In in Z. apply in_map. apply Z. }
    apply in_or_app. destruct C as [C|(y & r & Q & C)]; rewrite C in X; [left; auto|]. apply in_app_or in X. destruct X as [X|[<-|[]]]; [left; auto|].
    right. rewrite Q. left. reflexivity. }
  destruct (k_stack _ _ _ _ _ K x XI) as (_ & SE & _). destruct (SE e E) as (_ & _ & a & A1 & A2 & _). rewrite <- A2. apply AZ. exact A1.
Qed.
Lemma skipn_new : forall {T} (l l' : list T), skipn (length l) (l ++ l') = l'.
Proof. intros T l l'. rewrite skipn_app, skipn_all, Nat.sub_diag. reflexivity. Qed.
Lemma in_skipn : forall {T} k (l : list T) x, In x (skipn k l) -> In x l.
Proof. intros T k l x X. rewrite <- (firstn_skipn k l). apply in_or_app. right. exact X. Qed.
Lemma step_more : forall r, step_st (more_step (map erase ys) r) = more (map erase ys) (step_st r).
Proof. intros [s|s|e s]; reflexivity. Qed.
Lemma wbody_more : forall o k w, so_far u xs o k w -> ~ spent (x_s w) ->
  wbody u (xs ++ ys) (more_w w) =
  match wbody u xs w with Some (r, w') => Some (more_step (map erase ys) r, more_w w') | None => None end.
Proof.
  intros o0 k w SO NS.
  destruct (wbody u xs w) as [[r w']|] eqn:W.
  - destruct (wbody_merge u xs o0 k w r w' SO W) as ((M1 & M2) & M3 & M4).
    set (o := merge o0 _ (x_s w)) in *.
    assert (I : Inv cf o items (x_s w)) by (eapply steps_inv; [apply init_inv|exact M2]).
    unfold wbody in *. rewrite (geo_more o w I NS). destruct (geo_read u xs w) as [t1 ok]. destruct ok; [|discriminate].
    injection W as W1 W2. cbn [more_w x_s x_t].
    rewrite (body_more _ _ _ _ NS), (body_below cf o items _ _ _ I (oracle_items (x_t w) t1)), W1, step_more.
    f_equal. f_equal. rewrite <- W2. rewrite W1.
    assert (NEW : forall a, In a (skipn (length (q_az (s_q (x_s w)))) (q_az (s_q (step_st r)))) -> a_uid a < n).
    { intros a AI. destruct (body_ext cf o 0 (x_s w) r M3) as (new & E & F & _). rewrite E, skipn_new in AI.
      destruct (F a AI) as (p & P1 & _ & P2). rewrite <- P2, <- (map_length erase). exact (read_below cf o items _ _ I p P1). }
    assert (WR : forall x, In x (skipn (length (w_l1b (s_out (x_s w)))) (w_l1b (s_out (step_st r)))) -> forall e, In e (s_stack x) -> e_uid e < n).
    { intros x X. apply (stack_below o (x_s w) x I). rewrite M3. eapply in_skipn. exact X. }
    unfold advance. cbn [more_w more x_s x_t x_angles x_out s_q s_out].
    assert (ST : map (stored u (xs ++ ys) t1) (skipn (length (q_az (s_q (x_s w)))) (q_az (s_q (step_st r)))) =
                 map (stored u xs t1) (skipn (length (q_az (s_q (x_s w)))) (q_az (s_q (step_st r))))).
    { apply map_ext_in. intros a AI. apply stored_more. apply NEW. exact AI. }
    rewrite ST. unfold more_w. cbn [x_s x_t x_angles x_out]. f_equal. f_equal. apply map_ext_in. intros x X. apply product_more. apply WR. exact X.
  - assert (I : Inv cf o0 items (x_s w)) by (eapply steps_inv; [apply init_inv|apply SO]).
    unfold wbody in *. rewrite (geo_more o0 w I NS). destruct (geo_read u xs w) as [t1 [|]]; [discriminate|reflexivity].
Qed.
End Longer.

(** * The loop *)
Lemma wbody_grows : forall u input w r w', wbody u input w = Some (r, w') ->
  x_s w' = step_st r /\ grows (s_out (x_s w)) (s_out (x_s w')) /\ prefix (x_out w) (x_out w').
Proof.
  intros u input w r w' H. unfold wbody in H. destruct (geo_read u input w) as [t1 [|]]; [|discriminate]. injection H as <- <-.
  split; [reflexivity|]. split; [apply body_grows|]. cbn [advance x_out]. eexists. reflexivity.
Qed.
Lemma wloop_grows : forall u input cancel f k w, let w' := wfinal (wloop u input cancel f k w) in
  grows (s_out (x_s w)) (s_out (x_s w')) /\ prefix (x_out w) (x_out w').
Proof.
  intros u input cancel. induction f as [|f IH]; intros k w; cbv zeta; cbn [wloop wfinal]; [split; [apply grows_refl|apply prefix_refl]|].
  destruct (wbody u input w) as [[r w1]|] eqn:W; [|split; [apply grows_refl|apply prefix_refl]].
  destruct (wbody_grows u input w r w1 W) as (_ & G & P). destruct r as [s|s|e s]; [|split; assumption|split; assumption].
  destruct (cancel k); [split; assumption|]. destruct (IH (S k) w1) as (G1 & P1). split; [eapply grows_trans; eassumption|eapply prefix_trans; eassumption].
Qed.
Lemma wbody_spent : forall u input w r w', wbody u input w = Some (r, w') -> spent (x_s w) ->
  q_next (s_q (x_s w')) = q_next (s_q (x_s w)) /\ (forall s', r = BCont s' -> spent (x_s w')).
Proof.
  intros u input w r w' H SP. pose proof (wbody_grows u input w r w' H) as (E & _). rewrite E.
  unfold wbody in H. destruct (geo_read u input w) as [t1 [|]]; [|discriminate]. injection H as <- _.
  destruct (body_spent (u_cf u) (oracle_at u input (x_t w) t1) (x_s w) SP) as (N & C). split; [exact N|].
  intros s' B. rewrite B. cbn [step_st]. apply C. exact B.
Qed.
Lemma wloop_spent : forall u input cancel f k w, spent (x_s w) ->
  q_next (s_q (x_s (wfinal (wloop u input cancel f k w)))) = q_next (s_q (x_s w)).
Proof.
  intros u input cancel. induction f as [|f IH]; intros k w P; cbn [wloop wfinal]; [reflexivity|].
  destruct (wbody u input w) as [[r w1]|] eqn:W; [|reflexivity].
  destruct (wbody_spent u input w r w1 W P) as (N & C). destruct r as [s|s|e s]; [|exact N|exact N].
  destruct (cancel k); [exact N|]. rewrite IH; [exact N|]. eapply C. reflexivity.
Qed.
Lemma wbody_short : forall u input w s w', wbody u input w = Some (BCont s, w') -> length (q_surfs (s_q (x_s w))) <= c_min (u_cf u) - 1 ->
  length (q_surfs (s_q (x_s w'))) <= c_min (u_cf u) - 1.
Proof.
  intros u input w s w' H L. pose proof (wbody_grows u input w _ w' H) as (E & _). rewrite E.
  unfold wbody in H. destruct (geo_read u input w) as [t1 [|]]; [|discriminate]. injection H as H _.
  cbn [step_st]. exact (body_short _ _ _ _ L H).
Qed.
Lemma wbody_so_far : forall u input o k w s w', so_far u input o k w -> wbody u input w = Some (BCont s, w') ->
  exists o', so_far u input o' (S k) w'.
Proof.
  intros u input o k w s w' SO W. destruct (wbody_merge u input o k w _ w' SO W) as ((M1 & M2) & M3 & M4).
  eexists. split; [exact M1|]. cbn [step_st] in M4. rewrite M4. eapply steps_snoc; [exact M2|exact M3].
Qed.

Definition wparted (u : setup) (w w' : wst) : Prop :=
  exists w0, length (q_surfs (s_q (x_s w0))) <= c_min (u_cf u) - 1 /\ counted (u_cf u) (x_s w0) /\ tidy (u_cf u) (s_out (x_s w0)) /\
    grows (s_out (x_s w0)) (s_out (x_s w)) /\ grows (s_out (x_s w0)) (s_out (x_s w')) /\ q_next (s_q (x_s w)) = q_next (s_q (x_s w0)) /\
    prefix (x_out w0) (x_out w) /\ prefix (x_out w0) (x_out w') /\ Forall2 product_for (x_out w0) (w_l1b (s_out (x_s w0))).
Lemma wloop_longer : forall u xs ys cancel f f' k w,
  (exists o, so_far u xs o k w) -> Forall2 product_for (x_out w) (w_l1b (s_out (x_s w))) ->
  length (q_surfs (s_q (x_s w))) <= c_min (u_cf u) - 1 -> f <= f' -> (forall w1, wloop u xs cancel f k w <> WFuel w1) ->
  let r := wloop u xs cancel f k w in
  let r' := wloop u (xs ++ ys) cancel f' k (more_w ys w) in
  wfinal r' = more_w ys (wfinal r) \/ wparted u (wfinal r) (wfinal r').
Proof.
  intros u xs ys cancel. induction f as [|f IH]; intros f' k w (o & SO) FP SH L NF; [exfalso; exact (NF w eq_refl)|].
  destruct (spent_dec (x_s w)) as [SP|NS].
  { right. exists w.
    assert (I : Inv (u_cf u) o (map erase xs) (x_s w)) by (eapply steps_inv; [apply init_inv|apply SO]).
    destruct (II0_counted _ _ _ _ (proj1 I)) as (C & T).
    destruct (wloop_grows u xs cancel (S f) k w) as (G & P). destruct (wloop_grows u (xs ++ ys) cancel f' k (more_w ys w)) as (G' & P').
    repeat (split; [first [assumption|apply wloop_spent; exact SP]|]). exact FP. }
  destruct f' as [|f']; [lia|]. cbn [wloop] in *.
  rewrite (wbody_more u xs ys o k w SO NS).
  destruct (wbody u xs w) as [[r w1]|] eqn:W; [|exfalso; exact (NF w eq_refl)].
  destruct r as [s|s|e s]; cbn [more_step]; [|left; reflexivity|left; reflexivity].
  destruct (cancel k); [left; reflexivity|]. apply IH; [| | |lia|exact NF].
  - exact (wbody_so_far u xs o k w s w1 SO W).
  - exact (step_products u xs w _ w1 FP W).
  - exact (wbody_short u xs w s w1 W SH).
Qed.
Lemma whole_counted : forall u cancel input, fuel_enough u input -> counted (u_cf u) (x_s (wfinal (whole u cancel input))).
Proof.
  intros u cancel input F. destruct (whole_chain u input cancel (fun w => whole_ends u input cancel w F)) as (o & _ & E).
  pose proof (run_counted (u_cf u) o cancel (map erase input)) as C. unfold same_end in E.
  destruct (whole u cancel input) as [w c|e w|w], (run (u_cf u) o cancel (map erase input)) as [s c'|e' s|s]; try contradiction;
    destruct E as (E & _); cbn [wfinal final] in *; rewrite E; exact C.
Qed.
Lemma fuel_less : forall u xs ys, fuel_enough u (xs ++ ys) -> fuel_enough u xs.
Proof. intros u xs ys F r I. apply F. apply in_or_app. left. exact I. Qed.
Lemma whole_longer : forall u cancel xs ys, fuel_enough u (xs ++ ys) ->
  let w := wfinal (whole u cancel xs) in
  let w' := wfinal (whole u cancel (xs ++ ys)) in
  w' = more_w ys w \/ wparted u w w'.
Proof.
  intros u cancel xs ys F. cbv zeta. unfold whole.
  assert (E : wst0 (xs ++ ys) = more_w ys (wst0 xs)).
  { unfold wst0, more_w. cbn [x_s x_t x_angles x_out]. rewrite map_app. reflexivity. }
  rewrite E. apply wloop_longer.
  - eexists. apply so_far_0.
  - constructor.
  - cbn. lia.
  - unfold enough. rewrite !map_length, app_length. lia.
  - intros w1. apply whole_ends. exact (fuel_less u xs ys F).
Qed.
Lemma first_products_same : forall u m w0 w, counted (u_cf u) (x_s w) -> tidy (u_cf u) (s_out (x_s w0)) -> grows (s_out (x_s w0)) (s_out (x_s w)) ->
  m <= length (w_done (s_out (x_s w0))) -> prefix (x_out w0) (x_out w) -> Forall2 product_for (x_out w0) (w_l1b (s_out (x_s w0))) ->
  Forall2 product_for (x_out w) (w_l1b (s_out (x_s w))) -> first_products m (x_out w) = first_products m (x_out w0).
Proof.
  intros u m w0 w C (T & _) G L (tl & P) F0 F.
  destruct (counted_later (u_cf u) (x_s w) _ _ C (proj1 G) (proj1 (proj2 C))) as (tail & E & H).
  change (map fst (filter snd (w_done (s_out (x_s w0))))) with (kept (s_out (x_s w0))) in E. rewrite <- T in E.
  rewrite P, E in F. apply Forall2_app_inv_l in F. destruct F as (l1 & l2 & F1 & F2 & Q).
  assert (LL : forall A B (R : A -> B -> Prop) l l', Forall2 R l l' -> length l = length l').
  { intros A B R l l' X. induction X; cbn; auto. }
  apply app_inv_len in Q; [|rewrite <- (LL _ _ _ _ _ F0); apply (LL _ _ _ _ _ F1)]. destruct Q as (_ & <-).
  unfold first_products. rewrite P, filter_app, (filter_none _ tl), app_nil_r; [reflexivity|].
  intros p PI. apply Nat.ltb_ge.
  assert (X : exists s, In s tail /\ product_for p s).
  { clear - F2 PI. induction F2 as [|a b la lb R F2 IH]; [destruct PI|]. destruct PI as [->|PI]; [exists b; split; [left; reflexivity|exact R]|].
    destruct (IH PI) as (s & S1 & S2). exists s. split; [right; exact S1|exact S2]. }
  destruct X as (s & S1 & S2 & _). specialize (H s S1). lia.
Qed.
