From Coq Require Import String List ZArith QArith Qabs Bool Arith Lia Lqa ZifyBool.
From Verif Require Import Common WriterModel WriterSpec.
Import ListNotations.
Open Scope nat_scope.

Section Table.
Variable A : Type.
Variable vars : string -> option vdesc.
Variable castable : string -> value A -> bool.
Notation wv := (write_vars A vars castable).
Notation wr := (write_record A vars castable).
Notation wa := (write_all A vars castable).
Notation ok := (writable vars castable).

Lemma wv_index : forall r st, w_index (snd (wv st r)) = w_index st.
Proof.
  induction r as [|[x ov] r IH]; intros st; cbn [write_vars]; [reflexivity|].
  destruct (vars x); [|reflexivity]. destruct ov as [v0|]; [|apply IH].
  destruct (accepts A v v0 && castable x v0); [|reflexivity]. rewrite IH. reflexivity.
Qed.

Lemma wv_other_row : forall r st x i a b, i <> w_index st ->
  w_tbl (snd (wv st r)) x i a b = w_tbl st x i a b.
Proof.
  induction r as [|[y ov] r IH]; intros st x i a b Hi; cbn [write_vars]; [reflexivity|].
  destruct (vars y); [|reflexivity]. destruct ov as [v0|]; [|apply IH; assumption].
  destruct (accepts A v v0 && castable y v0); [|reflexivity].
  rewrite IH by exact Hi. unfold w_put; cbn [w_tbl].
  apply Nat.eqb_neq in Hi. rewrite Hi, andb_false_r. reflexivity.
Qed.

Lemma wv_ok : forall r st, fst (wv st r) = None <-> ok r = true.
Proof.
  induction r as [|[y ov] r IH]; intros st; cbn [write_vars writable forallb fst snd]; [tauto|].
  fold (ok r). destruct (vars y); [|cbn; split; discriminate]. destruct ov as [v0|]; [|apply IH].
  destruct (accepts A v v0 && castable y v0); cbn [andb]; [apply IH|cbn; split; discriminate].
Qed.

Lemma wv_not_named : forall r st x i a b, ~ In x (map fst r) ->
  w_tbl (snd (wv st r)) x i a b = w_tbl st x i a b.
Proof.
  induction r as [|[y ov] r IH]; intros st x i a b Hx; cbn [write_vars]; [reflexivity|].
  cbn in Hx. destruct (vars y); [|reflexivity]. destruct ov as [v0|]; [|apply IH; tauto].
  destruct (accepts A v v0 && castable y v0); [|reflexivity].
  rewrite IH by tauto. unfold w_put; cbn [w_tbl].
  replace (x =? y)%string with false; [reflexivity|].
  symmetry. apply String.eqb_neq. intro; subst; tauto.
Qed.

Lemma wv_supplied : forall r st x a b e, is_dict r -> ok r = true -> supplies r x a b e ->
  w_tbl (snd (wv st r)) x (w_index st) a b = Some e.
Proof.
  induction r as [|[y ov] r IH]; intros st x a b e ND Hok (v & Hin & He); [destruct Hin|].
  unfold is_dict in ND; cbn in ND. inversion ND as [|? ? Hn ND']; subst.
  cbn [writable forallb fst snd] in Hok. fold (ok r) in Hok. apply andb_true_iff in Hok.
  destruct Hok as [Hy Hok]. cbn [write_vars].
  destruct (vars y) as [d|]; [|discriminate].
  destruct Hin as [Heq|Hin].
  - inversion Heq; subst y ov. rewrite Hy. rewrite wv_not_named by assumption.
    unfold w_put; cbn [w_tbl]. rewrite String.eqb_refl, Nat.eqb_refl. cbn [andb].
    rewrite He. reflexivity.
  - destruct ov as [v0|].
    + rewrite Hy. rewrite <- (IH (w_put A st y v0) x a b e ND' Hok); [reflexivity|].
      exists v; split; assumption.
    + apply IH; [assumption|assumption|]. exists v; split; assumption.
Qed.

Lemma wv_silent : forall r st x i a b, is_dict r -> silent r x a b ->
  w_tbl (snd (wv st r)) x i a b = w_tbl st x i a b.
Proof.
  induction r as [|[y ov] r IH]; intros st x i a b ND Hs; cbn [write_vars]; [reflexivity|].
  unfold is_dict in ND; cbn in ND. inversion ND as [|? ? Hn ND']; subst.
  assert (Hs' : silent r x a b).
  { intros e (v & Hin & He). apply (Hs e). exists v. split; [right; assumption|assumption]. }
  destruct (vars y); [|reflexivity]. destruct ov as [v0|]; [|apply IH; assumption].
  destruct (accepts A v v0 && castable y v0); [|reflexivity].
  rewrite IH by assumption. unfold w_put; cbn [w_tbl].
  destruct (x =? y)%string eqn:E; [|reflexivity]. apply String.eqb_eq in E; subst y.
  destruct (i =? w_index st); [|reflexivity]. cbn [andb].
  destruct (elem A v0 a b) as [e|] eqn:Ee; [|reflexivity].
  exfalso. apply (Hs e). exists v0. split; [left; reflexivity|assumption].
Qed.

Lemma wv_len : forall r st, w_len (snd (wv st r)) <= Nat.max (w_len st) (S (w_index st)) /\
  w_len st <= w_len (snd (wv st r)).
Proof.
  induction r as [|[y ov] r IH]; intros st; cbn [write_vars]; [cbn; lia|].
  destruct (vars y); [|cbn; lia]. destruct ov as [v0|]; [|apply IH].
  destruct (accepts A v v0 && castable y v0); [|cbn; lia].
  specialize (IH (w_put A st y v0)). unfold w_put in *; cbn [w_len w_index] in *. lia.
Qed.

Lemma wv_len_some : forall r st x v, ok r = true -> In (x, Some v) r ->
  S (w_index st) <= w_len (snd (wv st r)).
Proof.
  induction r as [|[y ov] r IH]; intros st x v Hok Hin; [destruct Hin|].
  cbn [writable forallb fst snd] in Hok. fold (ok r) in Hok. apply andb_true_iff in Hok.
  destruct Hok as [Hy Hok]. cbn [write_vars].
  destruct (vars y) as [d|]; [|discriminate].
  destruct Hin as [Heq|Hin].
  - inversion Heq; subst. rewrite Hy. pose proof (wv_len r (w_put A st x v)) as [_ H].
    unfold w_put in H at 1; cbn [w_len] in H. lia.
  - destruct ov as [v0|].
    + rewrite Hy. apply (IH (w_put A st y v0) x v Hok Hin).
    + apply (IH st x v Hok Hin).
Qed.

(** one record *)
Lemma wr_ok : forall st r, fst (wr st r) = None <-> ok r = true.
Proof.
  intros st r. unfold write_record. rewrite <- (wv_ok r st).
  destruct (wv st r) as [[e|] st']; cbn; tauto.
Qed.
Lemma wr_index : forall st r, w_index (snd (wr st r)) = if ok r then S (w_index st) else w_index st.
Proof.
  intros st r. unfold write_record. pose proof (wv_ok r st) as H. pose proof (wv_index r st) as Hi.
  destruct (wv st r) as [[e|] st']; cbn in *; destruct (ok r); try congruence;
    destruct H as [H1 H2]; try (specialize (H2 eq_refl)); try (specialize (H1 eq_refl)); congruence.
Qed.
Lemma wr_tbl : forall st r, w_tbl (snd (wr st r)) = w_tbl (snd (wv st r)).
Proof. intros st r. unfold write_record. destruct (wv st r) as [[e|] st']; reflexivity. Qed.
Lemma wr_len : forall st r, w_len (snd (wr st r)) = w_len (snd (wv st r)).
Proof. intros st r. unfold write_record. destruct (wv st r) as [[e|] st']; reflexivity. Qed.

(** histories *)
Lemma wa_cons : forall st r rs, snd (wa st (r :: rs)) = snd (wa (snd (wr st r)) rs).
Proof.
  intros. cbn [write_all]. destruct (wr st r) as [o st1]. cbn [snd].
  destruct (wa st1 rs); reflexivity.
Qed.
Lemma wa_app : forall rs1 rs2 st, snd (wa st (rs1 ++ rs2)) = snd (wa (snd (wa st rs1)) rs2).
Proof.
  induction rs1 as [|r rs1 IH]; intros; [reflexivity|].
  cbn [app]. rewrite !wa_cons. apply IH.
Qed.
Lemma wa_outcomes : forall rs st k r, nth_error rs k = Some r ->
  (nth_error (fst (wa st rs)) k = Some None <-> ok r = true).
Proof.
  induction rs as [|r0 rs IH]; intros st k r Hk; [destruct k; discriminate|].
  cbn [write_all]. pose proof (wr_ok st r0) as H0. destruct (wr st r0) as [o st1].
  specialize (IH st1). destruct (wa st1 rs) as [os st2]. destruct k as [|k]; cbn in *.
  - injection Hk; intros; subst. rewrite <- H0. split; congruence.
  - apply IH; assumption.
Qed.
Lemma wa_index : forall rs st, w_index (snd (wa st rs)) = w_index st + length (filter ok rs).
Proof.
  induction rs as [|r rs IH]; intros st; [cbn; lia|].
  rewrite wa_cons, IH, wr_index. cbn [filter]. destruct (ok r); cbn [length]; lia.
Qed.
Lemma wa_earlier : forall rs st x i a b, i < w_index st ->
  w_tbl (snd (wa st rs)) x i a b = w_tbl st x i a b.
Proof.
  induction rs as [|r rs IH]; intros st x i a b Hi; [reflexivity|].
  rewrite wa_cons, IH.
  - rewrite wr_tbl. apply wv_other_row. lia.
  - rewrite wr_index. destruct (ok r); lia.
Qed.
Lemma wa_later : forall rs st x i a b, w_index st + length (filter ok rs) < i ->
  w_tbl (snd (wa st rs)) x i a b = w_tbl st x i a b.
Proof.
  induction rs as [|r rs IH]; intros st x i a b Hi; [reflexivity|].
  cbn [filter] in Hi. rewrite wa_cons, IH.
  - rewrite wr_tbl. apply wv_other_row. destruct (ok r); cbn [length] in Hi; lia.
  - rewrite wr_index. destruct (ok r); cbn [length] in Hi; lia.
Qed.
Lemma wa_frontier : forall rs st x a b,
  (rs = [] \/ exists rs' r, rs = rs' ++ [r] /\ ok r = true) ->
  (forall i, w_index st <= i -> w_tbl st x i a b = None) ->
  w_tbl (snd (wa st rs)) x (w_index (snd (wa st rs))) a b = None.
Proof.
  intros rs st x a b [->|(rs' & r & -> & Hr)] H0; [apply H0; cbn; lia|].
  rewrite wa_app. rewrite wa_cons. cbn [write_all snd].
  rewrite wr_index, Hr, wr_tbl, wv_other_row by lia.
  rewrite wa_later; [apply H0; rewrite wa_index; lia|]. rewrite wa_index. lia.
Qed.

Lemma filter_split : forall {B} (f : B -> bool) l i r, nth_error (filter f l) i = Some r ->
  exists pre post, l = pre ++ r :: post /\ length (filter f pre) = i /\ f r = true.
Proof.
  intros B f. induction l as [|x l IH]; intros i r H; [destruct i; discriminate|].
  cbn [filter] in H. destruct (f x) eqn:E.
  - destruct i as [|i]; cbn in H.
    + injection H; intros; subst. exists [], l. cbn. auto.
    + destruct (IH i r H) as (pre & post & -> & Hl & Hr). exists (x :: pre), post.
      cbn. rewrite E. cbn. auto.
  - destruct (IH i r H) as (pre & post & -> & Hl & Hr). exists (x :: pre), post.
    cbn. rewrite E. auto.
Qed.

Lemma row_supplied : forall rs i r x a b e, Forall is_dict rs ->
  nth_error (filter ok rs) i = Some r -> supplies r x a b e ->
  w_tbl (snd (wa (w_init A) rs)) x i a b = Some e.
Proof.
  intros rs i r x a b e HD Hi Hs. apply filter_split in Hi.
  destruct Hi as (pre & post & -> & Hl & Hr).
  apply Forall_app in HD. destruct HD as [_ HD]. inversion HD as [|? ? HDr _]; subst.
  rewrite wa_app, wa_cons. set (st := snd (wa (w_init A) pre)).
  assert (Hx : w_index st = length (filter ok pre)) by (unfold st; rewrite wa_index; reflexivity).
  rewrite wa_earlier by (rewrite wr_index, Hr; lia).
  rewrite wr_tbl, <- Hx. apply wv_supplied; assumption.
Qed.

Lemma row_fill : forall pre r post x a b, Forall is_dict (pre ++ r :: post) ->
  ok r = true -> (pre = [] \/ exists p q, pre = p ++ [q] /\ ok q = true) ->
  silent r x a b ->
  w_tbl (snd (wa (w_init A) (pre ++ r :: post))) x (length (filter ok pre)) a b = None.
Proof.
  intros pre r post x a b HD Hr Hp Hs.
  apply Forall_app in HD. destruct HD as [_ HD]. inversion HD as [|? ? HDr _]; subst.
  rewrite wa_app, wa_cons. set (st := snd (wa (w_init A) pre)).
  assert (Hx : w_index st = length (filter ok pre)) by (unfold st; rewrite wa_index; reflexivity).
  rewrite wa_earlier by (rewrite wr_index, Hr; lia).
  rewrite wr_tbl, wv_silent by assumption. rewrite <- Hx. unfold st.
  apply wa_frontier; [assumption|]. intros; reflexivity.
Qed.

Lemma count_ok : forall rs, Forall (fun r => ok r = true /\ exists x v, In (x, Some v) r) rs ->
  forall st, w_len st = w_index st ->
  w_len (snd (wa st rs)) = w_index st + length rs.
Proof.
  induction rs as [|r rs IH]; intros H st Hl; [cbn; lia|].
  inversion H as [|? ? (Hr & x & v & Hin) H']; subst. rewrite wa_cons, IH; [|assumption|].
  - rewrite wr_index, Hr. cbn [length]. lia.
  - rewrite wr_len, wr_index, Hr. pose proof (wv_len r st) as [Hu _].
    pose proof (wv_len_some r st x v Hr Hin). lia.
Qed.

Lemma len_bounds : forall rs st, w_len st <= S (w_index st) ->
  w_len (snd (wa st rs)) <= S (w_index (snd (wa st rs))).
Proof.
  induction rs as [|r rs IH]; intros st Hl; [cbn; lia|]. rewrite wa_cons. apply IH.
  rewrite wr_len, wr_index. pose proof (wv_len r st). destruct (ok r); lia.
Qed.
End Table.

(** * Scaling *)
Open Scope Q_scope.
Lemma Qmaxb_l : forall a b, a <= Qmaxb a b.
Proof.
  intros a b. unfold Qmaxb. destruct (Qle_bool a b) eqn:E; [|lra].
  apply Qle_bool_iff in E. exact E.
Qed.
Lemma Qmaxb_r : forall a b, b <= Qmaxb a b.
Proof.
  intros a b. unfold Qmaxb. destruct (Qle_bool a b) eqn:E; [lra|].
  destruct (Qlt_le_dec b a) as [L|L]; [lra|]. apply Qle_bool_iff in L. congruence.
Qed.
Lemma Qmaxb_cases : forall a b, Qmaxb a b = a \/ Qmaxb a b = b.
Proof. intros a b. unfold Qmaxb. destruct (Qle_bool a b); auto. Qed.

Lemma fold_max_ge : forall (f : Q * Q -> Q) l m, m <= fold_left (fun m s => Qmaxb m (f s)) l m.
Proof.
  intros f. induction l as [|s l IH]; intros m; cbn [fold_left]; [lra|].
  eapply Qle_trans; [apply (Qmaxb_l m (f s))|apply IH].
Qed.
Lemma fold_max_in : forall (f : Q * Q -> Q) l m s, In s l ->
  f s <= fold_left (fun m s => Qmaxb m (f s)) l m.
Proof.
  intros f. induction l as [|s0 l IH]; intros m s Hin; [destruct Hin|]. cbn [fold_left].
  destruct Hin as [->|Hin]; [|apply IH; assumption].
  eapply Qle_trans; [apply (Qmaxb_r m (f s))|apply fold_max_ge].
Qed.
Lemma fold_max_is : forall (f : Q * Q -> Q) l m,
  fold_left (fun m s => Qmaxb m (f s)) l m = m \/
  exists s, In s l /\ fold_left (fun m s => Qmaxb m (f s)) l m = f s.
Proof.
  intros f. induction l as [|s0 l IH]; intros m; [left; reflexivity|]. cbn [fold_left].
  destruct (IH (Qmaxb m (f s0))) as [H|(s & Hin & H)].
  - destruct (Qmaxb_cases m (f s0)) as [E|E]; rewrite H, E; [left; reflexivity|].
    right. exists s0. split; [left; reflexivity|reflexivity].
  - right. exists s. split; [right; assumption|exact H].
Qed.

Lemma max_iq_nonneg : forall st, 0 <= max_iq st.
Proof. intros. apply fold_max_ge. Qed.
Lemma max_iq_bound : forall st s, In s st -> Qabs (fst s) <= max_iq st /\ Qabs (snd s) <= max_iq st.
Proof.
  intros st s Hin.
  pose proof (fold_max_in (fun s => Qmaxb (Qabs (fst s)) (Qabs (snd s))) st 0 s Hin) as H.
  cbn beta in H. fold (max_iq st) in H.
  split; (eapply Qle_trans; [|exact H]); [apply Qmaxb_l|apply Qmaxb_r].
Qed.

Lemma scale_pos : forall st, ~ dynamic_scale st == 0 -> 0 < dynamic_scale st.
Proof.
  intros st H. unfold dynamic_scale in *. pose proof (max_iq_nonneg st) as H0.
  assert (0 <= max_iq st / 127) by (apply Qle_shift_div_l; lra).
  apply Qle_lteq in H1. destruct H1 as [H1|H1]; [exact H1|]. exfalso. apply H. symmetry. exact H1.
Qed.

Lemma div_bound : forall x d m, 0 < d -> Qabs x <= m * d -> - m <= x / d /\ x / d <= m.
Proof.
  intros x d m Hd H. apply Qabs_Qle_condition in H. destruct H as [H1 H2]. split.
  - apply Qle_shift_div_l; lra.
  - apply Qle_shift_div_r; lra.
Qed.

Lemma max_is_scale : forall st, max_iq st == 127 * dynamic_scale st.
Proof. intros. unfold dynamic_scale. field. Qed.

(** truncation *)
Lemma qtrunc_spec : forall q, (0 <= q -> 0 <= inject_Z (qtrunc q) /\ inject_Z (qtrunc q) <= q /\ q < inject_Z (qtrunc q) + 1)
  /\ (q <= 0 -> inject_Z (qtrunc q) <= 0 /\ q <= inject_Z (qtrunc q) /\ inject_Z (qtrunc q) - 1 < q).
Proof.
  intros [n d]. unfold qtrunc, Qle, Qlt, inject_Z, Qplus, Qminus, Qopp; cbn [Qnum Qden].
  set (D := Zpos d). assert (HD : (0 < D)%Z) by reflexivity.
  pose proof (Z.quot_rem' n D) as E. split; intros H.
  - assert (Hn : (0 <= n)%Z) by lia. pose proof (Z.rem_bound_pos n D Hn HD).
    pose proof (Z.quot_pos n D Hn HD). repeat split; nia.
  - assert (Hn : (n <= 0)%Z) by lia.
    assert (Hr : (- D < Z.rem n D <= 0)%Z).
    { replace n with (- (- n))%Z by lia. rewrite Z.rem_opp_l by lia.
      pose proof (Z.rem_bound_pos (- n) D ltac:(lia) HD). lia. }
    assert (Hq : (Z.quot n D <= 0)%Z).
    { replace n with (- (- n))%Z by lia. rewrite Z.quot_opp_l by lia.
      pose proof (Z.quot_pos (- n) D ltac:(lia) HD). lia. }
    repeat split; cbn [Pos.mul]; fold D; generalize dependent (Z.quot n D); generalize dependent (Z.rem n D); clearbody D; intros; try nia.
    cbn. nia.
Qed.

Lemma qtrunc_range : forall q (m : Z), - inject_Z m <= q -> q <= inject_Z m ->
  (- m <= qtrunc q <= m)%Z.
Proof.
  intros q m H1 H2. destruct (qtrunc_spec q) as [P N].
  assert (L : forall a b, inject_Z a <= inject_Z b -> (a <= b)%Z).
  { intros a b H. unfold Qle, inject_Z in H; cbn in H. lia. }
  destruct (Qlt_le_dec q 0) as [Hq|Hq].
  - destruct (N ltac:(lra)) as (A1 & A2 & A3). split.
    + apply L. rewrite inject_Z_opp. lra.
    + apply L. change (inject_Z 0) with 0. assert (inject_Z (qtrunc q) <= 0) by exact A1.
      assert (0 <= inject_Z m) by lra. lra.
  - destruct (P Hq) as (A1 & A2 & A3). split.
    + apply L. rewrite inject_Z_opp. assert (0 <= inject_Z m) by lra. lra.
    + apply L. lra.
Qed.

Lemma qtrunc_near : forall q, Qabs (inject_Z (qtrunc q) - q) < 1.
Proof.
  intros q. destruct (qtrunc_spec q) as [P N]. apply Qabs_case; intros;
    destruct (Qlt_le_dec q 0) as [Hq|Hq]; try (destruct (N ltac:(lra)) as (A1 & A2 & A3); lra);
    destruct (P Hq) as (A1 & A2 & A3); lra.
Qed.
Close Scope Q_scope.
