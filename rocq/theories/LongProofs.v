(** A longer recording. *)
From Coq Require Import List ZArith QArith Bool Lia Arith.
From Verif Require Import Common BeamModel BeamProofs ChainModel ChainSpec ChainAux ChainProofs ChainInv ChainMain WholeModel WholeSpec WholeChain WholeProofs LongSpec.
From Verif Require SurfModel.
Import ListNotations.
Local Open Scope nat_scope.

Arguments Nat.ltb : simpl never.
Arguments Nat.leb : simpl never.
Arguments Nat.div : simpl never.

(** * Answers that agree for the bursts queued *)
Section Below.
Variables (cf : cfg) (n : nat) (o o' : oracle).
Hypothesis A : same_before n o o'.

Lemma burst_loop_below : forall wuid todo visited q, (forall p, In p todo -> p_uid p < n) ->
  burst_loop cf o' wuid visited todo q = burst_loop cf o wuid visited todo q.
Proof.
  intros wuid. induction todo as [|p rest IH]; intros visited q L; cbn [burst_loop]; [reflexivity|].
  assert (LR : forall x, In x rest -> p_uid x < n) by (intros x X; apply L; right; exact X).
  destruct (proj1 A (p_uid p) (L p (or_introl eq_refl))) as (_ & V & F).
  rewrite (beam_step_ext cf o o' wuid p q) by (intros s; symmetry; apply V).
  destruct (p_done p); [apply IH; exact LR|]. destruct (beam_step cf o wuid p q) as [[[seen t] surfs'] wseen].
  assert (E : azimuth_fails cf o' p seen t = azimuth_fails cf o p seen t) by (unfold azimuth_fails; rewrite F; reflexivity).
  rewrite E. destruct (azimuth_fails cf o p seen t); [reflexivity|]. destruct wseen; [|reflexivity]. apply IH. exact LR.
Qed.
Lemma surface_phase_below : forall q w, (forall p, In p (q_packs q) -> p_uid p < n) ->
  surface_phase cf o' q w = surface_phase cf o q w.
Proof.
  intros q w L. destruct A as (_ & A1 & A2 & A3). unfold surface_phase. destruct (q_surfs q) as [|s0 sr]; [reflexivity|].
  rewrite burst_loop_below by exact L. destruct (burst_loop cf o (s_uid s0) [] (q_packs q) q) as [[e|] q1]; [reflexivity|].
  destruct (q_surfs q1) as [|s1 r]; [reflexivity|]. rewrite A1, A2, A3. reflexivity.
Qed.
Lemma locate_below : forall f p q, p_uid p < n -> locate o' f p q = locate o f p q.
Proof. intros f p q L. apply locate_ext. intros _ s. symmetry. apply (proj1 A (p_uid p) L). Qed.
Lemma handle_below : forall i q m, (forall p, i_cur i = Some p -> p_uid p < n) ->
  handle_packet cf o' i q m = handle_packet cf o i q m.
Proof.
  intros i q m L. unfold handle_packet. destruct (i_cur i) as [p|]; [|reflexivity]. rewrite (locate_below _ p q (L p eq_refl)). reflexivity.
Qed.
End Below.

(** * More to read *)
Definition more_inp (ys : list item) (i : inp) : inp :=
  mk_inp (i_rest i ++ ys) (i_n i) (i_cur i) (i_pt i) (i_gap i) (i_resume i) (i_sp i).
Definition more (ys : list item) (s : st) : st := mk_st (more_inp ys (s_in s)) (s_q s) (s_out s) (s_mon s).
Definition more_read (ys : list item) (r : read_res) : read_res :=
  match r with
  | RGo i q m => RGo (more_inp ys i) q m
  | RContinue i q m => RContinue (more_inp ys i) q m
  | RRaise e i q m => RRaise e (more_inp ys i) q m
  end.
Definition more_step (ys : list item) (r : step_res) : step_res :=
  match r with
  | BCont s => BCont (more ys s)
  | BEnd s => BEnd (more ys s)
  | BRaise e s => BRaise e (more ys s)
  end.
(** Nothing left to read. *)
Definition spent (s : st) : Prop := i_gap (s_in s) = false /\ i_resume (s_in s) = false /\ i_rest (s_in s) = [].
Lemma spent_dec : forall s, spent s \/ ~ spent s.
Proof.
  intros s. unfold spent. destruct (i_gap (s_in s)), (i_resume (s_in s)), (i_rest (s_in s)); auto; right; intros (X & Y & Z); discriminate.
Qed.

Lemma handle_more : forall cf o ys i q m, handle_packet cf o (more_inp ys i) q m = more_read ys (handle_packet cf o i q m).
Proof.
  intros cf o ys i q m. unfold handle_packet. cbn [more_inp i_cur i_pt i_resume i_rest i_n i_gap i_sp].
  destruct (i_cur i) as [p|]; [|reflexivity]. destruct (match i_pt i with Some _ => _ | None => _ end); [|reflexivity].
  destruct (locate o (i_resume i) p q) as [[[]|] q1]; reflexivity.
Qed.
Lemma read_more : forall cf o ys s, ~ spent s -> read_phase cf o 0 (more ys s) = more_read ys (read_phase cf o 0 s).
Proof.
  intros cf o ys s N. unfold read_phase, more. cbn [s_in s_q s_mon more_inp i_gap i_resume i_rest i_n i_cur i_pt i_sp].
  destruct (i_gap (s_in s)) eqn:G; [reflexivity|]. destruct (i_resume (s_in s)) eqn:R.
  - rewrite <- handle_more. unfold more_inp. rewrite G, R. reflexivity.
  - destruct (i_rest (s_in s)) as [|[t| |] r] eqn:E.
    + exfalso. apply N. repeat split; assumption.
    + cbn [app]. rewrite <- handle_more. reflexivity.
    + cbn [app]. rewrite <- handle_more. reflexivity.
    + reflexivity.
Qed.
Lemma body_more : forall cf o ys s, ~ spent s -> body cf o 0 (more ys s) = more_step ys (body cf o 0 s).
Proof.
  intros cf o ys s N. unfold body. rewrite (read_more cf o ys s N). cbn [more s_out].
  destruct (read_phase cf o 0 s) as [i q m|i q m|e i q m]; cbn [more_read]; [|reflexivity|reflexivity].
  cbn [more_inp i_sp i_gap i_rest i_n i_cur i_pt i_resume].
  destruct (i_sp i || (c_min cf <=? length (q_surfs q)) || i_gap i).
  - destruct (surface_phase cf o q (s_out s)) as [[[e|] q1] w1]; [reflexivity|]. unfold end_phase. cbn [i_gap i_rest i_n i_cur i_pt].
    destruct (q_surfs q1); [destruct (i_gap i); reflexivity|reflexivity].
  - unfold end_phase. cbn [more_inp i_gap i_rest i_n i_cur i_pt]. destruct (q_surfs q); [destruct (i_gap i); reflexivity|reflexivity].
Qed.

(** The bursts an iteration meets are records of the input. *)
Lemma read_n : forall cf o s, i_n (read_inp (read_phase cf o 0 s)) <= i_n (s_in s) + length (i_rest (s_in s)).
Proof.
  intros cf o s.
  assert (HN : forall i q m, i_n (read_inp (handle_packet cf o i q m)) = i_n i).
  { intros i q m. pose proof (handle_n cf o i q m) as H. destruct (handle_packet cf o i q m); exact H. }
  unfold read_phase. destruct (i_gap (s_in s)); [cbn; lia|]. destruct (i_resume (s_in s)); [rewrite HN; lia|].
  destruct (i_rest (s_in s)) as [|[t| |] r]; [destruct (i_sp (s_in s)); [rewrite HN|]|rewrite HN|rewrite HN|]; cbn; lia.
Qed.
Lemma read_below : forall cf o items s d, Inv cf o items s -> forall p,
  In p (q_packs (read_que (read_phase cf d 0 s))) -> p_uid p < length items.
Proof.
  intros cf o items s d (I & _ & _) p P. pose proof (ii_n _ _ _ _ _ _ _ I) as N.
  assert (B : bound (s_in s) <= length items) by (unfold bound; destruct (i_gap (s_in s) || i_resume (s_in s)); lia).
  assert (OLD : In p (q_packs (s_q s)) -> p_uid p < length items).
  { intros X. destruct (pi_val _ _ _ _ (ii_P _ _ _ _ _ _ _ I) p X) as (L & _). lia. }
  pose proof (read_n cf d s) as RN. pose proof (ii_rest _ _ _ _ _ _ _ I) as RS. apply (f_equal (@length _)) in RS. rewrite skipn_length in RS.
  destruct (read_packs cf d 0 s) as ([E|(p' & E & C)] & _); rewrite E in P; [auto|].
  apply in_app_or in P. destruct P as [P|[<-|[]]]; [auto|].
  destruct C as [(_ & (t & ->) & E1)|(R & CU)].
  - cbn [p_uid]. lia.
  - destruct (ii_cur _ _ _ _ _ _ _ I) as (k & t & K1 & K2 & _); [rewrite R; apply orb_true_r|]. rewrite CU in K2. injection K2 as ->. cbn [p_uid]. lia.
Qed.
Lemma read_same : forall cf o0 items s o o', Inv cf o0 items s -> same_before (length items) o o' ->
  read_phase cf o' 0 s = read_phase cf o 0 s.
Proof.
  intros cf o0 items s o o' (I & _ & _) A. pose proof (ii_n _ _ _ _ _ _ _ I) as N. unfold read_phase. destruct (i_gap (s_in s)); [reflexivity|].
  destruct (i_resume (s_in s)) eqn:RS.
  - apply (handle_below cf (length items) o o' A). intros p P.
    destruct (ii_cur _ _ _ _ _ _ _ I) as (k & t & K1 & K2 & _); [rewrite RS; apply orb_true_r|]. rewrite P in K2. injection K2 as ->. cbn [p_uid]. lia.
  - pose proof (ii_rest _ _ _ _ _ _ _ I) as RE. apply (f_equal (@length _)) in RE. rewrite skipn_length in RE.
    destruct (i_rest (s_in s)) as [|[t| |] r]; cbn in RE.
    + destruct (i_sp (s_in s)); reflexivity.
    + apply (handle_below cf (length items) o o' A). cbn [i_cur]. intros p P. injection P as <-. cbn [p_uid]. lia.
    + reflexivity.
    + reflexivity.
Qed.
Lemma body_below : forall cf o0 items s o o', Inv cf o0 items s -> same_before (length items) o o' ->
  body cf o' 0 s = body cf o 0 s.
Proof.
  intros cf o0 items s o o' I A.
  unfold body. rewrite (read_same cf o0 items s o o' I A). pose proof (read_below cf o0 items s o I) as L.
  destruct (read_phase cf o 0 s) as [i q m|i q m|e i q m]; [|reflexivity|reflexivity]. cbn [read_que] in L.
  rewrite (surface_phase_below cf (length items) o o' A q (s_out s) L). reflexivity.
Qed.

(** * What an iteration adds *)
Lemma prefix_refl : forall {T} (l : list T), prefix l l.
Proof. intros T l. exists []. rewrite app_nil_r. reflexivity. Qed.
Lemma prefix_snoc : forall {T} (l : list T) x, prefix l (l ++ [x]).
Proof. intros T l x. exists [x]. reflexivity. Qed.
Lemma prefix_trans : forall {T} (a b c : list T), prefix a b -> prefix b c -> prefix a c.
Proof. intros T a b c (x & ->) (y & ->). exists (x ++ y). rewrite app_assoc. reflexivity. Qed.
Definition grows (w w' : out) : Prop :=
  prefix (w_done w) (w_done w') /\ prefix (w_l1b w) (w_l1b w') /\ prefix (w_l1bs w) (w_l1bs w').
Lemma grows_refl : forall w, grows w w.
Proof. intros w. repeat split; apply prefix_refl. Qed.
Lemma grows_trans : forall a b c, grows a b -> grows b c -> grows a c.
Proof. intros a b c (A1 & A2 & A3) (B1 & B2 & B3). repeat split; eapply prefix_trans; eassumption. Qed.
Lemma surface_phase_grows : forall cf o q w e q' w', surface_phase cf o q w = (e, q', w') -> grows w w'.
Proof.
  intros cf o q w e q' w' H. unfold surface_phase in H.
  destruct (q_surfs q) as [|s0 sr]; [injection H as _ _ <-; apply grows_refl|].
  destruct (burst_loop cf o (s_uid s0) [] (q_packs q) q) as [[e1|] q1]; [injection H as _ _ <-; apply grows_refl|].
  destruct (q_surfs q1) as [|s1 r]; [injection H as _ _ <-; apply grows_refl|].
  destruct (_ <? _). { injection H as _ _ <-. repeat split; cbn; first [apply prefix_refl|apply prefix_snoc]. }
  destruct (o_corr_fail o (s_uid s1)); [injection H as _ _ <-; apply grows_refl|].
  destruct (o_w1_fail o (s_uid s1)); [injection H as _ _ <-; apply grows_refl|].
  destruct (c_l1bs cf && o_w2_fail o (s_uid s1)).
  { injection H as _ _ <-. repeat split; cbn; first [apply prefix_refl|apply prefix_snoc]. }
  destruct (q_packs q1) as [|p0 ps]; [|destruct (s_stack s1) as [|e0 es]]; injection H as _ _ <-;
    (repeat split; cbn; try destruct (c_l1bs cf); first [apply prefix_refl|apply prefix_snoc]).
Qed.
Lemma body_grows : forall cf o s, grows (s_out s) (s_out (step_st (body cf o 0 s))).
Proof.
  intros cf o s. unfold body. destruct (read_phase cf o 0 s) as [i q m|i q m|e i q m]; [|apply grows_refl|apply grows_refl].
  destruct (i_sp i || (c_min cf <=? length (q_surfs q)) || i_gap i).
  - destruct (surface_phase cf o q (s_out s)) as [[e q1] w1] eqn:SP. apply surface_phase_grows in SP.
    destruct e; [exact SP|]. unfold end_phase. destruct (q_surfs q1); [|exact SP]. destruct (i_gap _); exact SP.
  - unfold end_phase. destruct (q_surfs q); [destruct (i_gap i)|]; apply grows_refl.
Qed.

(** At most one surface less than needed is queued between iterations. *)
Lemma surface_phase_pops : forall cf o q w q' w', surface_phase cf o q w = (None, q', w') ->
  S (length (q_surfs q')) = length (q_surfs q).
Proof.
  intros cf o q w q' w' H. unfold surface_phase in H.
  destruct (q_surfs q) as [|s0 sr] eqn:Q; [discriminate|].
  destruct (burst_loop cf o (s_uid s0) [] (q_packs q) q) as [[e1|] q1] eqn:BL; [discriminate|].
  pose proof (burst_loop_keys _ _ _ _ _ _ _ _ BL) as (KS & _). apply (f_equal (@length _)) in KS. rewrite !map_length, Q in KS.
  destruct (q_surfs q1) as [|s1 r] eqn:Q1; [discriminate|]. cbn [length] in *.
  destruct (_ <? _); [injection H as <- _; cbn; lia|].
  destruct (o_corr_fail o (s_uid s1)); [discriminate|]. destruct (o_w1_fail o (s_uid s1)); [discriminate|].
  destruct (c_l1bs cf && o_w2_fail o (s_uid s1)); [discriminate|].
  destruct (q_packs q1) as [|p0 ps]; [|destruct (s_stack s1) as [|e0 es]; [discriminate|]]; injection H as <- _; cbn; lia.
Qed.
Lemma read_surfs : forall cf o s,
  match read_phase cf o 0 s with
  | RGo _ q _ => length (q_surfs q) <= S (length (q_surfs (s_q s)))
  | RContinue _ q _ => q_surfs q = q_surfs (s_q s)
  | RRaise _ _ _ _ => True
  end.
Proof.
  intros cf o s.
  assert (H : forall i m, match handle_packet cf o i (s_q s) m with
    | RGo _ q _ => length (q_surfs q) <= S (length (q_surfs (s_q s)))
    | RContinue _ q _ => q_surfs q = q_surfs (s_q s)
    | RRaise _ _ _ _ => True end).
  { intros i m. unfold handle_packet. destruct (i_cur i) as [p|]; [|lia].
    destruct (match i_pt i with Some _ => _ | None => _ end); [|cbn; lia].
    unfold locate. destruct (q_surfs (s_q s)) as [|x xs] eqn:Q; [cbn; lia|].
    destruct (i_resume i). { cbn [q_surfs]. rewrite app_length. cbn. lia. }
    destruct (q_packs (s_q s) ++ [p]) as [|a [|b l]]; [exact I|exact I|].
    destruct (o_new o (s_uid (last xs x)) (p_uid p)); cbn [q_surfs set_packs_surfs]; [rewrite app_length; cbn; lia|reflexivity]. }
  unfold read_phase. destruct (i_gap (s_in s)); [lia|]. destruct (i_resume (s_in s)); [apply H|].
  destruct (i_rest (s_in s)) as [|[t| |] r]; [destruct (i_sp (s_in s)); [apply H|exact I]|apply H|apply H|exact I].
Qed.
Lemma body_short : forall cf o s s', length (q_surfs (s_q s)) <= c_min cf - 1 -> body cf o 0 s = BCont s' ->
  length (q_surfs (s_q s')) <= c_min cf - 1.
Proof.
  intros cf o s s' L H. unfold body in H. pose proof (read_surfs cf o s) as R.
  destruct (read_phase cf o 0 s) as [i q m|i q m|e i q m]; [|injection H as <-; cbn; rewrite R; exact L|discriminate].
  destruct (i_sp i || (c_min cf <=? length (q_surfs q)) || i_gap i) eqn:C.
  - destruct (surface_phase cf o q (s_out s)) as [[[e|] q1] w1] eqn:SP; [discriminate|]. apply surface_phase_pops in SP.
    unfold end_phase in H. destruct (q_surfs q1) eqn:Q1; cbn [i_gap] in H; [destruct (i_gap i); [|discriminate]|];
      injection H as <-; cbn [s_q]; rewrite Q1; cbn [length] in *; lia.
  - apply orb_false_iff in C. destruct C as (C & _). apply orb_false_iff in C. destruct C as (_ & C). apply Nat.leb_gt in C.
    unfold end_phase in H. destruct (q_surfs q) eqn:Q1; cbn [i_gap] in H; [destruct (i_gap i); [|discriminate]|];
      injection H as <-; cbn [s_q]; rewrite Q1; cbn [length] in *; lia.
Qed.

(** Once all is read, no surface is located. *)
Lemma burst_loop_next : forall cf o wuid todo visited q e q', burst_loop cf o wuid visited todo q = (e, q') -> q_next q' = q_next q.
Proof. intros cf o wuid todo visited q e q' H. apply burst_loop_keys in H. apply H. Qed.
Lemma surface_phase_next : forall cf o q w e q' w', surface_phase cf o q w = (e, q', w') -> q_next q' = q_next q.
Proof.
  intros cf o q w e q' w' H. unfold surface_phase in H.
  destruct (q_surfs q) as [|s0 sr]; [injection H as _ <- _; reflexivity|].
  destruct (burst_loop cf o (s_uid s0) [] (q_packs q) q) as [[e1|] q1] eqn:BL; apply burst_loop_next in BL; [injection H as _ <- _; exact BL|].
  destruct (q_surfs q1) as [|s1 r]; [injection H as _ <- _; exact BL|].
  destruct (_ <? _); [injection H as _ <- _; exact BL|].
  destruct (o_corr_fail o (s_uid s1)); [injection H as _ <- _; exact BL|].
  destruct (o_w1_fail o (s_uid s1)); [injection H as _ <- _; exact BL|].
  destruct (c_l1bs cf && o_w2_fail o (s_uid s1)); [injection H as _ <- _; exact BL|].
  destruct (q_packs q1) as [|p0 ps]; [|destruct (s_stack s1) as [|e0 es]]; injection H as _ <- _; exact BL.
Qed.
Lemma body_spent : forall cf o s, spent s ->
  q_next (s_q (step_st (body cf o 0 s))) = q_next (s_q s) /\
  (forall s', body cf o 0 s = BCont s' -> spent s').
Proof.
  intros cf o s (G & R & E). unfold body.
  assert (RP : (exists m, read_phase cf o 0 s = RGo (mk_inp [] (i_n (s_in s)) None (i_pt (s_in s)) false false (i_sp (s_in s))) (s_q s) m) \/
               (exists i m, read_phase cf o 0 s = RRaise EInsufficient i (s_q s) m)).
  { unfold read_phase. rewrite G, R, E. destruct (i_sp (s_in s)); [left|right; eauto]. eexists. reflexivity. }
  destruct RP as [(m & RP)|(i & m & RP)]; rewrite RP; [|split; [reflexivity|discriminate]].
  cbn [i_sp i_gap i_rest i_n i_cur i_pt i_resume]. rewrite orb_false_r.
  destruct (i_sp (s_in s) || (c_min cf <=? length (q_surfs (s_q s)))).
  - destruct (surface_phase cf o (s_q s) (s_out s)) as [[e q1] w1] eqn:SP. apply surface_phase_next in SP.
    destruct e; [split; [exact SP|discriminate]|]. unfold end_phase. cbn [i_gap].
    destruct (q_surfs q1); split; try exact SP; try discriminate. intros s' H. injection H as <-. repeat split.
  - unfold end_phase. cbn [i_gap]. destruct (q_surfs (s_q s)); split; try reflexivity; try discriminate.
    intros s' H. injection H as <-. repeat split.
Qed.

(** * What the end of a run looks like *)
Definition in_order (s : st) (l : list surface) : Prop :=
  l = kept (s_out s) \/ exists x r, q_surfs (s_q s) = x :: r /\ l = kept (s_out s) ++ [x].
Definition counted (cf : cfg) (s : st) : Prop :=
  map s_counter (known_surfaces s) = seq 0 (q_next (s_q s)) /\ in_order s (w_l1b (s_out s)) /\
  (if c_l1bs cf then in_order s (w_l1bs (s_out s)) else w_l1bs (s_out s) = []).
Definition tidy (cf : cfg) (w : out) : Prop := w_l1b w = kept w /\ w_l1bs w = if c_l1bs cf then kept w else [].
Lemma KI_counted : forall cf o items s, KI cf o items (decided (s_out s)) (s_q s) -> map s_counter (known_surfaces s) = seq 0 (q_next (s_q s)).
Proof.
  intros cf o items s K. rewrite <- (k_uid _ _ _ _ _ K). unfold known_surfaces. fold (decided (s_out s)). apply map_ext_in.
  intros x X. apply (k_cnt _ _ _ _ _ K). exact X.
Qed.
Lemma II0_counted : forall cf o items s, II0 cf o items (s_in s) (s_q s) (s_out s) (s_mon s) -> counted cf s /\ tidy cf (s_out s).
Proof.
  intros cf o items s I. destruct (ii_O _ _ _ _ _ _ _ I) as [_ O1 O2]. split; [|split; assumption].
  split; [exact (KI_counted _ _ _ _ (ii_K _ _ _ _ _ _ _ I))|].
  split; [left; exact O1|]. rewrite O2. destruct (c_l1bs cf); [left; reflexivity|reflexivity].
Qed.
Lemma InvR_counted : forall cf o items e s, InvR cf o items e s -> counted cf s.
Proof.
  intros cf o items e s' B. split; [exact (KI_counted _ _ _ _ (ir_K _ _ _ _ _ B))|]. destruct (ir_O _ _ _ _ _ B) as (w0 & [_ O1 O2] & D & W).
  assert (KE : kept w0 = kept (s_out s')) by (unfold kept; rewrite D; reflexivity). unfold in_order.
  destruct W as [(W1 & W2)|(x & r & Q & W1 & _ & W2)].
  + rewrite W1, W2, O1, O2, KE. split; [left; reflexivity|]. destruct (c_l1bs cf); [left|]; reflexivity.
  + rewrite W1, O1, KE. split; [right; exists x, r; auto|].
    destruct W2 as [(_ & W2)|(_ & C & W2)]; rewrite W2, O2, KE; destruct (c_l1bs cf); auto.
    right. exists x, r. auto.
Qed.
Lemma step_counted : forall cf o items s, Inv cf o items s -> counted cf (step_st (body cf o 0 s)).
Proof.
  intros cf o items s I. pose proof (body_ok cf o items s I) as B. destruct (body cf o 0 s) as [s'|s'|e s']; cbn [step_ok step_st] in *.
  - destruct B as (B & _). exact (proj1 (II0_counted _ _ _ _ B)).
  - destruct B as (B & _). exact (proj1 (II0_counted _ _ _ _ B)).
  - exact (InvR_counted _ _ _ _ _ B).
Qed.
Lemma app_inv_len : forall {T} (a b c d : list T), a ++ b = c ++ d -> length a = length c -> a = c /\ b = d.
Proof.
  intros T. induction a as [|x a IH]; intros b [|y c] d E L; cbn in *; try discriminate; [auto|].
  injection E as -> E. injection L as L. destruct (IH _ _ _ E L) as (-> & ->). auto.
Qed.
(** What comes later is numbered later. *)
Lemma counted_later : forall cf s done0 l, counted cf s -> prefix done0 (w_done (s_out s)) -> in_order s l ->
  exists tail, l = map fst (filter snd done0) ++ tail /\ forall x, In x tail -> length done0 <= s_counter x.
Proof.
  intros cf s done0 l (C & _) (dx & D) W.
  unfold known_surfaces in C. rewrite D, (map_app fst), <- app_assoc, (map_app s_counter) in C.
  set (n := q_next (s_q s)) in *.
  assert (LE : length done0 <= n). { apply (f_equal (@length _)) in C. rewrite app_length, seq_length, !map_length in C. lia. }
  assert (T : map s_counter (map fst dx ++ q_surfs (s_q s)) = seq (length done0) (n - length done0)).
  { replace n with (length done0 + (n - length done0)) in C by lia. rewrite seq_app in C. apply app_inv_len in C; [|rewrite !map_length, seq_length; reflexivity].
    apply C. }
  assert (IN : forall x, In x (map fst dx ++ q_surfs (s_q s)) -> length done0 <= s_counter x).
  { intros x X. apply (in_map s_counter) in X. rewrite T in X. apply in_seq in X. lia. }
  assert (K : kept (s_out s) = map fst (filter snd done0) ++ map fst (filter snd dx)) by (unfold kept; rewrite D, filter_app, map_app; reflexivity).
  assert (IF : forall x, In x (map fst (filter snd dx)) -> In x (map fst dx ++ q_surfs (s_q s))).
  { intros x X. apply in_or_app. left. apply in_map_iff in X. destruct X as (y & <- & Y). apply filter_In in Y. apply in_map. apply Y. }
  destruct W as [->|(x & r & Q & ->)]; rewrite K.
  - exists (map fst (filter snd dx)). split; [reflexivity|]. intros x X. apply IN, IF. exact X.
  - exists (map fst (filter snd dx) ++ [x]). split; [apply app_assoc_reverse|]. intros y Y. apply IN. apply in_app_or in Y.
    destruct Y as [Y|[<-|[]]]; [apply IF; exact Y|]. apply in_or_app. right. rewrite Q. left. reflexivity.
Qed.

(** * Two states *)
(** Two states that agree in what was decided when the shorter recording was read. *)
Definition parted (cf : cfg) (s s' : st) : Prop :=
  exists s0, length (q_surfs (s_q s0)) <= c_min cf - 1 /\ counted cf s0 /\ tidy cf (s_out s0) /\
    grows (s_out s0) (s_out s) /\ grows (s_out s0) (s_out s') /\ q_next (s_q s) = q_next (s_q s0).
Lemma known_next : forall cf s, counted cf s -> length (known_surfaces s) = q_next (s_q s).
Proof. intros cf s (C & _). apply (f_equal (@length _)) in C. rewrite map_length, seq_length in C. exact C. Qed.
Lemma firstn_prefix : forall {T} m (a b : list T), prefix a b -> m <= length a -> firstn m b = firstn m a.
Proof. intros T m a b (r & ->) L. rewrite firstn_app. replace (m - length a) with 0 by lia. cbn. apply app_nil_r. Qed.
Lemma filter_none : forall {T} (f : T -> bool) l, (forall x, In x l -> f x = false) -> filter f l = [].
Proof. intros T f. induction l as [|x l IH]; intros H; cbn; [reflexivity|]. rewrite (H x) by (left; reflexivity). apply IH. intros y Y. apply H. right. exact Y. Qed.
Lemma first_later : forall m n l0 tail, m <= n -> (forall x, In x tail -> n <= s_counter x) ->
  first_surfaces m (l0 ++ tail) = first_surfaces m l0.
Proof.
  intros m n l0 tail L H. unfold first_surfaces. rewrite filter_app, (filter_none _ tail), app_nil_r; [reflexivity|].
  intros x X. apply Nat.ltb_ge. specialize (H x X). lia.
Qed.
Lemma first_same : forall cf m s0 s, counted cf s -> tidy cf (s_out s0) -> grows (s_out s0) (s_out s) -> m <= length (w_done (s_out s0)) ->
  firstn m (w_done (s_out s)) = firstn m (w_done (s_out s0)) /\
  first_surfaces m (w_l1b (s_out s)) = first_surfaces m (w_l1b (s_out s0)) /\
  first_surfaces m (w_l1bs (s_out s)) = first_surfaces m (w_l1bs (s_out s0)).
Proof.
  intros cf m s0 s C (T1 & T2) G L.
  assert (F : forall l, in_order s l -> first_surfaces m l = first_surfaces m (kept (s_out s0))).
  { intros l I. destruct (counted_later cf s _ l C (proj1 G) I) as (tail & -> & H). apply (first_later m _ _ _ L H). }
  split; [apply firstn_prefix; [apply G|exact L]|]. rewrite T1, T2. destruct C as (_ & C1 & C2). split; [apply F; exact C1|].
  destruct (c_l1bs cf); [apply F; exact C2|rewrite C2; reflexivity].
Qed.
Lemma parted_same : forall cf s s', counted cf s -> counted cf s' -> parted cf s s' -> let m := settled (c_min cf) s in
  m <= length (w_done (s_out s)) /\
  firstn m (w_done (s_out s')) = firstn m (w_done (s_out s)) /\
  first_surfaces m (w_l1b (s_out s')) = first_surfaces m (w_l1b (s_out s)) /\
  first_surfaces m (w_l1bs (s_out s')) = first_surfaces m (w_l1bs (s_out s)).
Proof.
  intros cf s s' C C' (s0 & SH & C0 & T & G & G' & N) m.
  assert (L : m <= length (w_done (s_out s0))).
  { unfold m, settled. rewrite (known_next cf s C), N, <- (known_next cf s0 C0). unfold known_surfaces. rewrite app_length, map_length. lia. }
  destruct (first_same cf m s0 s C T G L) as (E1 & E2 & E3). destruct (first_same cf m s0 s' C' T G' L) as (F1 & F2 & F3).
  rewrite E1, E2, E3. split; [|auto]. destruct G as ((r & G) & _). rewrite G, app_length. lia.
Qed.

(** * The chain *)
Lemma out_counted : forall cf o items r, out_ok cf o items r -> counted cf (final r).
Proof.
  intros cf o items [s [|]|e s|s] H; cbn [out_ok final] in *.
  - destruct H as (H & _). exact (proj1 (II0_counted _ _ _ _ H)).
  - destruct H as (H & _). exact (proj1 (II0_counted _ _ _ _ H)).
  - exact (InvR_counted _ _ _ _ _ H).
  - destruct H as (H & _). exact (proj1 (II0_counted _ _ _ _ H)).
Qed.
Lemma run_counted : forall cf o cancel input, counted cf (final (run cf o cancel input)).
Proof. intros cf o cancel input. apply (out_counted cf o input). apply loop_ok. apply init_inv. Qed.

Lemma loop_grows : forall cf o cancel f k s, grows (s_out s) (s_out (final (loop cf o 0 cancel f k s))).
Proof.
  intros cf o cancel. induction f as [|f IH]; intros k s; cbn [loop]; [apply grows_refl|].
  pose proof (body_grows cf o s) as G. destruct (body cf o 0 s) as [s'|s'|e s']; cbn [step_st] in G; [|exact G|exact G].
  destruct (cancel k); [exact G|]. eapply grows_trans; [exact G|apply IH].
Qed.
Lemma loop_spent : forall cf o cancel f k s, spent s -> q_next (s_q (final (loop cf o 0 cancel f k s))) = q_next (s_q s).
Proof.
  intros cf o cancel. induction f as [|f IH]; intros k s P; cbn [loop]; [reflexivity|].
  destruct (body_spent cf o s P) as (N & C). destruct (body cf o 0 s) as [s'|s'|e s']; cbn [step_st] in N; [|exact N|exact N].
  destruct (cancel k); [exact N|]. rewrite IH; [exact N|]. apply C. reflexivity.
Qed.
Lemma loop_longer : forall cf o o' xs ys cancel, same_before (length xs) o o' -> forall f f' k s,
  Inv cf o xs s -> length (q_surfs (s_q s)) <= c_min cf - 1 -> f <= f' -> (forall s1, loop cf o 0 cancel f k s <> OFuel s1) ->
  let r := loop cf o 0 cancel f k s in
  let r' := loop cf o' 0 cancel f' k (more ys s) in
  final r' = more ys (final r) \/ parted cf (final r) (final r').
Proof.
  intros cf o o' xs ys cancel A. induction f as [|f IH]; intros f' k s I SH L NF; [exfalso; exact (NF s eq_refl)|].
  destruct (spent_dec s) as [SP|NS].
  { right. exists s. destruct (II0_counted _ _ _ _ (proj1 I)) as (C & T).
    split; [exact SH|]. split; [exact C|]. split; [exact T|]. split; [apply loop_grows|]. split; [|apply loop_spent; exact SP].
    apply (loop_grows cf o' cancel f' k (more ys s)). }
  destruct f' as [|f']; [lia|]. cbn [loop] in *.
  rewrite (body_more cf o' ys s NS), (body_below cf o xs s o o' I A).
  pose proof (body_ok cf o xs s I) as B. pose proof (body_short cf o s) as SHO.
  destruct (body cf o 0 s) as [s'|s'|e s']; cbn [more_step step_ok] in *; [|left; reflexivity|left; reflexivity].
  destruct (cancel k); [left; reflexivity|]. apply IH; [exact B|apply SHO; [exact SH|reflexivity]|lia|exact NF].
Qed.
Lemma run_longer : forall cf o o' cancel xs ys, same_before (length xs) o o' ->
  let s := final (run cf o cancel xs) in
  let s' := final (run cf o' cancel (xs ++ ys)) in
  s_out s' = s_out s \/ parted cf s s'.
Proof.
  intros cf o o' cancel xs ys A. cbv zeta. unfold run, run_from.
  destruct (loop_longer cf o o' xs ys cancel A (enough [] xs) (enough [] (xs ++ ys)) 0 (init [] [] 0 xs)) as [E|P].
  - apply init_inv.
  - cbn. lia.
  - unfold enough. rewrite app_length. lia.
  - intros s1. apply run_from_terminates.
  - left. change (init [] [] 0 (xs ++ ys)) with (more ys (init [] [] 0 xs)). rewrite E. reflexivity.
  - right. exact P.
Qed.
