(** A recording with a gap. *)
From Coq Require Import List ZArith QArith Bool Lia Arith.
From Verif Require Import Common BeamModel BeamProofs ChainModel ChainSpec ChainAux ChainProofs ChainInv ChainMain WholeModel WholeChain LongSpec LongProofs SplitSpec.
Import ListNotations.
Local Open Scope nat_scope.

Arguments Nat.ltb : simpl never.
Arguments Nat.leb : simpl never.
Arguments Nat.div : simpl never.

Lemma Forall2_len : forall {A B} (R : A -> B -> Prop) l l', Forall2 R l l' -> length l' = length l.
Proof. intros A B R l l' F. induction F; cbn; auto. Qed.

Section Split.
Variables (cf : cfg) (o : oracle) (n m : nat).
Hypothesis AP : c_approx cf = false.
Notation o2 := (later_oracle n m o).
Notation RS := (later_surface n m).

Definition RP (p p' : packet) : Prop :=
  p_uid p' = n + p_uid p /\ p_counter p' = n + p_counter p /\ p_time p' = p_time p /\ p_done p' = p_done p.
(** Bursts left over from before the gap, all processed. *)
Definition old (l : list packet) : Prop := forall p, In p l -> p_done p = true /\ p_counter p < n.
Definition RQ (L : list packet) (q q' : que) : Prop :=
  Forall2 RS (q_surfs q) (q_surfs q') /\ old L /\ (exists ps, q_packs q' = L ++ ps /\ Forall2 RP (q_packs q) ps) /\
  q_count q' = m + q_count q /\ q_next q' = m + q_next q /\ (L <> [] -> q_packs q <> []).
Definition RI (i i' : inp) : Prop :=
  i_rest i' = i_rest i /\ i_n i' = n + i_n i /\ RotSpec.both RP (i_cur i) (i_cur i') /\ i_pt i' = i_pt i /\
  i_gap i' = i_gap i /\ i_resume i' = i_resume i /\ i_sp i' = i_sp i.
Definition RO (w1 w w' : out) : Prop := joined n m w1 w w'.

(** ** Beams *)
Definition up (x : nat * nat) : nat * nat := (m + fst x, m + snd x).
Lemma scan_rel : forall N p p' wuid ss ss' prev acc seen, Forall2 RS ss ss' -> p_uid p' = n + p_uid p ->
  beam_scan N (fun s => o_vis o (s_uid s) (p_uid p')) (fun s => s_uid s) s_counter (fun s => Nat.eqb (s_uid s) (m + wuid)) ss' prev (map up acc) seen =
  let r := beam_scan N (fun s => o_vis o2 (s_uid s) (p_uid p)) (fun s => s_uid s) s_counter (fun s => Nat.eqb (s_uid s) wuid) ss prev acc seen in
  (map up (fst r), snd r).
Proof.
  intros N p p' wuid ss ss' prev acc seen F P. cbv zeta. revert prev acc seen. induction F as [|s s' ss ss' (U & C & _) F IH]; intros prev acc seen; cbn [beam_scan]; [reflexivity|].
  cbn [later_oracle o_vis]. rewrite U, P. destruct (o_vis o (m + s_uid s) (n + p_uid p)).
  - assert (E : map up acc ++ [(m + s_uid s, s_counter s')] = map up (acc ++ [(s_uid s, s_counter s)])) by (rewrite map_app, C; reflexivity).
    assert (T : (if N <? length (map up acc ++ [(m + s_uid s, s_counter s')]) then tl (map up acc ++ [(m + s_uid s, s_counter s')]) else map up acc ++ [(m + s_uid s, s_counter s')])
              = map up (if N <? length (acc ++ [(s_uid s, s_counter s)]) then tl (acc ++ [(s_uid s, s_counter s)]) else acc ++ [(s_uid s, s_counter s)])).
    { rewrite E, map_length. destruct (N <? _); [|reflexivity]. destruct (acc ++ [(s_uid s, s_counter s)]); reflexivity. }
    rewrite T. replace (Nat.eqb (m + s_uid s) (m + wuid)) with (Nat.eqb (s_uid s) wuid).
    { rewrite P in IH. apply IH. }
    destruct (Nat.eqb_spec (s_uid s) wuid), (Nat.eqb_spec (m + s_uid s) (m + wuid)); try reflexivity; lia.
  - destruct prev; [reflexivity|]. rewrite P in IH. apply IH.
Qed.
Lemma pair_rel : forall N p p' t t' size idx seen ss ss', RP p p' -> Forall2 RS ss ss' ->
  Forall2 RS (pair_loop N p t size idx seen ss) (pair_loop N p' t' size idx (map (fun c => m + c) seen) ss').
Proof.
  intros N p p' t t' size idx seen ss ss' P F. revert idx seen. induction F as [|s s' ss ss' R F IH]; intros idx seen; [constructor|].
  destruct seen as [|c cs]; cbn [map pair_loop]; [constructor; assumption|].
  destruct R as (U & C & LO & ST). rewrite C.
  replace (Nat.eqb (m + s_counter s) (m + c)) with (Nat.eqb (s_counter s) c)
    by (destruct (Nat.eqb_spec (s_counter s) c), (Nat.eqb_spec (m + s_counter s) (m + c)); try reflexivity; lia).
  destruct (Nat.eqb (s_counter s) c).
  - constructor; [|apply IH]. destruct P as (P1 & P2 & _). repeat split; cbn [s_uid s_counter s_loc s_stack]; try assumption; try reflexivity.
    apply Forall2_app; [exact ST|]. constructor; [|constructor]. repeat split; cbn; assumption.
  - constructor; [repeat split; assumption|]. exact (IH idx (c :: cs)).
Qed.
Lemma beam_rel : forall wuid p p' q q' seen t ss w, RP p p' -> Forall2 RS (q_surfs q) (q_surfs q') ->
  beam_step cf o2 wuid p q = (seen, t, ss, w) ->
  exists t' ss', beam_step cf o (m + wuid) p' q' = (map (fun c => m + c) seen, t', ss', w) /\ Forall2 RS ss ss'.
Proof.
  intros wuid p p' q q' seen t ss w P F H. unfold beam_step, beam_angles in *.
  pose proof (scan_rel (c_N cf) p p' wuid (q_surfs q) (q_surfs q') false [] false F (proj1 P)) as S. cbv zeta in S. cbn [map] in S. rewrite S.
  destruct (beam_scan (c_N cf) (fun s => o_vis o2 (s_uid s) (p_uid p)) (fun s => s_uid s) s_counter (fun s => Nat.eqb (s_uid s) wuid) (q_surfs q) false [] false) as [l b].
  cbn [fst snd] in *. injection H as <- <- <- <-.
  assert (E : map snd (map up l) = map (fun c => m + c) (map snd l)) by (rewrite !map_map; reflexivity).
  rewrite E, map_length. eexists. eexists. split; [reflexivity|]. apply pair_rel; assumption.
Qed.

(** ** Bursts *)
Lemma az_rel : forall p p' seen t seen' t', RP p p' -> azimuth_fails cf o p' seen' t' = azimuth_fails cf o2 p seen t.
Proof. intros p p' seen t seen' t' (P & _). unfold azimuth_fails. rewrite AP, P. reflexivity. Qed.
Lemma burst_old : forall wuid L todo visited q, old L -> burst_loop cf o wuid visited (L ++ todo) q = burst_loop cf o wuid (visited ++ L) todo q.
Proof.
  intros wuid. induction L as [|p L IH]; intros todo visited q O; cbn [app].
  - rewrite app_nil_r. reflexivity.
  - cbn [burst_loop]. rewrite (proj1 (O p (or_introl eq_refl))). rewrite IH by (intros x X; apply O; right; exact X).
    rewrite <- app_assoc. reflexivity.
Qed.
Definition RQ0 (q q' : que) : Prop :=
  Forall2 RS (q_surfs q) (q_surfs q') /\ q_count q' = m + q_count q /\ q_next q' = m + q_next q.
Lemma burst_rel : forall L wuid todo todo' visited visited' q q' e q1, old L -> RQ0 q q' -> Forall2 RP todo todo' -> Forall2 RP visited visited' ->
  burst_loop cf o2 wuid visited todo q = (e, q1) ->
  exists q1' ps, burst_loop cf o (m + wuid) (L ++ visited') todo' q' = (e, q1') /\ RQ0 q1 q1' /\ q_packs q1' = L ++ ps /\ Forall2 RP (q_packs q1) ps.
Proof.
  intros L wuid todo todo' visited visited' q q' e q1 O R F. revert visited visited' q q' R.
  induction F as [|p p' todo todo' P F IH]; intros visited visited' q q' R V H; cbn [burst_loop] in H |- *.
  - injection H as <- <-. eexists. exists visited'. split; [reflexivity|]. split; [exact R|]. split; [reflexivity|exact V].
  - pose proof P as P0. destruct P as (P1 & P2 & P3 & P4). rewrite P4. destruct (p_done p).
    + destruct (IH (visited ++ [p]) (visited' ++ [p']) q q' R) as (q1' & ps & H1 & H2); [|exact H|].
      * apply Forall2_app; [exact V|]. constructor; [exact P0|constructor].
      * exists q1', ps. split; [|exact H2]. rewrite <- app_assoc. exact H1.
    + destruct R as (R1 & R2 & R3). destruct (beam_step cf o2 wuid p q) as [[[seen t] ss] ws] eqn:B.
      destruct (beam_rel wuid p p' q q' seen t ss ws P0 R1 B) as (t' & ss' & B' & RS'). rewrite B'.
      rewrite (az_rel p p' seen t (map (fun c => m + c) seen) t' P0). destruct (azimuth_fails cf o2 p seen t).
      * injection H as <- <-. eexists. exists (visited' ++ p' :: todo'). split; [reflexivity|]. split; [repeat split; assumption|]. cbn [q_packs].
        split; [apply app_assoc_reverse|]. apply Forall2_app; [exact V|]. constructor; assumption.
      * assert (PD : RP (mk_packet (p_uid p) (p_counter p) (p_time p) true) (mk_packet (p_uid p') (p_counter p') (p_time p') true)) by (repeat split; assumption).
        destruct ws.
        -- edestruct (IH (visited ++ [mk_packet (p_uid p) (p_counter p) (p_time p) true]) (visited' ++ [mk_packet (p_uid p') (p_counter p') (p_time p') true])
             ) as (q1' & ps & H1 & H2); [| |exact H|].
           ++ instantiate (1 := mk_que ss' (q_packs q') (q_count q') (q_next q') (Z.of_nat (length (map (fun c => m + c) seen))) t' (q_az q' ++ [mk_beamed (p_uid p') (map (fun c => m + c) seen) t'])).
              repeat split; assumption.
           ++ apply Forall2_app; [exact V|]. constructor; [exact PD|constructor].
           ++ exists q1', ps. split; [|exact H2]. rewrite <- app_assoc. exact H1.
        -- injection H as <- <-. eexists. exists (visited' ++ mk_packet (p_uid p') (p_counter p') (p_time p') true :: todo'). split; [reflexivity|]. split; [repeat split; assumption|].
           cbn [q_packs]. split; [apply app_assoc_reverse|]. apply Forall2_app; [exact V|]. constructor; assumption.
Qed.
Lemma drop_old : forall L c l, old L -> drop_until (n + c) (L ++ l) = drop_until (n + c) l.
Proof.
  induction L as [|p L IH]; intros c l O; cbn [app drop_until]; [reflexivity|].
  destruct (O p (or_introl eq_refl)) as (_ & O1). destruct (Nat.eqb_spec (p_counter p) (n + c)); [lia|]. apply IH. intros x X. apply O. right. exact X.
Qed.
Lemma drop_rel : forall c l l', Forall2 RP l l' -> Forall2 RP (drop_until c l) (drop_until (n + c) l').
Proof.
  intros c l l' F. induction F as [|p p' l l' P F IH]; cbn [drop_until]; [constructor|]. destruct P as (P1 & P2 & P3 & P4). rewrite P2.
  destruct (Nat.eqb_spec (p_counter p) c), (Nat.eqb_spec (n + p_counter p) (n + c)); try lia; [constructor; [repeat split; assumption|exact F]|exact IH].
Qed.
Lemma followed_snoc : forall {A} (R : A -> A -> Prop) l1 l2 l x x', followed R l1 l2 l -> R x x' -> followed R l1 (l2 ++ [x]) (l ++ [x']).
Proof.
  intros A R l1 l2 l x x' (t & -> & F) X. exists (t ++ [x']). split; [apply app_assoc_reverse|]. apply Forall2_app; [exact F|]. constructor; [exact X|constructor].
Qed.
Lemma size_rel : forall s s', RS s s' -> stack_size cf s' = stack_size cf s.
Proof. intros s s' (_ & _ & _ & F). unfold stack_size. rewrite (Forall2_len _ _ _ F). reflexivity. Qed.

(** ** One surface *)
Lemma surface_rel : forall L w1 q q' w w' e q1 out1, RQ L q q' -> RO w1 w w' -> surface_phase cf o2 q w = (e, q1, out1) ->
  exists L' q1' out1', surface_phase cf o q' w' = (e, q1', out1') /\ RQ L' q1 q1' /\ RO w1 out1 out1'.
Proof.
  intros L w1 q q' w w' e q1 out1 (F & O & (ps & PE & PF) & QC & QN & LN) W H. unfold surface_phase in H |- *.
  destruct (q_surfs q) as [|s0 sr] eqn:Q.
  { inversion F as [E1 E2|]; subst. injection H as <- <- <-. exists L, q', w'. split; [reflexivity|]. split; [|exact W].
    split; [rewrite Q, <- E2; constructor|]. split; [exact O|]. split; [exists ps; auto|]. auto. }
  inversion F as [|a s0' b sr' R0 F0 E1 E2]; subst.
  destruct (burst_loop cf o2 (s_uid s0) [] (q_packs q) q) as [e1 qb] eqn:BL.
  assert (RQ00 : RQ0 q q') by (split; [rewrite Q; exact F|split; assumption]).
  destruct (burst_rel L (s_uid s0) (q_packs q) ps [] [] q q' e1 qb O RQ00 PF (Forall2_nil _) BL) as (qb' & pb & BL' & (RB1 & RB2 & RB3) & PB & PBF).
  assert (LN' : L <> [] -> q_packs qb <> []).
  { intros NL E. specialize (LN NL). pose proof (burst_loop_keys _ _ _ _ _ _ _ _ BL) as (_ & KP & _). rewrite E in KP. cbn in KP.
    destruct (q_packs q); [apply LN; reflexivity|discriminate]. }
  assert (BB : RQ L qb qb') by (split; [exact RB1|split; [exact O|split; [exists pb; auto|auto]]]).
  rewrite (proj1 R0), PE, (burst_old (m + s_uid s0) L ps [] q' O). cbn [app]. rewrite app_nil_r in BL'. rewrite BL'.
  destruct e1 as [e1|]; [injection H as <- <- <-; exists L, qb', w'; auto|].
  pose proof BB as BB0. destruct BB as (B1 & B2 & B3 & B4 & B5 & B6).
  destruct (q_surfs qb) as [|s1 r1] eqn:QB.
  { inversion B1 as [X1 X2|]; subst. injection H as <- <- <-. exists L, qb', w'. auto. }
  inversion B1 as [|a1 s1' b1 r1' R1 F1 X1 X2]; subst. rewrite (size_rel s1 s1' R1).
  destruct W as (W1 & W2 & W3). pose proof R1 as (U & C & LO & ST).
  assert (POP : RQ L (set_packs_surfs qb (q_packs qb) r1) (set_packs_surfs qb' (q_packs qb') r1')).
  { split; [exact F1|]. split; [exact B2|]. split; [exact B3|]. auto. }
  destruct (_ <? _).
  { injection H as <- <- <-. exists L. eexists. eexists. split; [reflexivity|]. split; [exact POP|].
    split; [|split; assumption]. cbn [w_done]. apply followed_snoc; [exact W1|]. split; [exact R1|reflexivity]. }
  cbn [later_oracle o_corr_fail o_w1_fail o_w2_fail] in H. rewrite U.
  destruct (o_corr_fail o (m + s_uid s1)); [injection H as <- <- <-; exists L, qb', w'; split; [reflexivity|]; split; [exact BB0|split; [exact W1|split; assumption]]|].
  destruct (o_w1_fail o (m + s_uid s1)); [injection H as <- <- <-; exists L, qb', w'; split; [reflexivity|]; split; [exact BB0|split; [exact W1|split; assumption]]|].
  assert (S1 : followed (later_surface n m) (w_l1b w1) (w_l1b w ++ [s1]) (w_l1b w' ++ [s1'])) by (apply followed_snoc; assumption).
  assert (S2 : followed (later_surface n m) (w_l1bs w1) (if c_l1bs cf then w_l1bs w ++ [s1] else w_l1bs w) (if c_l1bs cf then w_l1bs w' ++ [s1'] else w_l1bs w'))
    by (destruct (c_l1bs cf); [apply followed_snoc; assumption|exact W3]).
  assert (S0 : followed (later_decision n m) (w_done w1) (w_done w ++ [(s1, true)]) (w_done w' ++ [(s1', true)]))
    by (apply followed_snoc; [exact W1|split; [exact R1|reflexivity]]).
  destruct (c_l1bs cf && o_w2_fail o (m + s_uid s1)).
  { injection H as <- <- <-. exists L, qb'. eexists. split; [reflexivity|]. split; [exact BB0|]. split; [exact W1|]. split; assumption. }
  destruct (q_packs qb) as [|p0 pr] eqn:PQ.
  - assert (L = []) by (destruct L; [reflexivity|exfalso; apply LN'; [discriminate|reflexivity]]). subst L.
    inversion PBF; subst. cbn [app] in PB. rewrite PB.
    injection H as <- <- <-. exists []. eexists. eexists. split; [destruct (s_stack s1'); reflexivity|]. split; [|split; [exact S0|split; assumption]].
    split; [exact F1|]. split; [intros x []|]. split; [exists []; split; [reflexivity|constructor]|]. split; [exact B4|]. split; [exact B5|]. intros X. contradiction.
  - inversion PBF as [|a2 p0' b2 pr' RP0 RPR Y1 Y2]; subst.
    destruct (s_stack s1) as [|e0 es] eqn:SE; inversion ST as [Z1 Z2|a3 e0' b3 es' RE FE Z1 Z2]; subst.
    + injection H as <- <- <-. exists L, qb'. rewrite PB. destruct (L ++ p0' :: pr') eqn:LL; [destruct L; discriminate|].
      eexists. split; [reflexivity|]. split; [|split; [exact W1|split; assumption]].
      exact BB0.
    + injection H as <- <- <-. exists []. rewrite PB. destruct (L ++ p0' :: pr') eqn:LL; [destruct L; discriminate|]. rewrite <- LL. clear LL.
      eexists. eexists. split; [reflexivity|]. split; [|split; [exact S0|split; assumption]].
      split; [exact F1|]. split; [intros x []|]. split; [|split; [exact B4|split; [exact B5|intros X; contradiction]]].
      exists (drop_until (n + e_counter e0) (p0' :: pr')). cbn [set_packs_surfs q_packs].
      destruct RE as (_ & EC & _). rewrite EC. split; [apply drop_old; exact O|]. apply (drop_rel (e_counter e0) (p0 :: pr) (p0' :: pr')). constructor; assumption.
Qed.

(** ** Reading *)
Lemma last_rel : forall ss ss' s s', RS s s' -> Forall2 RS ss ss' -> RS (last ss s) (last ss' s').
Proof.
  intros ss ss' s s' R F. revert s s' R. induction F as [|a a' l l' A F IH]; intros s s' R; [exact R|].
  cbn [last]. destruct F; [exact A|]. exact (IH s s' R).
Qed.
Lemma locate_rel : forall L f p p' q q' r q1, RQ L q q' -> RP p p' -> locate o2 f p q = (r, q1) ->
  (r = None -> L = []) /\ exists q1', locate o f p' q' = (r, q1') /\ RQ L q1 q1'.
Proof.
  intros L f p p' q q' r q1 (F & O & (ps & PE & PF) & QC & QN & LN) P H.
  assert (PK : exists ps0, q_packs q' ++ [p'] = L ++ ps0 /\ Forall2 RP (q_packs q ++ [p]) ps0).
  { exists (ps ++ [p']). rewrite PE. split; [apply app_assoc_reverse|]. apply Forall2_app; [exact PF|]. constructor; [exact P|constructor]. }
  assert (CR : RQ L (mk_que (q_surfs q ++ [mk_surface (q_next q) (q_count q) (p_uid p) []]) (q_packs q ++ [p]) (S (q_count q)) (S (q_next q)) (q_psize q) (q_ptrend q) (q_az q))
                    (mk_que (q_surfs q' ++ [mk_surface (q_next q') (q_count q') (p_uid p') []]) (q_packs q' ++ [p']) (S (q_count q')) (S (q_next q')) (q_psize q') (q_ptrend q') (q_az q'))).
  { split; [cbn [q_surfs]; apply Forall2_app; [exact F|]; constructor; [|constructor]; repeat split; cbn; try assumption; [apply P|constructor]|].
    split; [exact O|]. split; [exact PK|]. cbn [q_count q_next q_packs]. split; [lia|]. split; [lia|]. intros _ E. destruct (q_packs q); discriminate. }
  assert (NC : RQ L (set_packs_surfs q (q_packs q ++ [p]) (q_surfs q)) (set_packs_surfs q' (q_packs q' ++ [p']) (q_surfs q'))).
  { split; [exact F|]. split; [exact O|]. split; [exact PK|]. cbn [set_packs_surfs q_count q_next q_packs]. split; [exact QC|]. split; [exact QN|].
    intros _ E. destruct (q_packs q); discriminate. }
  unfold locate in H |- *. destruct (q_surfs q) as [|s ss] eqn:Q.
  { inversion F as [E1 E2|]. injection H as <- <-. split; [discriminate|]. eexists. split; [reflexivity|]. rewrite <- E2 in CR. exact CR. }
  inversion F as [|a s' b ss' R0 F0 E1 E2]; subst. destruct f.
  { injection H as <- <-. split; [discriminate|]. eexists. split; [reflexivity|]. rewrite E2. exact CR. }
  pose proof (last_rel ss ss' s s' R0 F0) as (LU & _).
  assert (LEN : length (q_packs q' ++ [p']) = length L + length (q_packs q ++ [p])).
  { rewrite PE, !app_length, (Forall2_len _ _ _ PF). cbn. lia. }
  destruct (q_packs q ++ [p]) as [|a1 [|a2 ar]] eqn:PQ.
  - destruct (q_packs q); discriminate.
  - assert (q_packs q = []) by (destruct (q_packs q) as [|z [|]]; [reflexivity|discriminate|discriminate]).
    assert (L = []) by (destruct L; [reflexivity|exfalso; apply LN; [discriminate|assumption]]). subst L. cbn in LEN.
    destruct (q_packs q' ++ [p']) as [|b1 [|b2 br]] eqn:PQ'; cbn in LEN; try lia.
    injection H as <- <-. split; [reflexivity|]. eexists. split; [reflexivity|]. rewrite E2. exact NC.
  - destruct (q_packs q' ++ [p']) as [|b1 [|b2 br]] eqn:PQ'; cbn in LEN; try lia.
    cbn [later_oracle o_new] in H. destruct P as (P1 & _). rewrite LU. rewrite <- P1 in H.
    destruct (o_new o (m + s_uid (last ss s)) (p_uid p')); injection H as <- <-; (split; [discriminate|]); eexists; (split; [reflexivity|]); rewrite E2; [exact CR|exact NC].
Qed.
Definition RR (L : list packet) (r r' : read_res) : Prop :=
  match r, r' with
  | RGo i q _, RGo i' q' _ => RI i i' /\ RQ L q q'
  | RContinue i q _, RContinue i' q' _ => RI i i' /\ RQ L q q'
  | RRaise e i q _, RRaise e' i' q' _ => e = e' /\ RI i i' /\ RQ L q q'
  | _, _ => False
  end.
Lemma handle_rel : forall L i i' q q' mo mo', RI i i' -> RQ L q q' -> RR L (handle_packet cf o2 i q mo) (handle_packet cf o i' q' mo').
Proof.
  intros L i i' q q' mo mo' I Q. pose proof I as (I1 & I2 & I3 & I4 & I5 & I6 & I7). unfold handle_packet.
  destruct (i_cur i) as [p|] eqn:CU, (i_cur i') as [p'|] eqn:CU'; try contradiction; [|split; assumption].
  pose proof I3 as (P1 & P2 & P3 & P4). rewrite I4, P3.
  destruct (match i_pt i with None => true | Some t0 => lt_q (p_time p - t0)%Q (c_gap cf) end).
  - rewrite I6. destruct (locate o2 (i_resume i) p q) as [r q1] eqn:LO.
    destruct (locate_rel L (i_resume i) p p' q q' r q1 Q I3 LO) as (_ & q1' & LO' & Q1). rewrite LO'.
    destruct r as [[|]|]; [| |split; [reflexivity|]]; (split; [|exact Q1]); repeat split; cbn; try assumption; try rewrite CU, CU'; try exact I3.
  - split; [|exact Q]. repeat split; cbn; try assumption; try rewrite CU, CU'; try exact I3.
Qed.
Lemma read_rel : forall L s s', RI (s_in s) (s_in s') -> RQ L (s_q s) (s_q s') -> RR L (read_phase cf o2 0 s) (read_phase cf o 0 s').
Proof.
  intros L s s' I Q. pose proof I as (I1 & I2 & I3 & I4 & I5 & I6 & I7). unfold read_phase. rewrite I5. destruct (i_gap (s_in s)) eqn:G; [split; assumption|].
  rewrite I6. destruct (i_resume (s_in s)) eqn:R; [apply handle_rel; assumption|]. rewrite I1.
  destruct (i_rest (s_in s)) as [|[t| |] r].
  - rewrite I7. destruct (i_sp (s_in s)).
    + apply handle_rel; [|exact Q]. repeat split; cbn; assumption.
    + split; [reflexivity|]. split; [|exact Q]. repeat split; cbn; assumption.
  - apply handle_rel; [|exact Q]. repeat split; cbn; try assumption; lia.
  - apply handle_rel; [|exact Q]. repeat split; cbn; try assumption; lia.
  - split; [reflexivity|]. split; [|exact Q]. repeat split; cbn; try assumption; lia.
Qed.

(** ** One iteration *)
Definition RST (L : list packet) (w1 : out) (s s' : st) : Prop := RI (s_in s) (s_in s') /\ RQ L (s_q s) (s_q s') /\ RO w1 (s_out s) (s_out s').
Definition RB (w1 : out) (r r' : step_res) : Prop :=
  match r, r' with
  | BCont s, BCont s' => exists L, RST L w1 s s'
  | BEnd s, BEnd s' => exists L, RST L w1 s s'
  | BRaise e s, BRaise e' s' => e = e' /\ exists L, RST L w1 s s'
  | _, _ => False
  end.
Lemma end_rel : forall L w1 i i' q q' w w' mo mo', RI i i' -> RQ L q q' -> RO w1 w w' -> RB w1 (end_phase i q w mo) (end_phase i' q' w' mo').
Proof.
  intros L w1 i i' q q' w w' mo mo' I Q W. unfold end_phase. pose proof I as (I1 & I2 & I3 & I4 & I5 & I6 & I7).
  pose proof (proj1 Q) as F. inversion F as [E1 E2|a a' l l' A F0 E1 E2].
  - rewrite I5. destruct (i_gap i).
    + exists L. split; [|split; assumption]. repeat split; cbn; try assumption.
    + exists L. split; [exact I|split; assumption].
  - exists L. split; [exact I|split; assumption].
Qed.
Lemma go_rel : forall L w1 s s', RR L (read_phase cf o2 0 s) (read_phase cf o 0 s') -> RO w1 (s_out s) (s_out s') ->
  RB w1 (body cf o2 0 s) (body cf o 0 s').
Proof.
  intros L w1 s s' R W. unfold body.
  destruct (read_phase cf o2 0 s) as [i q mo|i q mo|e i q mo], (read_phase cf o 0 s') as [i' q' mo'|i' q' mo'|e' i' q' mo']; try contradiction.
  - destruct R as (I & Q). pose proof I as (I1 & I2 & I3 & I4 & I5 & I6 & I7). rewrite I7, I5, (Forall2_len _ _ _ (proj1 Q)).
    destruct (i_sp i || (c_min cf <=? length (q_surfs q)) || i_gap i).
    + destruct (surface_phase cf o2 q (s_out s)) as [[e q1] ow] eqn:SP.
      destruct (surface_rel L w1 q q' (s_out s) (s_out s') e q1 ow Q W SP) as (L' & q1' & ow' & SP' & Q' & W'). rewrite SP'.
      assert (IT : RI (mk_inp (i_rest i) (i_n i) (i_cur i) (i_pt i) (i_gap i) (i_resume i) true) (mk_inp (i_rest i') (i_n i') (i_cur i') (i_pt i') (i_gap i) (i_resume i') true))
        by (repeat split; cbn; assumption).
      destruct e as [e|]; [split; [reflexivity|]; exists L'; split; [exact IT|split; assumption]|].
      apply (end_rel L'); assumption.
    + apply (end_rel L); assumption.
  - destruct R as (I & Q). exists L. split; [exact I|split; assumption].
  - destruct R as (E & I & Q). split; [exact E|]. exists L. split; [exact I|split; assumption].
Qed.
Lemma body_rel : forall L w1 s s', RST L w1 s s' -> RB w1 (body cf o2 0 s) (body cf o 0 s').
Proof. intros L w1 s s' (I & Q & W). apply (go_rel L w1 s s'); [apply read_rel; assumption|exact W]. Qed.
Lemma loop_rel : forall L w1 f k k' s s', RST L w1 s s' -> (forall x, loop cf o2 0 no_cancel f k s <> OFuel x) ->
  let r := loop cf o2 0 no_cancel f k s in
  let r' := loop cf o 0 no_cancel f k' s' in
  ends_alike r r' /\ RO w1 (s_out (final r)) (s_out (final r')).
Proof.
  intros L w1 f. revert L. induction f as [|f IH]; intros L k k' s s' R NF; [exfalso; exact (NF s eq_refl)|]. cbn [loop] in *.
  pose proof (body_rel L w1 s s' R) as B. destruct (body cf o2 0 s) as [s1|s1|e s1], (body cf o 0 s') as [s1'|s1'|e' s1']; try contradiction.
  - destruct B as (L' & B). apply (IH L'); [exact B|exact NF].
  - destruct B as (L' & _ & _ & B). split; [reflexivity|exact B].
  - destruct B as (E & L' & _ & _ & B). split; [exact E|exact B].
Qed.
End Split.
