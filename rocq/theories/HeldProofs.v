(** What a run holds in memory: invariants. *)
From Coq Require Import List ZArith QArith Bool Lia Arith Sorted.
From Verif Require Import Common ChainModel ChainSpec ChainAux ChainProofs ChainInv ChainMain WholeModel WholeChain LongSpec LongProofs HeldSpec.
Import ListNotations.
Local Open Scope nat_scope.

Arguments Nat.ltb : simpl never.
Arguments Nat.leb : simpl never.
Arguments Nat.div : simpl never.

Section Held.
Variables (cf : cfg) (o : oracle) (items : list item).
Definition HI (B : nat) (U : list nat) (done : list (surface * bool)) : Prop :=
  exists pre, valid_numbers items B = pre ++ U /\ ((forall x b, In (x, b) done -> b = false) -> pre = []) /\
    (forall x e r u, In (x, true) done -> s_stack x = e :: r -> In u U -> e_uid e <= u).
Definition held (s : st) : Prop := HI (dealt s) (bursts_held s) (w_done (s_out s)).

Lemma numbers_S : forall k, valid_numbers items (S k) = valid_numbers items k ++ (if valid_record items k then [k] else []).
Proof. intros k. unfold valid_numbers. rewrite seq_S, filter_app. cbn. destruct (valid_record items k); reflexivity. Qed.
Lemma HI_skip : forall B U done, HI B U done -> valid_record items B = false -> HI (S B) U done.
Proof. intros B U done (pre & E & N & F) V. exists pre. rewrite numbers_S, V, app_nil_r. auto. Qed.
Lemma HI_new : forall B U done, HI B U done -> valid_record items B = true ->
  (forall x e r, In (x, true) done -> s_stack x = e :: r -> e_uid e < B) -> HI (S B) (U ++ [B]) done.
Proof.
  intros B U done (pre & E & N & F) V L. exists pre. rewrite numbers_S, V, E, app_assoc. split; [reflexivity|]. split; [exact N|].
  intros x e r u X S I. apply in_app_or in I. destruct I as [I|[<-|[]]]; [apply (F x e r u X S I)|]. specialize (L x e r X S). lia.
Qed.

(** The first look of a decided surface has been dealt with. *)
Lemma looks_below : forall s, Inv cf o items s -> forall x e r, In (x, true) (w_done (s_out s)) -> s_stack x = e :: r -> e_uid e < dealt s.
Proof.
  intros s (I & _) x e r X S. pose proof (ii_K _ _ _ _ _ _ _ I) as K. pose proof (ii_P _ _ _ _ _ _ _ I) as P.
  destruct (k_stack _ _ _ _ _ K x) as (_ & EN & _); [apply in_or_app; left; apply (in_map fst) in X; exact X|].
  destruct (EN e) as (_ & _ & a & A & U & _); [rewrite S; left; reflexivity|]. rewrite <- U. apply (pi_az _ _ _ _ P a A).
Qed.

Definition read_st (s : st) (r : read_res) : st :=
  match r with RGo i q m => mk_st i q (s_out s) m | RContinue i q m => mk_st i q (s_out s) m | RRaise _ i q m => mk_st i q (s_out s) m end.
Lemma handle_held : forall s i q m p, Inv cf o items s -> HI (dealt s) (map p_uid (q_packs q)) (w_done (s_out s)) ->
  i_cur i = Some p -> p_uid p = dealt s -> i_gap i = false -> i_n i = S (dealt s) -> valid_record items (dealt s) = true ->
  held (read_st s (handle_packet cf o i q m)).
Proof.
  intros s i q m p I H CU PU G N V. unfold handle_packet. rewrite CU.
  destruct (match i_pt i with Some _ => _ | None => _ end).
  - pose proof (locate_packs o (i_resume i) p q) as L. destruct (locate o (i_resume i) p q) as [r q1]. cbn [snd] in L.
    assert (X : HI (S (dealt s)) (map p_uid (q_packs q1)) (w_done (s_out s))).
    { rewrite L, map_app. cbn [map]. rewrite PU. apply HI_new; [exact H|exact V|apply looks_below; exact I]. }
    destruct r as [[|]|]; unfold held, read_st, dealt, bursts_held; cbn [s_in s_q s_out i_gap i_resume i_n]; rewrite G; cbn [orb]; rewrite N; exact X.
  - unfold held, read_st. unfold dealt at 1. unfold bursts_held. cbn [s_in s_q s_out i_gap i_resume i_n]. cbn [orb]. rewrite N. cbn [Nat.sub]. rewrite Nat.sub_0_r. exact H.
Qed.
Lemma read_held : forall s, Inv cf o items s -> held s -> held (read_st s (read_phase cf o 0 s)).
Proof.
  intros s I H. pose proof I as (I0 & _). unfold read_phase. destruct (i_gap (s_in s)) eqn:G; [unfold held, read_st, dealt, bursts_held in *; cbn [s_in s_q s_out]; rewrite G in *; exact H|].
  destruct (i_resume (s_in s)) eqn:R.
  { destruct (ii_cur _ _ _ _ _ _ _ I0) as (k & t & N & CU & V & _); [rewrite R, orb_true_r; reflexivity|].
    assert (D : dealt s = k) by (unfold dealt; rewrite R, orb_true_r, N; lia).
    apply (handle_held s _ _ _ (mk_packet k k t false)); try assumption; try congruence.
    - rewrite D. reflexivity.
    - rewrite D. unfold valid_record. rewrite V. reflexivity. }
  assert (D : dealt s = i_n (s_in s)) by (unfold dealt; rewrite G, R; reflexivity).
  assert (NT : forall x r, i_rest (s_in s) = x :: r -> nth_error items (i_n (s_in s)) = Some x).
  { intros x r E. rewrite (ii_rest _ _ _ _ _ _ _ I0) in E. rewrite <- (firstn_skipn (i_n (s_in s)) items), E.
    pose proof (ii_n _ _ _ _ _ _ _ I0). rewrite nth_error_app2; rewrite firstn_length_le by lia; [|lia]. rewrite Nat.sub_diag. reflexivity. }
  assert (SK : forall cu x r m, i_rest (s_in s) = x :: r -> (forall t, x <> Valid t) ->
    held (mk_st (mk_inp r (S (i_n (s_in s))) cu (i_pt (s_in s)) false false (i_sp (s_in s))) (s_q s) (s_out s) m)).
  { intros cu x r m E NV. unfold held. unfold dealt at 1. unfold bursts_held. cbn [s_in s_q s_out i_gap i_resume orb i_n]. rewrite <- D.
    apply HI_skip; [exact H|]. rewrite D. unfold valid_record. rewrite (NT x r E). destruct x; [exfalso; exact (NV t eq_refl)|reflexivity|reflexivity]. }
  destruct (i_rest (s_in s)) as [|[t| |] r] eqn:E.
  - destruct (i_sp (s_in s)); unfold handle_packet; cbn [i_cur]; unfold held, read_st, bursts_held; unfold dealt at 1; cbn [s_in s_q s_out i_gap i_resume orb i_n];
      rewrite <- D; exact H.
  - apply (handle_held s _ _ _ (mk_packet (0 + i_n (s_in s)) (i_n (s_in s)) t false)); cbn [i_cur i_gap i_n p_uid plus]; try assumption; try congruence; try reflexivity.
    rewrite D. unfold valid_record. rewrite (NT _ r eq_refl). reflexivity.
  - unfold handle_packet. cbn [i_cur read_st]. apply (SK None Nothing); [reflexivity|discriminate].
  - cbn [read_st]. apply (SK _ ReadFail); [reflexivity|discriminate].
Qed.

(** Processing a surface releases bursts only if it is written. *)
Lemma surface_packs : forall q w e q1 w1, surface_phase cf o q w = (e, q1, w1) ->
  (map p_uid (q_packs q1) = map p_uid (q_packs q) /\ (w_done w1 = w_done w \/ e = None /\ exists x, w_done w1 = w_done w ++ [(x, false)])) \/
  (e = None /\ exists x k, w_done w1 = w_done w ++ [(x, true)] /\ map p_uid (q_packs q1) = skipn k (map p_uid (q_packs q)) /\
     forall e0 r p ps, s_stack x = e0 :: r -> q_packs q1 = p :: ps -> p_counter p = e_counter e0).
Proof.
  intros q w e q1 w1 H. unfold surface_phase in H. destruct (q_surfs q) as [|s0 sr]; [injection H as <- <- <-; left; auto|].
  destruct (burst_loop cf o (s_uid s0) [] (q_packs q) q) as [eb qb] eqn:BL. apply burst_loop_keys in BL. destruct BL as (_ & K & _).
  cbn [app] in K. assert (U : map p_uid (q_packs qb) = map p_uid (q_packs q)).
  { apply (f_equal (map (fun k => fst (fst k)))) in K. rewrite !map_map in K. exact K. }
  destruct eb as [eb|]; [injection H as <- <- <-; left; auto|].
  destruct (q_surfs qb) as [|s1 rest]; [injection H as <- <- <-; left; auto|].
  destruct (Nat.ltb _ _); [injection H as <- <- <-; left; cbn; split; [exact U|right; split; [reflexivity|eexists; reflexivity]]|].
  destruct (o_corr_fail o (s_uid s1)); [injection H as <- <- <-; left; auto|].
  destruct (o_w1_fail o (s_uid s1)); [injection H as <- <- <-; left; auto|].
  destruct (c_l1bs cf && o_w2_fail o (s_uid s1)); [injection H as <- <- <-; left; auto|].
  destruct (q_packs qb) as [|p ps] eqn:PB.
  { injection H as <- <- <-. right. split; [reflexivity|]. exists s1, 0. cbn. split; [reflexivity|]. split; [rewrite <- U; reflexivity|]. discriminate. }
  destruct (s_stack s1) as [|e0 st] eqn:SS; [injection H as <- <- <-; left; rewrite PB; cbn [w_done]; auto|].
  injection H as <- <- <-. right. split; [reflexivity|]. 
  assert (DU : forall l, exists k, map p_uid (drop_until (e_counter e0) l) = skipn k (map p_uid l) /\ forall x y, drop_until (e_counter e0) l = x :: y -> p_counter x = e_counter e0).
  { induction l as [|a l (k & IH1 & IH2)]; [exists 0; split; [reflexivity|discriminate]|]. cbn [drop_until]. destruct (Nat.eqb_spec (p_counter a) (e_counter e0)).
    - exists 0. split; [reflexivity|]. intros x y E. injection E as <- <-. assumption.
    - exists (S k). split; [exact IH1|exact IH2]. }
  destruct (DU (p :: ps)) as (k & D1 & D2). exists s1, k. split; [reflexivity|]. split; [rewrite <- U; exact D1|].
  intros e1 r p1 ps1 E1 E2. rewrite SS in E1. injection E1 as <- <-. cbn [set_packs_surfs q_packs] in E2. exact (D2 p1 ps1 E2).
Qed.
Lemma increasing_head : forall (u : nat) l v, increasing (u :: l) -> In v (u :: l) -> u <= v.
Proof.
  intros u l v S [->|I]; [lia|]. inversion S as [|? ? _ F]; subst. rewrite Forall_forall in F. specialize (F v I). lia.
Qed.

(** What holds of a state that goes on or ends. *)
Lemma step_held : forall s, Inv cf o items s -> held s -> held (step_st (body cf o 0 s)).
Proof.
  intros s I H. pose proof (body_ok cf o items s I) as OK. pose proof (read_held s I H) as R. unfold body in *.
  destruct (read_phase cf o 0 s) as [i q m|i q m|e i q m]; cbn [read_st step_st] in *; [|exact R|exact R].
  assert (ENDP : forall i q w m, s_q (step_st (end_phase i q w m)) = q /\ s_out (step_st (end_phase i q w m)) = w).
  { intros i' q' w' m'. unfold end_phase. destruct (q_surfs q'); [destruct (i_gap i')|]; split; reflexivity. }
  assert (ENDD : forall q' w' m' sp, i_resume i = false \/ i_gap i = true \/ True -> dealt (step_st (end_phase (mk_inp (i_rest i) (i_n i) (i_cur i) (i_pt i) (i_gap i) (i_resume i) sp) q' w' m')) = dealt (mk_st i q (s_out s) m)).
  { intros q' w' m' sp _. unfold end_phase, dealt. destruct (q_surfs q'); [|reflexivity]. cbn [i_gap]. destruct (i_gap i) eqn:Gi; cbn [step_st s_in i_gap i_resume i_n orb]; [rewrite Gi; reflexivity|rewrite Gi; reflexivity]. }
  destruct (i_sp i || (c_min cf <=? length (q_surfs q)) || i_gap i).
  2:{ destruct (ENDP i q (s_out s) m) as (E1 & E2). unfold held, bursts_held. rewrite E1, E2. 
      replace (dealt (step_st (end_phase i q (s_out s) m))) with (dealt (mk_st i q (s_out s) m)); [exact R|].
      destruct i as [a b c d e f g]. symmetry. apply (ENDD q (s_out s) m g). auto. }
  destruct (surface_phase cf o q (s_out s)) as [[e q1] w1] eqn:SP. apply surface_packs in SP.
  set (i1 := mk_inp (i_rest i) (i_n i) (i_cur i) (i_pt i) (i_gap i) (i_resume i) true) in *.
  destruct R as (pre & R1 & R2 & R3). cbn [s_q s_out bursts_held] in *. unfold bursts_held in R1, R3. cbn [s_q] in R1, R3.
  destruct SP as [(U & D)|(-> & x & k & D & U & DU)].
  - assert (X : HI (dealt (mk_st i q (s_out s) m)) (map p_uid (q_packs q1)) (w_done w1)).
    { exists pre. rewrite U. split; [exact R1|]. destruct D as [->|(_ & y & ->)]; [split; assumption|]. split.
      - intros N. apply R2. intros y' b' Y. apply (N y' b'). apply in_or_app. left. exact Y.
      - intros x' e' r' u' X'. apply in_app_or in X'. destruct X' as [X'|[E|[]]]; [apply (R3 x' e' r' u' X')|discriminate]. }
    destruct e as [e|]; [exact X|].
    destruct (ENDP i1 q1 w1 m) as (E1 & E2). unfold held, bursts_held. rewrite E1, E2. unfold i1. rewrite ENDD by auto. exact X.
  - destruct (ENDP i1 q1 w1 m) as (E1 & E2). 
    assert (II : exists i2 m2, II0 cf o items i2 q1 w1 m2).
    { assert (J : forall s2, (II0 cf o items (s_in s2) (s_q s2) (s_out s2) (s_mon s2)) -> s_q s2 = q1 -> s_out s2 = w1 -> exists i2 m2, II0 cf o items i2 q1 w1 m2).
      { intros s2 A <- <-. eexists. eexists. exact A. }
      destruct (end_phase i1 q1 w1 m) as [s2|s2|e2 s2] eqn:EP; cbn [step_ok step_st] in *.
      - apply (J s2); [apply OK|exact E1|exact E2].
      - apply (J s2); [apply OK|exact E1|exact E2].
      - exfalso. unfold end_phase in EP. destruct (q_surfs q1); [destruct (i_gap i1)|]; discriminate. }
    destruct II as (i2 & m2 & II). pose proof (ii_K _ _ _ _ _ _ _ II) as K. pose proof (ii_P _ _ _ _ _ _ _ II) as P.
    unfold held, bursts_held. rewrite E1, E2. unfold i1. rewrite ENDD by auto.
    exists (pre ++ firstn k (map p_uid (q_packs q))). split; [rewrite R1, U, <- app_assoc, firstn_skipn; reflexivity|].
    split; [intros N; exfalso; specialize (N x true); rewrite D in N; discriminate N; apply in_or_app; right; left; reflexivity|].
    intros x' e' r' u X' S' I'. rewrite D in X'. apply in_app_or in X'. destruct X' as [X'|[E|[]]].
    + apply (R3 x' e' r' u X' S'). rewrite U in I'. rewrite <- (firstn_skipn k (map p_uid (q_packs q))). apply in_or_app. right. exact I'.
    + injection E as <-. destruct (k_stack _ _ _ _ _ K x) as (_ & EN & _).
      { apply in_or_app. left. unfold decided. rewrite D, map_app. apply in_or_app. right. left. reflexivity. }
      destruct (EN e') as (EC & _); [rewrite S'; left; reflexivity|]. pose proof (pi_inc _ _ _ _ P) as INC.
      destruct (q_packs q1) as [|p ps] eqn:PQ; [contradiction|].
      pose proof (DU e' r' p ps S' eq_refl) as PC. rewrite (pi_cnt _ _ _ _ P p) in PC by (rewrite PQ; left; reflexivity).
      rewrite <- EC, <- PC. cbn [map] in INC, I'. exact (increasing_head _ _ _ INC I').
Qed.
Lemma loop_held : forall cancel f k s, Inv cf o items s -> held s -> held (final (loop cf o 0 cancel f k s)).
Proof.
  intros cancel. induction f as [|f IH]; intros k s I H; cbn [loop]; [exact H|].
  pose proof (step_held s I H) as S. pose proof (body_ok cf o items s I) as OK. destruct (body cf o 0 s) as [s'|s'|e s']; cbn [step_st step_ok] in *; [|exact S|exact S].
  destruct (cancel k); [exact S|]. apply IH; assumption.
Qed.
Lemma init_held : held (init [] [] 0 items).
Proof. exists []. split; [reflexivity|]. split; [reflexivity|]. intros x e r u []. Qed.

(** ** Surfaces *)
Lemma raise_surfs : forall s e i q m, read_phase cf o 0 s = RRaise e i q m -> q_surfs q = q_surfs (s_q s).
Proof.
  intros s e i q m H.
  assert (HA : forall i' m', handle_packet cf o i' (s_q s) m' = RRaise e i q m -> q_surfs q = q_surfs (s_q s)).
  { intros i' m' X. unfold handle_packet in X. destruct (i_cur i') as [p|]; [|discriminate].
    destruct (match i_pt i' with Some _ => _ | None => _ end); [|discriminate].
    destruct (locate o (i_resume i') p (s_q s)) as [r q1] eqn:LO. destruct r as [[|]|]; try discriminate. injection X as _ _ <- _.
    unfold locate in LO. destruct (q_surfs (s_q s)) as [|x y] eqn:Q; [discriminate|]. destruct (i_resume i'); [discriminate|].
    destruct (q_packs (s_q s) ++ [p]) as [|a [|b l]]; [injection LO as <-; cbn; congruence|injection LO as <-; cbn; congruence|]. destruct (o_new _ _ _); discriminate. }
  unfold read_phase in H. destruct (i_gap (s_in s)); [discriminate|]. destruct (i_resume (s_in s)); [exact (HA _ _ H)|].
  destruct (i_rest (s_in s)) as [|[t| |] r]; [|exact (HA _ _ H)|exact (HA _ _ H)|].
  - destruct (i_sp (s_in s)); [exact (HA _ _ H)|]. injection H as _ _ <- _. reflexivity.
  - injection H as _ _ <- _. reflexivity.
Qed.
Lemma loop_surfs : forall cancel f k s, 1 <= c_min cf -> surfaces_held s <= c_min cf - 1 -> surfaces_held (final (loop cf o 0 cancel f k s)) <= c_min cf.
Proof.
  intros cancel. induction f as [|f IH]; intros k s M L; cbn [loop final]; [lia|].
  pose proof (body_short cf o s) as BS. pose proof (read_surfs cf o s) as RS.
  assert (BR : forall s', (exists e, body cf o 0 s = BRaise e s') \/ body cf o 0 s = BEnd s' -> surfaces_held s' <= c_min cf).
  { unfold surfaces_held in *. intros s'. unfold body. pose proof (raise_surfs s) as RR. destruct (read_phase cf o 0 s) as [i q m|i q m|e i q m].
    - destruct (i_sp i || (c_min cf <=? length (q_surfs q)) || i_gap i).
      + destruct (surface_phase cf o q (s_out s)) as [[e q1] w1] eqn:SP.
        assert (LE : length (q_surfs q1) <= length (q_surfs q)).
        { unfold surface_phase in SP. destruct (q_surfs q) as [|s0 sr] eqn:QS; [injection SP as _ <- _; rewrite QS; lia|].
          destruct (burst_loop cf o (s_uid s0) [] (q_packs q) q) as [eb qb] eqn:BL. apply burst_loop_keys in BL. destruct BL as (K & _).
          apply (f_equal (@length _)) in K. rewrite !map_length, QS in K.
          destruct eb as [eb|]; [injection SP as _ <- _; lia|]. destruct (q_surfs qb) as [|s1 rest] eqn:QB; [discriminate|]. cbn [length] in *.
          repeat match type of SP with
          | (if ?b then _ else _) = _ => destruct b
          | (match ?l with [] => _ | _ => _ end) = _ => destruct l
          end; injection SP as _ <- _; cbn [set_packs_surfs q_surfs]; try rewrite QB; cbn [length]; lia. }
        destruct e as [e|].
        * intros [(e' & H)|H]; [injection H as _ <-; cbn [s_q]; lia|discriminate].
        * unfold end_phase. destruct (q_surfs q1) as [|x y] eqn:Q1; [destruct (i_gap i)|]; cbn; intros [(e' & H)|H]; try discriminate. injection H as <-. cbn. rewrite Q1. cbn. lia.
      + unfold end_phase. destruct (q_surfs q) as [|x y] eqn:Q1; [destruct (i_gap i)|]; cbn; intros [(e' & H)|H]; try discriminate. injection H as <-. cbn. rewrite Q1. cbn. lia.
    - intros [(e' & H)|H]; discriminate.
    - intros [(e' & H)|H]; [injection H as _ <-; cbn [s_q]|discriminate]. rewrite (RR e i q m eq_refl). lia. }
  destruct (body cf o 0 s) as [s'|s'|e s'] eqn:B; [|apply BR; right; reflexivity|apply BR; left; exists e; reflexivity].
  assert (L' : surfaces_held s' <= c_min cf - 1) by (unfold surfaces_held in *; apply BS; [exact L|reflexivity]).
  destruct (cancel k); [cbn [final]; lia|]. apply IH; assumption.
Qed.
End Held.
