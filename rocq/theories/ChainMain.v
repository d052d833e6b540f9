(** The loop invariant and its consequences. *)
From Coq Require Import List ZArith QArith Bool Lia Arith Sorted.
From Coq Require Import ZifyBool ZifyNat.
From Verif Require Import Common BeamModel BeamSpec BeamProofs ChainModel ChainSpec ChainAux ChainProofs ChainInv.
Import ListNotations.
Local Open Scope nat_scope.

Arguments trends : simpl never.
Arguments psize_of : simpl never.
Arguments stack_size : simpl never.
Arguments Nat.div : simpl never.
Arguments Nat.ltb : simpl never.
Arguments Nat.leb : simpl never.
Arguments last_valid : simpl never.
Arguments firstn : simpl never.
Arguments Z.of_nat : simpl never.

Section Main.
Variable cf : cfg.
Variable o : oracle.
Variable items : list item.

Notation gapat := (gap_at (c_gap cf) items).
Notation KI := (KI cf o items).
Notation PI := (PI cf items).
Notation OI := (OI cf).

(** decidable version of [gap_at] *)
Definition gapb (j : nat) : bool :=
  match nth_error items j, last_valid (firstn j items) with
  | Some (Valid t), Some t0 => negb (lt_q (t - t0)%Q (c_gap cf))
  | _, _ => false
  end.

Lemma lt_q_spec : forall a b, lt_q a b = true <-> (a < b)%Q.
Proof.
  intros a b. unfold lt_q. rewrite negb_true_iff. split.
  - intro H. apply Qnot_le_lt. intro L. apply Qle_bool_iff in L. congruence.
  - intro H. destruct (Qle_bool b a) eqn:E; auto. apply Qle_bool_iff in E.
    exfalso. exact (Qlt_not_le _ _ H E).
Qed.

Lemma gapb_spec : forall j, gapb j = true <-> gapat j.
Proof.
  intros j. unfold gapb, gap_at. split.
  - intro H. destruct (nth_error items j) as [[t| |]|]; try discriminate.
    destruct (last_valid (firstn j items)) as [t0|]; try discriminate.
    exists t, t0. repeat split; auto. intro L. apply lt_q_spec in L. rewrite L in H. discriminate.
  - intros (t & t0 & E1 & E2 & E3). rewrite E1, E2.
    destruct (lt_q (t - t0) (c_gap cf)) eqn:L; auto. apply lt_q_spec in L. contradiction.
Qed.

Definition validb (i : nat) : bool :=
  match nth_error items i with Some (Valid _) => true | _ => false end.

Definition bound (i : inp) : nat := if i_gap i || i_resume i then i_n i - 1 else i_n i.

(** how often burst [x] has been calibrated when [n] records were read and all
    records below [b] entered the queue *)
Definition cal_count (n b x : nat) : nat :=
  if (x <? n) && validb x then (if gapb x && (x <? b) then 2 else 1) else 0.

Definition cals_ok (n b : nat) (cals : list nat) : Prop :=
  forall x, count_occ Nat.eq_dec cals x = cal_count n b x.

(** everything except non-emptiness of the queue *)
Record II0 (i : inp) (q : que) (w : out) (m : mon) : Prop := mkII0 {
  ii_rest : i_rest i = skipn (i_n i) items;
  ii_n : i_n i <= length items;
  ii_excl : i_gap i && i_resume i = false;
  ii_cur : i_gap i || i_resume i = true ->
     exists k t, i_n i = S k /\ i_cur i = Some (mk_packet k k t false)
       /\ nth_error items k = Some (Valid t) /\ gapat k /\ i_pt i = None;
  ii_pt : i_gap i || i_resume i = false -> i_pt i = last_valid (firstn (i_n i) items);
  ii_resume : i_resume i = true -> q_surfs q = [] /\ i_sp i = false;
  ii_seg : forall s j, In s (q_surfs q) -> gapat j -> s_loc s < j -> bound i <= j;
  ii_loc : forall s, In s (decided w ++ q_surfs q) -> s_loc s < bound i;
  ii_cals : cals_ok (i_n i) (bound i) (m_cals m);
  ii_work : (forall j, ~ gapat j) -> (m_work m <= inject_Z (Z.of_nat (i_n i)))%Q;
  ii_K : KI (decided w) q;
  ii_P : PI (bound i) q;
  ii_O : OI w }.

Definition live (i : inp) (q : que) : Prop :=
  (i_pt i <> None \/ i_gap i = true \/ i_sp i = true -> q_surfs q <> []).

Definition few (i : inp) (q : que) : Prop :=
  i_sp i = false -> q_surfs q = [] \/ length (q_surfs q) < c_min cf.

Definition Inv (s : st) : Prop :=
  II0 (s_in s) (s_q s) (s_out s) (s_mon s) /\ live (s_in s) (s_q s) /\ few (s_in s) (s_q s).

Definition InvEnd (s : st) : Prop :=
  II0 (s_in s) (s_q s) (s_out s) (s_mon s) /\ q_surfs (s_q s) = []
  /\ i_gap (s_in s) = false /\ i_resume (s_in s) = false.

(** what holds when the loop raises *)
Record InvR (e : err) (s : st) : Prop := mkIR {
  ir_gap : i_gap (s_in s) || i_resume (s_in s) = true ->
     exists k, i_n (s_in s) = S k /\ gapat k;
  ir_why : why cf o items e (s_in s) (s_q s);
  ir_az : forall a, In a (q_az (s_q s)) ->
    a_uid a < bound (s_in s) /\ exists t, nth_error items (a_uid a) = Some (Valid t);
  ir_rest : i_rest (s_in s) = skipn (i_n (s_in s)) items;
  ir_n : i_n (s_in s) <= length items;
  ir_K : KI (decided (s_out s)) (s_q s);
  ir_O : exists w0, OI w0 /\ RO cf w0 (s_q s) (s_out s) e;
  ir_cals : cals_ok (i_n (s_in s)) (bound (s_in s)) (m_cals (s_mon s));
  ir_work : (forall j, ~ gapat j) ->
      (m_work (s_mon s) <= inject_Z (Z.of_nat (i_n (s_in s))))%Q }.

Lemma PI_weaken : forall B B' q, B <= B' -> PI B q -> PI B' q.
Proof.
  intros B B' q L [A1 A2 A3 A4 A5 A6 A7 A8 A9]; constructor; auto.
  - intros p Hp. destruct (A3 p Hp). split; auto. lia.
  - intros a Ha. destruct (A6 a Ha). split; auto. lia.
Qed.

(** locating a surface *)
Lemma locate_inv : forall D B force p q r q',
  KI D q -> PI B q ->
  p_uid p = B -> p_counter p = B -> p_done p = false ->
  nth_error items B = Some (Valid (p_time p)) ->
  (forall s j, In s (q_surfs q) -> gapat j -> s_loc s < j -> B < j) ->
  (forall s, In s (D ++ q_surfs q) -> s_loc s < B) ->
  locate o force p q = (r, q') ->
  KI D q' /\ PI (S B) q' /\
  (match r with
   | Some true => q_surfs q' = q_surfs q ++ [mk_surface (q_next q) (q_next q) B []]
   | _ => q_surfs q' = q_surfs q /\ q_surfs q <> [] /\ force = false
   end).
Proof.
  intros D B force p q r q' HK HP Hu Hc Hd Hv Hseg Hloc H.
  assert (K0 : KI D (set_packs_surfs q (q_packs q ++ [p]) (q_surfs q))).
  { destruct HK; constructor; auto. }
  assert (P0 : PI (S B) (set_packs_surfs q (q_packs q ++ [p]) (q_surfs q))).
  { destruct HP as [A1 A2 A3 A4 A5 A6 A7 A8 A9]. constructor; cbn; auto.
    - rewrite map_app. cbn. apply increasing_snoc; auto. intros u Hu'.
      apply in_map_iff in Hu'. destruct Hu' as (x & <- & Hx). destruct (A3 x Hx). lia.
    - intros x Hx. apply in_app_or in Hx. destruct Hx as [Hx|[<-|[]]]; auto. lia.
    - intros x Hx. apply in_app_or in Hx. destruct Hx as [Hx|[<-|[]]].
      + destruct (A3 x Hx); split; auto; lia.
      + rewrite Hu. split; auto.
    - intros x Hx Hdx. apply in_app_or in Hx. destruct Hx as [Hx|[<-|[]]]; auto. congruence.
    - intros x a Hx Hdx Ha. apply in_app_or in Hx. destruct Hx as [Hx|[<-|[]]]; auto.
      destruct (A6 a Ha). lia.
    - intros a Ha. destruct (A6 a Ha). split; auto.
    - intros s x j Hs Hx Hj Hl. apply in_app_or in Hx. destruct Hx as [Hx|[<-|[]]]; eauto.
      rewrite Hu. eauto. }
  set (ns := mk_surface (q_next q) (q_count q) (p_uid p) []) in *.
  set (qc := mk_que (q_surfs q ++ [ns]) (q_packs q ++ [p]) (S (q_count q)) (S (q_next q))
               (q_psize q) (q_ptrend q) (q_az q)) in *.
  assert (KC : KI D qc).
  { destruct HK as [A1 A2 A3 A4 A5 A6 A7 A8 A9 A10]. constructor; cbn; auto.
    - rewrite app_assoc, map_app, A1. change (0 :: seq 1 (q_next q)) with (seq 0 (S (q_next q))). rewrite seq_S. reflexivity.
    - intros s Hs. rewrite app_assoc in Hs. apply in_app_or in Hs.
      destruct Hs as [Hs|[<-|[]]]; auto.
    - rewrite app_assoc, map_app. cbn. apply increasing_snoc; auto.
      intros u Hu'. apply in_map_iff in Hu'. destruct Hu' as (s & <- & Hs). rewrite Hu. auto.
    - intros s Hs. rewrite app_assoc in Hs. apply in_app_or in Hs.
      destruct Hs as [Hs|[<-|[]]]; auto.
      split; [constructor|]. split; [cbn; tauto|].
      intros a Ha Hc'. cbn in Hc'. specialize (A9 _ _ Ha Hc'). lia.
    - intros s Hs. rewrite app_assoc in Hs. apply in_app_or in Hs.
      destruct Hs as [Hs|[<-|[]]]; auto. intros e j He. destruct He.
    - intros a c Ha Hc'. specialize (A9 _ _ Ha Hc'). lia. }
  assert (PC : PI (S B) qc).
  { destruct P0 as [A1 A2 A3 A4 A5 A6 A7 A8 A9]. cbn in *. constructor; cbn; auto.
    intros s x j Hs Hx Hj Hl. apply in_app_or in Hs. destruct Hs as [Hs|[<-|[]]]; eauto.
    cbn in Hl. destruct (A3 x Hx). lia. }
  assert (ENS : ns = mk_surface (q_next q) (q_next q) B []).
  { unfold ns. rewrite Hu, (k_count _ _ _ _ _ HK). reflexivity. }
  unfold locate in H. fold ns qc in H.
  destruct (q_surfs q) as [|s ss] eqn:ES.
  { inversion H; subst. split; auto. split; auto. cbn. now rewrite ENS. }
  destruct force.
  { inversion H; subst. split; auto. split; auto. cbn. now rewrite ENS. }
  subst qc. clear HP. remember (q_packs q ++ [p]) as pk eqn:EP. clear EP.
  destruct pk as [|a1 [|a2 l]].
  - inversion H; subst. split; auto. split; auto. cbn. repeat split; auto; discriminate.
  - inversion H; subst. split; auto. split; auto. cbn. repeat split; auto; discriminate.
  - destruct (o_new o (s_uid (last ss s)) (p_uid p)); inversion H; subst.
    + split; auto. split; auto. cbn. now rewrite ENS.
    + split; auto. split; auto. cbn. repeat split; auto; discriminate.
Qed.

Lemma locate_none : forall f p q q', locate o f p q = (None, q') -> exists x, q_packs q' = [x].
Proof.
  intros f p q q' L. unfold locate in L. destruct (q_surfs q) as [|s ss]; [discriminate|].
  destruct f; [discriminate|].
  destruct (q_packs q ++ [p]) as [|x [|y l]] eqn:EP; [|inversion L; subst; cbn; eauto|].
  - destruct (q_packs q); discriminate.
  - destruct (o_new o _ _); discriminate.
Qed.

(** second half of an iteration *)
Definition post (i : inp) (q : que) (w : out) (m : mon) : step_res :=
  if i_sp i || Nat.leb (c_min cf) (length (q_surfs q)) || i_gap i then
    let i1 := mk_inp (i_rest i) (i_n i) (i_cur i) (i_pt i) (i_gap i) (i_resume i) true in
    let '(e, q1, w1) := surface_phase cf o q w in
    match e with
    | Some e => BRaise e (mk_st i1 q1 w1 m)
    | None => end_phase i1 q1 w1 m
    end
  else end_phase i q w m.

Definition step_ok (r : step_res) : Prop :=
  match r with
  | BCont s => Inv s
  | BEnd s => InvEnd s
  | BRaise e s => InvR e s
  end.

Lemma post_ok : forall i q w m,
  II0 i q w m -> live i q -> i_resume i = false -> step_ok (post i q w m).
Proof.
  intros i q w m H HL HR. unfold post.
  destruct (i_sp i || (c_min cf <=? length (q_surfs q)) || i_gap i) eqn:PR.
  - destruct (surface_phase cf o q w) as [[e q1] w1] eqn:SP.
    pose proof (surface_phase_inv cf o items _ _ _ _ _ _ (ii_K _ _ _ _ H) (ii_P _ _ _ _ H) (ii_O _ _ _ _ H) SP) as R.
    destruct e as [e|].
    + (* raise *)
      destruct R as (R1 & R2 & R3).
      assert (D : decided w1 = decided w). { unfold decided. destruct R2 as (-> & _). reflexivity. }
      cbn. constructor; cbn [s_in s_q s_out s_mon i_n i_rest i_gap i_resume].
      * intro X. destruct (ii_cur _ _ _ _ H X) as (k & t & ? & _ & _ & ? & _). eauto.
      * destruct (surface_phase_why cf o items q w e q1 w1
                    (mk_inp (i_rest i) (i_n i) (i_cur i) (i_pt i) (i_gap i) (i_resume i) true) SP)
          as [(X & ->)|X]; auto. cbn.
        destruct (i_sp i) eqn:SPI; [exfalso; apply HL; auto|].
        destruct (i_gap i) eqn:GI; [exfalso; apply HL; auto|].
        rewrite X in PR. cbn [length] in PR. cbn [orb] in PR. lia.
      * intros a Ha. destruct (surface_phase_az _ _ _ _ _ _ _ _ SP Ha) as [X|(p & X & <-)].
        -- apply (pi_az _ _ _ _ (ii_P _ _ _ _ H) a X).
        -- destruct (pi_val _ _ _ _ (ii_P _ _ _ _ H) p X). split; eauto.
      * apply (ii_rest _ _ _ _ H).
      * apply (ii_n _ _ _ _ H).
      * rewrite D. auto.
      * exists w. split; auto. apply (ii_O _ _ _ _ H).
      * apply (ii_cals _ _ _ _ H).
      * apply (ii_work _ _ _ _ H).
    + destruct R as (R1 & R2 & R3 & (s & R4 & R5) & R6).
      assert (KEY : forall s', In s' (decided w1 ++ q_surfs q1) ->
                exists s0, In s0 (decided w ++ q_surfs q) /\ s_loc s0 = s_loc s').
      { intros s' Hs'.
        assert (E : map s_uid (decided w1 ++ q_surfs q1) = map s_uid (decided w ++ q_surfs q)).
        { rewrite (k_uid _ _ _ _ _ R1), R6, (k_uid _ _ _ _ _ (ii_K _ _ _ _ H)). reflexivity. }
        (* locations: decided w1 = decided w ++ [s1] *)
        unfold surface_phase in SP. destruct (q_surfs q) as [|s0 sr] eqn:ES; [discriminate|].
        destruct (burst_loop cf o (s_uid s0) [] (q_packs q) q) as [e1 qb] eqn:BL.
        pose proof (burst_loop_keys _ _ _ _ _ _ _ _ BL) as (KS & _).
        destruct e1; [discriminate|].
        rewrite ES in KS.
        destruct (q_surfs qb) as [|s1 rest] eqn:EB; [discriminate|].
        assert (LOC : map s_loc (s1 :: rest) = map s_loc (s0 :: sr)).
        { replace (map s_loc (s1 :: rest)) with (map (fun k => snd k) (map skey (s1 :: rest)))
            by (rewrite map_map; reflexivity).
          rewrite KS, map_map. reflexivity. }
        assert (DW : exists b, w_done w1 = w_done w ++ [(s1, b)] /\ q_surfs q1 = rest).
        { destruct (stack_size cf s1 <? c_looks cf / 2); [inversion SP; subst; cbn; eauto|].
          destruct (o_corr_fail o (s_uid s1)); [discriminate|].
          destruct (o_w1_fail o (s_uid s1)); [discriminate|].
          destruct (c_l1bs cf && o_w2_fail o (s_uid s1)); [discriminate|].
          destruct (q_packs qb); destruct (s_stack s1); inversion SP; subst; cbn; eauto. }
        destruct DW as (b & DW & QR).
        assert (IN : In s' (decided w ++ s1 :: rest)).
        { unfold decided in Hs' |- *. rewrite DW, map_app in Hs'. cbn in Hs'. rewrite QR in Hs'.
          rewrite <- app_assoc in Hs'. exact Hs'. }
        apply in_app_or in IN. destruct IN as [IN|IN].
        - exists s'. split; auto. apply in_or_app; auto.
        - assert (In (s_loc s') (map s_loc (s0 :: sr))) as I2 by (rewrite <- LOC; apply in_map; auto).
          apply in_map_iff in I2. destruct I2 as (x & X1 & X2). exists x. split; auto.
          apply in_or_app; auto. }
      assert (SEG : forall s' j, In s' (q_surfs q1) -> gapat j -> s_loc s' < j ->
                bound i <= j).
      { intros s' j Hs' Hj Hl.
        assert (In (s_loc s') (map s_loc (q_surfs q))) as I2.
        { replace (map s_loc (q_surfs q)) with (map (fun k => snd k) (map skey (q_surfs q)))
            by (rewrite map_map; reflexivity).
          rewrite R5. cbn. right. rewrite map_map.
          apply (in_map s_loc) in Hs'. exact Hs'. }
        apply in_map_iff in I2. destruct I2 as (x & X1 & X2).
        eapply (ii_seg _ _ _ _ H x); eauto. lia. }
      assert (LOC1 : forall s', In s' (decided w1 ++ q_surfs q1) -> s_loc s' < bound i).
      { intros s' Hs'. destruct (KEY s' Hs') as (x & X1 & <-). apply (ii_loc _ _ _ _ H); auto. }
      cbv zeta. unfold end_phase. cbn [i_gap].
      destruct (q_surfs q1) as [|s2 sr] eqn:EQ.
      * destruct (i_gap i) eqn:G.
        -- (* gap drained *)
           cbn. split; [|split].
           ++ cbn. destruct H as [A1 A2 A3 A4 A5 A6 A7 A8 A9 A10 A11 A12 A13].
              constructor; cbn; auto.
              ** intros _. apply A4. rewrite G. reflexivity.
              ** discriminate.
              ** rewrite EQ. cbn. tauto.
              ** intros s' Hs'. unfold bound; cbn. specialize (LOC1 s'). rewrite EQ in Hs'.
                 unfold bound in LOC1. rewrite G in LOC1. auto.
              ** unfold bound in *. rewrite G in A9. cbn in *. exact A9.
              ** unfold bound in *. rewrite G in R2. cbn in *. exact R2.
           ++ cbn. unfold live; cbn. intros [X|[X|X]]; try discriminate.
              destruct (ii_cur _ _ _ _ H) as (k & t & _ & _ & _ & _ & PT).
              { rewrite G; reflexivity. } congruence.
           ++ cbn. intros _. left. exact EQ.
        -- (* end of input *)
           cbn. split; [|split; [|split]]; auto. cbn.
           destruct H as [A1 A2 A3 A4 A5 A6 A7 A8 A9 A10 A11 A12 A13].
           constructor; cbn; rewrite ?EQ; auto.
           all: try (intros X; rewrite HR in X; discriminate X).
           all: unfold bound in *; cbn in *; rewrite ?G in *; auto; try tauto.
      * cbn. split; [|split].
        -- destruct H as [A1 A2 A3 A4 A5 A6 A7 A8 A9 A10 A11 A12 A13].
           constructor; cbn; rewrite ?EQ; auto.
           ++ intros X; rewrite HR in X; discriminate X.
        -- unfold live; cbn. rewrite EQ. discriminate.
        -- unfold few; cbn. discriminate.
  - (* no processing *)
    assert (G : i_gap i = false /\ i_sp i = false /\ length (q_surfs q) < c_min cf).
    { destruct (i_gap i), (i_sp i); rewrite ?orb_true_r in PR; try discriminate.
      cbn in PR. rewrite orb_false_r in PR. repeat split; auto. lia. }
    destruct G as (G & SP & LEN).
    unfold end_phase. rewrite G.
    destruct (q_surfs q) as [|s2 sr] eqn:EQ.
    + cbn. split; [exact H|]. repeat split; auto.
    + cbn. split; [|split]; auto.
      * unfold few; cbn. rewrite EQ. cbn in LEN |- *. auto.
Qed.

Lemma cal_count_snoc : forall n b n' b' cals y,
  cals_ok n b cals ->
  (forall x, cal_count n' b' x = cal_count n b x + (if Nat.eqb x y then 1 else 0)) ->
  cals_ok n' b' (cals ++ [y]).
Proof.
  intros n b n' b' cals y H E x. rewrite count_occ_app, H, E. cbn.
  destruct (Nat.eq_dec y x) as [->|NE].
  - rewrite Nat.eqb_refl. reflexivity.
  - destruct (Nat.eqb_spec x y); congruence.
Qed.

Lemma gapat_valid : forall j, gapat j -> exists t, nth_error items j = Some (Valid t).
Proof. intros j (t & t0 & E & _). eauto. Qed.

Lemma body_ok : forall s, Inv s -> step_ok (body cf o 0 s).
Proof.
  intros [i q w m] (H & HL & HF). cbn [s_in s_q s_out s_mon] in *.
  assert (BODY : body cf o 0 (mk_st i q w m) =
     match read_phase cf o 0 (mk_st i q w m) with
     | RRaise e i q m => BRaise e (mk_st i q w m)
     | RContinue i q m => BCont (mk_st i q w m)
     | RGo i q m => post i q w m
     end) by reflexivity.
  rewrite BODY. clear BODY. unfold read_phase. cbn [s_in s_q s_mon].
  destruct (i_gap i) eqn:G.
  { (* draining a gap *)
    pose proof (ii_excl _ _ _ _ H) as X. rewrite G in X. cbn in X.
    apply post_ok; auto.
    destruct H as [A1 A2 A3 A4 A5 A6 A7 A8 A9 A10 A11 A12 A13]. constructor; cbn; auto.
    intros NG. destruct A4 as (k & t & _ & _ & _ & Hk & _). { rewrite ?G; auto. }
    exfalso. exact (NG k Hk). }
  destruct (i_resume i) eqn:RS.
  { (* first iteration after a gap *)
    destruct (ii_cur _ _ _ _ H) as (k & t & Hn & Hc & Hv & Hk & Hp).
    { rewrite RS. apply orb_true_r. }
    destruct (ii_resume _ _ _ _ H RS) as (ES & SP).
    unfold handle_packet. rewrite Hc, Hp, RS. cbn [p_uid p_time].
    destruct (locate o true (mk_packet k k t false) q) as [r q1] eqn:L.
    assert (BD : bound i = k) by (unfold bound; rewrite G, RS, Hn; cbn; lia).
    pose proof (locate_inv (decided w) k true (mk_packet k k t false) q r q1
       (ii_K _ _ _ _ H)) as LI.
    destruct LI as (K1 & P1 & SH); auto.
    { pose proof (ii_P _ _ _ _ H) as X. rewrite BD in X. exact X. }
    { rewrite ES. cbn. tauto. }
    { intros s Hs. pose proof (ii_loc _ _ _ _ H s Hs) as X. rewrite BD in X. exact X. }
    destruct r as [[|]|].
    2:{ destruct SH as (_ & X & _). rewrite ES in X. congruence. }
    2:{ destruct SH as (_ & X & _). rewrite ES in X. congruence. }
    rewrite ES in SH. cbn in SH.
    cbn [step_ok]. apply post_ok; cbn; auto.
    - destruct H as [A1 A2 A3 A4 A5 A6 A7 A8 A9 A10 A11 A12 A13]. constructor; cbn; auto.
      + rewrite ?G; auto.
      + rewrite ?G. discriminate.
      + intros _. rewrite Hn, (firstn_snoc _ _ _ Hv), last_valid_snoc. reflexivity.
      + discriminate.
      + intros s j Hs Hj Hl. rewrite SH in Hs. destruct Hs as [<-|[]]. cbn in Hl.
        unfold bound; cbn. rewrite ?G. cbn. lia.
      + intros s Hs. unfold bound; cbn. rewrite ?G; cbn. rewrite SH in Hs.
        apply in_app_or in Hs. destruct Hs as [Hs|[<-|[]]].
        * assert (In s (decided w ++ q_surfs q)) as Y by (apply in_or_app; auto).
          specialize (A8 s Y). rewrite BD in A8. lia.
        * cbn. lia.
      + unfold bound; cbn. rewrite ?G. cbn. rewrite BD in A9.
        eapply cal_count_snoc; [exact A9|]. intro x. unfold cal_count. rewrite Hn.
        destruct (Nat.eqb_spec x k) as [->|NE].
        * apply gapb_spec in Hk. unfold validb. rewrite Hk, Hv.
          replace (k <? S k) with true by lia. replace (k <? k) with false by lia. reflexivity.
        * replace (x <? S k) with (x <? k) by lia.
          destruct ((x <? k) && validb x) eqn:Y; [|lia].
          apply andb_true_iff in Y. destruct Y as [Y _]. rewrite Y. destruct (gapb x); reflexivity.
      + unfold bound; cbn. rewrite ?G. cbn. rewrite Hn. exact P1.
    - unfold live; cbn. rewrite SH. intros _ Y. discriminate. }
  (* ordinary reading *)
  assert (GR : i_gap i || i_resume i = false) by (rewrite G, RS; reflexivity).
  assert (BD : bound i = i_n i) by (unfold bound; rewrite GR; reflexivity).
  destruct (i_rest i) as [|it r] eqn:ER.
  { (* end of file *)
    assert (LEN : skipn (i_n i) items = []) by (rewrite <- (ii_rest _ _ _ _ H); auto).
    destruct (i_sp i) eqn:SP.
    - unfold handle_packet. cbn [i_cur]. apply post_ok; cbn; auto.
      + destruct H as [A1 A2 A3 A4 A5 A6 A7 A8 A9 A10 A11 A12 A13]. constructor; cbn; auto; try discriminate.
        all: unfold bound in *; cbn; rewrite ?G, ?RS in *; cbn in *; auto.
      + unfold live in *. cbn. rewrite ?G, ?SP in *. auto.
    - cbn. constructor; cbn; auto; try discriminate.
      + pose proof (pi_az _ _ _ _ (ii_P _ _ _ _ H)) as X. unfold bound in *; cbn; rewrite ?G, ?RS in *; exact X.
      + apply (ii_n _ _ _ _ H).
      + apply (ii_K _ _ _ _ H).
      + exists w. split; [apply (ii_O _ _ _ _ H)|]. split; auto.
      + pose proof (ii_cals _ _ _ _ H) as X. unfold bound in *. cbn. rewrite G in *. rewrite RS in *. exact X.
      + apply (ii_work _ _ _ _ H). }
  assert (SK := ii_rest _ _ _ _ H). rewrite ER in SK. symmetry in SK.
  apply skipn_cons_nth in SK. destruct SK as (NI & SK & LT).
  assert (WORK : (forall j, ~ gapat j) -> (m_work m + 1 <= inject_Z (Z.of_nat (S (i_n i))))%Q).
  { intro NG. rewrite Nat2Z.inj_succ, <- Z.add_1_r, inject_Z_plus.
    apply Qplus_le_compat; [apply (ii_work _ _ _ _ H NG)|apply Qle_refl]. }
  assert (NOTVAL : forall y, it = y -> (y = Nothing \/ y = ReadFail) ->
     cals_ok (S (i_n i)) (S (i_n i)) (m_cals m)).
  { intros y -> Hy x. rewrite (ii_cals _ _ _ _ H x), BD. unfold cal_count.
    assert (V : validb (i_n i) = false).
    { unfold validb. rewrite NI. destruct Hy as [-> | ->]; reflexivity. }
    destruct (Nat.eqb_spec x (i_n i)) as [->|NE].
    - rewrite V, !andb_false_r. reflexivity.
    - replace (x <? S (i_n i)) with (x <? i_n i) by lia. reflexivity. }
  destruct it as [t| |].
  - (* valid record *)
    set (n := i_n i) in *. cbn [Nat.add].
    unfold handle_packet. cbn [i_cur i_pt i_rest i_n i_gap i_resume i_sp m_work m_sub m_cals p_uid p_time].
    assert (PT := ii_pt _ _ _ _ H GR).
    assert (LV : last_valid (firstn (S n) items) = Some t).
    { rewrite (firstn_snoc _ _ _ NI), last_valid_snoc. reflexivity. }
    assert (NG : match i_pt i with
                 | None => true
                 | Some t0 => lt_q (t - t0) (c_gap cf)
                 end = negb (gapb n)).
    { unfold gapb. rewrite NI. fold n in PT. rewrite <- PT. destruct (i_pt i); auto.
      now rewrite negb_involutive. }
    rewrite NG. destruct (gapb n) eqn:GB; cbn [negb].
    + (* gap found *)
      apply post_ok; cbn; auto.
      * assert (GA : gapat n) by (apply gapb_spec; auto).
        destruct H as [A1 A2 A3 A4 A5 A6 A7 A8 A9 A10 A11 A12 A13]. constructor; cbn; auto; try discriminate.
        -- intros _. exists n, t. auto.
        -- intros s j Hs Hj Hl. unfold bound; cbn. specialize (A7 s j Hs Hj Hl). lia.
        -- intros s Hs. unfold bound; cbn. specialize (A8 s Hs). lia.
        -- unfold bound; cbn. rewrite Nat.sub_0_r. rewrite BD in A9.
           eapply cal_count_snoc; [exact A9|]. intro x. unfold cal_count. fold n.
           destruct (Nat.eqb_spec x n) as [->|NE].
           ++ unfold validb. rewrite NI. replace (n <? S n) with true by lia.
              replace (n <? n) with false by lia. rewrite andb_false_r. reflexivity.
           ++ replace (x <? S n) with (x <? n) by lia. lia.
        -- unfold bound; cbn. rewrite Nat.sub_0_r. rewrite BD in A12. exact A12.
      * unfold live in *; cbn. intros _. apply HL. left.
        intro X. unfold gapb in GB. rewrite NI in GB. fold n in PT. rewrite <- PT, X in GB. discriminate.
    + (* no gap *)
      destruct (locate o false (mk_packet n n t false) q) as [rr q1] eqn:L.
      rewrite ?RS. rewrite ?L.
      pose proof (locate_inv (decided w) n false (mk_packet n n t false) q rr q1
         (ii_K _ _ _ _ H)) as LI.
      assert (NGA : ~ gapat n). { intro X. apply gapb_spec in X. congruence. }
      destruct LI as (K1 & P1 & SH); auto.
      { pose proof (ii_P _ _ _ _ H) as X. rewrite BD in X. exact X. }
      { intros s j Hs Hj Hl. pose proof (ii_seg _ _ _ _ H s j Hs Hj Hl) as X. rewrite BD in X.
        assert (j <> n) by (intros ->; contradiction). lia. }
      { intros s Hs. pose proof (ii_loc _ _ _ _ H s Hs) as X. rewrite BD in X. exact X. }
      assert (CAL : cals_ok (S n) (S n) (m_cals m ++ [n])).
      { eapply cal_count_snoc; [rewrite <- BD; apply (ii_cals _ _ _ _ H)|]. intro x.
        unfold cal_count. rewrite BD. fold n.
        destruct (Nat.eqb_spec x n) as [->|NE].
        - unfold validb. rewrite NI, GB. replace (n <? S n) with true by lia.
          replace (n <? n) with false by lia. reflexivity.
        - replace (x <? S n) with (x <? n) by lia. lia. }
      assert (PRE : forall q2, KI (decided w) q2 -> PI (S n) q2 ->
          (q_surfs q2 = q_surfs q \/
           q_surfs q2 = q_surfs q ++ [mk_surface (q_next q) (q_next q) n []]) ->
          II0 (mk_inp r (S n) (Some (mk_packet n n t false)) (Some t) false false (i_sp i)) q2 w
              (mk_mon (m_work m + 1)%Q (m_sub m) (m_cals m ++ [n]))).
      { intros q2 K2 P2 S2.
        destruct H as [A1 A2 A3 A4 A5 A6 A7 A8 A9 A10 A11 A12 A13]. constructor; cbn; auto; try discriminate.
        - intros s j Hs Hj Hl. unfold bound; cbn. rewrite ?G; cbn.
          assert (OLD : In s (q_surfs q) -> S n <= j).
          { intro Hs'. specialize (A7 s j Hs' Hj Hl). rewrite BD in A7.
            assert (j <> n) by (intros ->; contradiction). lia. }
          destruct S2 as [S2|S2]; rewrite S2 in Hs; auto.
          apply in_app_or in Hs. destruct Hs as [Hs|[<-|[]]]; auto.
        - intros s Hs. unfold bound; cbn. rewrite ?G; cbn.
          assert (OLD : In s (decided w ++ q_surfs q) -> s_loc s < S n).
          { intro Hs'. specialize (A8 s Hs'). lia. }
          destruct S2 as [S2|S2]; rewrite S2 in Hs; auto.
          rewrite app_assoc in Hs. apply in_app_or in Hs. destruct Hs as [Hs|[<-|[]]]; auto. }
      destruct rr as [[|]|].
      * apply post_ok; cbn; auto.
        unfold live; cbn. rewrite SH. intros _ X. destruct (q_surfs q); discriminate.
      * destruct SH as (SH & NE & _). cbn. split; [|split].
        -- cbn. apply PRE; auto.
        -- cbn. unfold live; cbn. rewrite SH. auto.
        -- cbn. unfold few in *; cbn in *. rewrite SH. auto.
      * destruct SH as (SH & NE & _). cbn. constructor; cbn; auto; try discriminate.
        -- eapply locate_none; eauto.
        -- pose proof (pi_az _ _ _ _ P1) as X. unfold bound in *; cbn; rewrite ?G, ?RS in *; exact X.
        -- exists w. split; [apply (ii_O _ _ _ _ H)|]. split; auto.
  - (* None *)
    unfold handle_packet. cbn [i_cur]. apply post_ok; cbn; auto.
    + destruct H as [A1 A2 A3 A4 A5 A6 A7 A8 A9 A10 A11 A12 A13]. constructor; cbn; auto; try discriminate.
      * intros _. rewrite (firstn_snoc _ _ _ NI), last_valid_snoc. apply A5; auto.
      * intros s j Hs Hj Hl. unfold bound; cbn. rewrite ?G; cbn.
        specialize (A7 s j Hs Hj Hl). rewrite BD in A7.
        assert (j <> i_n i). { intros ->. destruct (gapat_valid _ Hj). congruence. } lia.
      * intros s Hs. unfold bound; cbn. rewrite ?G; cbn. specialize (A8 s Hs). lia.
      * unfold bound; cbn. rewrite ?G; cbn. eapply NOTVAL; eauto.
      * unfold bound; cbn. rewrite ?G; cbn. rewrite BD in A12. eapply PI_weaken; [|exact A12]. lia.
    + unfold live in *; cbn. rewrite ?G in *. exact HL.
  - (* read failure *)
    cbn. constructor; cbn; auto; try discriminate.
    + eauto.
    + intros a Ha. destruct (pi_az _ _ _ _ (ii_P _ _ _ _ H) a Ha) as (X & Y). split; auto.
      unfold bound in *; cbn; rewrite ?G, ?RS in *; cbn in *. lia.
    + apply (ii_K _ _ _ _ H).
    + exists w. split; [apply (ii_O _ _ _ _ H)|]. split; auto.
    + unfold bound; cbn. rewrite ?G, ?RS. cbn. eapply NOTVAL; eauto.
    + intro NG. specialize (WORK NG). eapply Qle_trans; [|exact WORK].
      rewrite <- (Qplus_0_r (m_work m)) at 1. apply Qplus_le_compat; [apply Qle_refl|discriminate].
Qed.

Lemma init_inv : Inv (init [] [] 0 items).
Proof.
  split; [|split]; cbn.
  - constructor; cbn; auto; try discriminate; try tauto; try lia.
    + intros x. reflexivity.
    + constructor; cbn; auto; try tauto; try constructor.
    + constructor; cbn; auto; try tauto; try constructor.
    + constructor; cbn; auto; try tauto. destruct (c_l1bs cf); reflexivity.
  - unfold live; cbn. intuition discriminate.
  - unfold few; cbn. auto.
Qed.

(** the loop invariant at the end of a run *)
Definition out_ok (r : outcome) : Prop :=
  match r with
  | OEnd s false => InvEnd s
  | OEnd s true => Inv s
  | ORaise e s => InvR e s
  | OFuel s => Inv s
  end.

Lemma loop_ok : forall cancel fuel k s, Inv s -> out_ok (loop cf o 0 cancel fuel k s).
Proof.
  intros cancel. induction fuel as [|f IH]; intros k s H; cbn [loop]; [exact H|].
  pose proof (body_ok s H) as B.
  destruct (body cf o 0 s) as [s1|s1|e s1]; cbn in B |- *; auto.
  destruct (cancel k); cbn; auto.
Qed.

Lemma run_ok : forall cancel, out_ok (run cf o cancel items).
Proof. intros. apply loop_ok. apply init_inv. Qed.

End Main.
