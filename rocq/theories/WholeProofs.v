(** The chain with its geometry is one of the chains of ChainModel. *)
From Coq Require Import List ZArith QArith Reals Bool Lia Arith.
From Verif Require Import Common BeamModel BeamSpec BeamProofs GeoModel ChainModel ChainSpec ChainAux ChainProofs ChainInv ChainMain
  WholeModel WholeSpec WholeChain.
From Verif Require SurfModel.
Import ListNotations.
Local Open Scope nat_scope.

Arguments Nat.ltb : simpl never.
Arguments Nat.leb : simpl never.
Arguments Nat.div : simpl never.

Section Whole.
Variables (u : setup) (input : list witem).
Notation cf := (u_cf u).
Notation items := (map erase input).
Notation s0 := (init [] [] 0 items).

(** An oracle for what happened so far and for one more iteration. *)
Definition is_az (s : st) (p : nat) : bool := existsb (fun a => Nat.eqb (a_uid a) p) (q_az (s_q s)).
Lemma is_az_spec : forall s p, is_az s p = true <-> exists a, In a (q_az (s_q s)) /\ a_uid a = p.
Proof.
  intros s p. unfold is_az. rewrite existsb_exists. split; intros (a & I & E); exists a; split; auto.
  - apply Nat.eqb_eq. exact E.
  - apply Nat.eqb_eq. exact E.
Qed.
Definition merge (o d : oracle) (s : st) : oracle :=
  mk_oracle (fun x p => if p <? i_n (s_in s) then o_new o x p else o_new d x p)
            (fun x p => if is_az s p then o_vis o x p else o_vis d x p)
            (o_az_fail o) (o_corr_fail o) (o_w1_fail o) (o_w2_fail o).

Lemma merge_past : forall o d n s, steps cf o n s0 = Some s -> steps cf (merge o d s) n s0 = Some s.
Proof.
  intros o d n s H. apply (steps_ext cf o); [exact H|repeat split| |].
  - intros a I x. cbn. replace (is_az s (a_uid a)) with true; [reflexivity|]. symmetry. apply is_az_spec. eauto.
  - intros p L x. cbn. destruct (Nat.ltb_spec p (i_n (s_in s))); [reflexivity|lia].
Qed.
(** Bursts beam-formed in an iteration were not beam-formed before. *)
Lemma fresh_az : forall o d n s a p, steps cf o n s0 = Some s ->
  In p (q_packs (read_que (read_phase cf d 0 s))) -> p_done p = false -> p_uid p = a -> is_az s a = false.
Proof.
  intros o d n s a p H I D E. subst a. destruct (is_az s (p_uid p)) eqn:A; [exfalso|reflexivity].
  apply is_az_spec in A. destruct A as (b & B1 & B2).
  pose proof (steps_inv cf o items n s0 s (init_inv cf o items) H) as (IN & _).
  pose proof (ii_P _ _ _ _ _ _ _ IN) as P.
  destruct (read_packs cf d 0 s) as (R & _).
  assert (OLD : In p (q_packs (s_q s)) -> False).
  { intros J. pose proof (pi_new _ _ _ _ P p b J D B1). lia. }
  pose proof (pi_az _ _ _ _ P b B1) as (BB & _).
  destruct R as [R|(k & R & [(_ & (t & K) & _)|(RS & K)])]; rewrite R in I; [auto| |];
    apply in_app_or in I; destruct I as [I|[<-|[]]]; auto.
  - subst k. cbn in *. unfold bound in BB. destruct (i_gap (s_in s) || i_resume (s_in s)); lia.
  - destruct (ii_cur _ _ _ _ _ _ _ IN) as (j & t & J1 & J2 & _); [rewrite RS; apply orb_true_r|].
    rewrite K in J2. injection J2 as ->. cbn in *. unfold bound in BB. rewrite RS, orb_true_r in BB. lia.
Qed.
Lemma merge_now : forall o d n s r, steps cf o n s0 = Some s -> same_fails d o -> body cf d 0 s = r ->
  body cf (merge o d s) 0 s = r.
Proof.
  intros o d n s r H SF B. pose proof (body_ext cf d 0 s r B) as (new & _ & F & _ & G). apply G.
  - destruct SF as (S1 & S2 & S3 & S4). repeat split; assumption.
  - intros a I x. cbn. destruct (F a I) as (p & P1 & P2 & P3). rewrite (fresh_az o d n s (a_uid a) p H P1 P2 P3). reflexivity.
  - intros p A R x. cbn. destruct (arrived_packs cf d 0 s p A) as (k & K1 & K2).
    destruct (read_packs cf d 0 s) as (D & _). destruct D as [D|(k' & D1 & [(_ & (t & ->) & D3)|(D2 & _)])].
    + exfalso. rewrite D in K1. apply (f_equal (@length packet)) in K1. rewrite app_length in K1. cbn in K1. lia.
    + rewrite K1 in D1. apply app_inj_tail in D1. destruct D1 as (_ & ->). cbn in K2. subst p.
      destruct (Nat.ltb_spec (i_n (s_in s)) (i_n (s_in s))); [lia|reflexivity].
    + congruence.
Qed.

Definition has_fails (o : oracle) : Prop := forall t t1, same_fails (oracle_at u input t t1) o.
(** What happened so far, happens with the oracle [o]. *)
Definition so_far (o : oracle) (n : nat) (w : wst) : Prop := has_fails o /\ steps cf o n s0 = Some (x_s w).
Lemma wbody_merge : forall o n w r w', so_far o n w -> wbody u input w = Some (r, w') ->
  let o' := merge o (oracle_at u input (x_t w) (fst (geo_read u input w))) (x_s w) in
  so_far o' n w /\ body cf o' 0 (x_s w) = r /\ x_s w' = step_st r.
Proof.
  intros o n w r w' (HF & H) B. unfold wbody in B. destruct (geo_read u input w) as [t1 ok] eqn:G. cbn [fst].
  destruct ok; [|discriminate]. injection B as B1 B2. cbv zeta.
  set (d := oracle_at u input (x_t w) t1) in *. split; [split|split].
  - intros t t2. destruct (HF t t2) as (S1 & S2 & S3 & S4). repeat split; assumption.
  - apply merge_past. exact H.
  - apply (merge_now o d n); [exact H|apply HF|exact B1].
  - subst w'. unfold advance. cbn [x_s]. rewrite B1. reflexivity.
Qed.
Definition oracle0 : oracle := oracle_at u input SurfModel.st0 SurfModel.st0.
Lemma so_far_0 : so_far oracle0 0 (wst0 input).
Proof. split; [intros t t1; repeat split|reflexivity]. Qed.

Lemma wloop_chain : forall cancel total f k w, f + k = total -> (exists o, so_far o k w) -> (forall j, j < k -> cancel j = false) ->
  (forall w', wloop u input cancel f k w <> WFuel w') ->
  exists o, has_fails o /\ same_end (wloop u input cancel f k w) (loop cf o 0 cancel total 0 s0).
Proof.
  intros cancel total. induction f as [|f IH]; intros k w T (o & SO) C NF; [exfalso; exact (NF w eq_refl)|].
  cbn [wloop] in NF |- *. destruct (wbody u input w) as [[r w']|] eqn:B; [|exfalso; exact (NF w eq_refl)].
  pose proof (wbody_merge o k w r w' SO B) as M. cbv zeta in M.
  set (o' := merge o (oracle_at u input (x_t w) (fst (geo_read u input w))) (x_s w)) in *.
  destruct M as ((M1 & M2) & M3 & M4).
  assert (L : loop cf o' 0 cancel total 0 s0 = loop cf o' 0 cancel (S f) k (x_s w)).
  { replace total with (k + S f) by lia. rewrite (steps_loop cf o' cancel k (S f) 0 s0 (x_s w)); [reflexivity|exact M2|].
    intros j J. apply C. lia. }
  destruct r as [s'|s'|e s']; cbn [step_st] in M4.
  - destruct (cancel k) eqn:CK.
    + exists o'. split; [exact M1|]. rewrite L. cbn [loop]. rewrite M3, CK. split; [exact M4|reflexivity].
    + apply IH; [lia| | |exact NF].
      * exists o'. split; [exact M1|]. rewrite M4. eapply steps_snoc; [exact M2|exact M3].
      * intros j J. destruct (Nat.eq_dec j k); [subst; exact CK|apply C; lia].
  - exists o'. split; [exact M1|]. rewrite L. cbn [loop]. rewrite M3. split; [exact M4|reflexivity].
  - exists o'. split; [exact M1|]. rewrite L. cbn [loop]. rewrite M3. split; [exact M4|reflexivity].
Qed.
Lemma whole_chain : forall cancel, (forall w, whole u cancel input <> WFuel w) ->
  exists o, has_fails o /\ same_end (whole u cancel input) (run cf o cancel items).
Proof.
  intros cancel NF. unfold run, run_from, whole. apply (wloop_chain cancel).
  - apply Nat.add_0_r.
  - exists oracle0. apply so_far_0.
  - intros j J. lia.
  - exact NF.
Qed.

(** States of the run, and what holds of all of them. *)
Lemma wloop_ind : forall (P : nat -> wst -> Prop) cancel f k w,
  (forall k w s w', P k w -> wbody u input w = Some (BCont s, w') -> P (S k) w') -> P k w ->
  match wloop u input cancel f k w with
  | WFuel w' => (exists k', P k' w' /\ (wbody u input w' = None \/ k' = k + f))
  | WEnd w' _ => exists k' w0 r, P k' w0 /\ wbody u input w0 = Some (r, w')
  | WRaise e w' => exists k' w0 r, P k' w0 /\ wbody u input w0 = Some (r, w')
  end.
Proof.
  intros P cancel. induction f as [|f IH]; intros k w ST H; cbn [wloop].
  - exists k. split; [exact H|right; lia].
  - destruct (wbody u input w) as [[[s'|s'|e s'] w']|] eqn:B.
    + destruct (cancel k); [exists k, w, (BCont s'); auto|]. pose proof (IH (S k) w' ST (ST k w s' w' H B)) as R.
      destruct (wloop u input cancel f (S k) w') as [w2 c|e w2|w2]; [exact R|exact R|].
      destruct R as (k' & R1 & R2). exists k'. split; [exact R1|]. destruct R2; [auto|right; lia].
    + exists k, w, (BEnd s'). auto.
    + exists k, w, (BRaise e s'). auto.
    + exists k. auto.
Qed.

(** The geometry is that of the queues. *)
Definition par (t : SurfModel.st) (q : que) : Prop :=
  map SurfModel.s_uid (SurfModel.t_surfs t) = map s_uid (q_surfs q) /\
  map Some (SurfModel.t_bursts t) = map (fun p => data u input (p_uid p)) (q_packs q) /\
  SurfModel.t_next t = q_next q.
Lemma last1_map : forall {A B} (f : A -> B) l, SurfModel.last1 (map f l) = option_map f (SurfModel.last1 l).
Proof. intros. unfold SurfModel.last1. rewrite <- map_rev. destruct (rev l); reflexivity. Qed.
Lemma focus_uids : forall g fo ss d, map SurfModel.s_uid (snd (SurfModel.focus g fo ss d)) = map SurfModel.s_uid ss.
Proof.
  intros g fo ss d. unfold SurfModel.focus. destruct (SurfModel.g_focus g && negb fo); [|reflexivity].
  destruct (rev ss) as [|s [|pr r]] eqn:E; [reflexivity|reflexivity|]. destruct (SurfModel.flt _ _); [|reflexivity].
  cbn [snd]. rewrite <- (rev_involutive ss), E. rewrite !map_rev. reflexivity.
Qed.
Lemma last2_short : forall {A} (l : list A), SurfModel.last2 l = None <-> length l < 2.
Proof.
  intros A l. unfold SurfModel.last2. rewrite <- (rev_length l). destruct (rev l) as [|x [|y r]]; cbn; split; intros; try lia; try reflexivity; discriminate.
Qed.
(** One burst arrives in the queues and in the geometry. *)
Definition grown (t t1 : SurfModel.st) : Prop :=
  (SurfModel.t_surfs t1 = SurfModel.t_surfs t /\ SurfModel.t_next t1 = SurfModel.t_next t) \/
  exists x, SurfModel.t_surfs t1 = SurfModel.t_surfs t ++ [x] /\ SurfModel.s_uid x = SurfModel.t_next t /\
    SurfModel.t_next t1 = S (SurfModel.t_next t).
Definition answer (r : res SurfModel.serr bool) : bool := match r with Ok b => b | Err _ => false end.
Lemma step_par : forall f p b t q t1 r, par t q -> data u input (p_uid p) = Some b ->
  SurfModel.step_burst (u_g u) (u_fuel u) f b t = (t1, r) -> r <> Err SurfModel.ELoop ->
  (SurfModel.g_focus (u_g u) = false -> grown t t1) /\ SurfModel.t_next t <= SurfModel.t_next t1 /\
  forall o, (f = false -> forall x, o_new o x (p_uid p) = answer r) -> par t1 (snd (locate o f p q)).
Proof.
  intros f p b t q t1 r (P1 & P2 & P3) D ST NE.
  assert (LB : length (SurfModel.t_bursts t) = length (q_packs q)).
  { apply (f_equal (@length _)) in P2. rewrite !map_length in P2. exact P2. }
  assert (PB : map Some (SurfModel.t_bursts t ++ [b]) = map (fun p => data u input (p_uid p)) (q_packs q ++ [p])).
  { rewrite !map_app, P2. cbn. rewrite D. reflexivity. }
  set (create := fun l => let s := SurfModel.new_surface (u_g u) (SurfModel.t_next t) l in
      let '(fo, ss) := SurfModel.focus (u_g u) (SurfModel.t_found t) (SurfModel.t_surfs t) (SurfModel.s_dist s) in
      {| SurfModel.t_found := fo;
       SurfModel.t_last := match l with Some l => l | None => SurfModel.t_last t end;
       SurfModel.t_surfs := ss ++ [s]; SurfModel.t_bursts := SurfModel.t_bursts t ++ [b]; SurfModel.t_next := S (SurfModel.t_next t) |}).
  assert (CR : forall l fo az (x : surface), s_uid x = q_next q ->
     (SurfModel.g_focus (u_g u) = false -> grown t (create l)) /\ SurfModel.t_next t <= SurfModel.t_next (create l) /\
     par (create l) (mk_que (q_surfs q ++ [x]) (q_packs q ++ [p]) fo (S (q_next q)) (q_psize q) (q_ptrend q) az)).
  { intros l fo az x U. unfold create. cbv zeta. pose proof (focus_uids (u_g u) (SurfModel.t_found t) (SurfModel.t_surfs t)
      (SurfModel.s_dist (SurfModel.new_surface (u_g u) (SurfModel.t_next t) l))) as FU.
    assert (NF : SurfModel.g_focus (u_g u) = false -> snd (SurfModel.focus (u_g u) (SurfModel.t_found t) (SurfModel.t_surfs t)
      (SurfModel.s_dist (SurfModel.new_surface (u_g u) (SurfModel.t_next t) l))) = SurfModel.t_surfs t).
    { intros F. unfold SurfModel.focus. rewrite F. reflexivity. }
    destruct (SurfModel.focus _ _ _ _) as [fo' ss]. cbn [snd] in FU, NF. split; [|split].
    - intros F. right. rewrite <- (NF F). eexists. split; [|split]; reflexivity.
    - cbn [SurfModel.t_next]. lia.
    - unfold par. cbn [SurfModel.t_surfs SurfModel.t_bursts SurfModel.t_next q_surfs q_packs q_next]. split; [|split].
      + rewrite !map_app, FU, P1. cbn. rewrite U, P3. reflexivity.
      + exact PB.
      + rewrite P3. reflexivity. }
  assert (KE : par {| SurfModel.t_found := SurfModel.t_found t; SurfModel.t_last := SurfModel.t_last t; SurfModel.t_surfs := SurfModel.t_surfs t;
                 SurfModel.t_bursts := SurfModel.t_bursts t ++ [b]; SurfModel.t_next := SurfModel.t_next t |}
                 (set_packs_surfs q (q_packs q ++ [p]) (q_surfs q))).
  { unfold par. cbn [SurfModel.t_surfs SurfModel.t_bursts SurfModel.t_next set_packs_surfs q_surfs q_packs q_next]. repeat split; assumption. }
  unfold SurfModel.step_burst in ST. fold create in ST.
  destruct (if f then None else SurfModel.last1 (SurfModel.t_surfs t)) as [s|] eqn:L.
  - destruct f; [discriminate|].
    assert (Q : exists x ss, q_surfs q = x :: ss).
    { destruct (q_surfs q) as [|x ss]; [|eauto]. destruct (SurfModel.t_surfs t); [discriminate|discriminate]. }
    destruct Q as (x & ss & Q).
    destruct (SurfModel.last2 (SurfModel.t_bursts t ++ [b])) as [[pb cb]|] eqn:L2.
    + assert (LEN : ~ (length (q_packs q ++ [p]) < 2)).
      { intros N. assert (N2 : length (SurfModel.t_bursts t ++ [b]) < 2) by (rewrite app_length in *; cbn in *; lia).
        apply last2_short in N2. congruence. }
      assert (LOC : forall o, locate o false p q =
        if o_new o (s_uid (last ss x)) (p_uid p)
        then (Some true, mk_que (q_surfs q ++ [mk_surface (q_next q) (q_count q) (p_uid p) []]) (q_packs q ++ [p])
                (S (q_count q)) (S (q_next q)) (q_psize q) (q_ptrend q) (q_az q))
        else (Some false, set_packs_surfs q (q_packs q ++ [p]) (q_surfs q))).
      { intros o. unfold locate. rewrite Q. destruct (q_packs q ++ [p]) as [|k1 [|k2 kr]]; [exfalso; apply LEN; cbn; lia|exfalso; apply LEN; cbn; lia|]. reflexivity. }
      destruct (SurfModel.find_new_location (SurfModel.g_k (u_g u)) s pb cb) as [l|]; injection ST as <- <-.
      * destruct (CR l (S (q_count q)) (q_az q) (mk_surface (q_next q) (q_count q) (p_uid p) []) eq_refl) as (C1 & C2 & C3).
        split; [exact C1|]. split; [exact C2|]. intros o A. rewrite LOC, (A eq_refl). exact C3.
      * split; [left; split; reflexivity|]. split; [cbn; lia|]. intros o A. rewrite LOC, (A eq_refl). exact KE.
    + injection ST as <- <-. split; [left; split; reflexivity|]. split; [cbn; lia|]. intros o A. unfold locate. rewrite Q.
      assert (LEN : length (q_packs q ++ [p]) < 2).
      { apply last2_short in L2. rewrite app_length in *. cbn in *. lia. }
      destruct (q_packs q ++ [p]) as [|k1 [|k2 kr]] eqn:KP; [exfalso; destruct (q_packs q); discriminate| |cbn in LEN; lia].
      rewrite <- Q. exact KE.
  - destruct (SurfModel.first_location _ _ _ _) as [l|]; injection ST as <- <-; [|congruence].
    destruct (CR (Some l) (S (q_count q)) (q_az q) (mk_surface (q_next q) (q_count q) (p_uid p) []) eq_refl) as (C1 & C2 & C3).
    split; [exact C1|]. split; [exact C2|]. intros o A. unfold locate. destruct f.
    + destruct (q_surfs q); exact C3.
    + assert (Q : q_surfs q = []).
      { unfold SurfModel.last1 in L. destruct (SurfModel.t_surfs t) as [|y r] eqn:ET.
        - destruct (q_surfs q); [reflexivity|discriminate].
        - exfalso. assert (length (rev (y :: r)) = S (length r)) by apply rev_length. destruct (rev (y :: r)); [discriminate|discriminate]. }
      rewrite Q in C3 |- *. exact C3.
Qed.
(** Reading, and what is in the queues after it. *)
Lemma handle_que : forall o i q m,
  read_que (handle_packet cf o i q m) = q \/
  exists p, i_cur i = Some p /\ read_que (handle_packet cf o i q m) = snd (locate o (i_resume i) p q).
Proof.
  intros o i q m. unfold handle_packet. destruct (i_cur i) as [p|]; [|left; reflexivity].
  destruct (match i_pt i with None => true | Some t0 => lt_q (p_time p - t0)%Q (c_gap cf) end); [|left; reflexivity].
  right. exists p. split; [reflexivity|]. destruct (locate o (i_resume i) p q) as [[[|]|] q1]; reflexivity.
Qed.
Lemma read_que_cases : forall o s,
  read_que (read_phase cf o 0 s) = s_q s \/
  exists p, read_que (read_phase cf o 0 s) = snd (locate o (i_resume (s_in s)) p (s_q s)) /\
    ((i_gap (s_in s) = false /\ i_resume (s_in s) = false /\ exists t r, i_rest (s_in s) = Valid t :: r /\ p = mk_packet (i_n (s_in s)) (i_n (s_in s)) t false) \/
     (i_resume (s_in s) = true /\ i_cur (s_in s) = Some p)).
Proof.
  intros o s. unfold read_phase. destruct (i_gap (s_in s)) eqn:GA; [left; reflexivity|].
  destruct (i_resume (s_in s)) eqn:R.
  { destruct (handle_que o (s_in s) (s_q s) (s_mon s)) as [E|(p & E & F)]; [left; exact E|].
    right. exists p. rewrite R in F. auto. }
  destruct (i_rest (s_in s)) as [|[t| |] rest].
  - destruct (i_sp (s_in s)); [|left; reflexivity].
    destruct (handle_que o (mk_inp [] (i_n (s_in s)) None (i_pt (s_in s)) false false true) (s_q s) (s_mon s)) as [E|(p & E & F)]; [left; exact E|discriminate].
  - match goal with |- context [handle_packet cf o ?i ?q ?m] => destruct (handle_que o i q m) as [E|(p & E & F)] end; [left; exact E|].
    right. exists p. split; [exact F|]. left. split; [reflexivity|]. split; [reflexivity|]. exists t, rest. cbn in E. injection E as <-. auto.
  - match goal with |- context [handle_packet cf o ?i ?q ?m] => destruct (handle_que o i q m) as [E|(p & E & F)] end; [left; exact E|discriminate].
  - left; reflexivity.
Qed.
Lemma record_erase : forall p t, nth_error items p = Some (Valid t) -> exists b, data u input p = Some b.
Proof.
  intros p t H. rewrite nth_error_map in H. unfold data, record_of. destruct (nth_error input p) as [[r| |]|]; try discriminate.
  eexists. reflexivity.
Qed.
Lemma arrived_data : forall o n w d p, so_far o n w -> 
  (exists t r, i_rest (s_in (x_s w)) = Valid t :: r /\ i_gap (s_in (x_s w)) = false /\ p = mk_packet (i_n (s_in (x_s w))) (i_n (s_in (x_s w))) t false) \/
  (i_resume (s_in (x_s w)) = true /\ i_cur (s_in (x_s w)) = Some p) ->
  read_que (read_phase cf d 0 (x_s w)) = snd (locate d (i_resume (s_in (x_s w))) p (s_q (x_s w))) ->
  exists b, data u input (p_uid p) = Some b.
Proof.
  intros o n w d p (_ & H) C _. pose proof (steps_inv cf o items n s0 (x_s w) (init_inv cf o items) H) as (IN & _).
  destruct C as [(t & r & C1 & C2 & ->)|(C1 & C2)].
  - apply (record_erase _ t). cbn. pose proof (ii_rest _ _ _ _ _ _ _ IN) as R. rewrite C1 in R.
    rewrite <- (firstn_skipn (i_n (s_in (x_s w))) items) at 1. rewrite <- R.
    pose proof (ii_n _ _ _ _ _ _ _ IN) as LN. rewrite nth_error_app2; rewrite firstn_length_le by exact LN; [|lia].
    rewrite Nat.sub_diag. reflexivity.
  - destruct (ii_cur _ _ _ _ _ _ _ IN) as (k & t & _ & K2 & K3 & _); [rewrite C1; apply orb_true_r|].
    rewrite C2 in K2. injection K2 as ->. exact (record_erase k t K3).
Qed.
(** The geometry after reading. *)
Lemma geo_par : forall o n w t1 t2, so_far o n w -> par (x_t w) (s_q (x_s w)) -> geo_read u input w = (t1, true) ->
  (SurfModel.g_focus (u_g u) = false -> grown (x_t w) t1) /\ SurfModel.t_next (x_t w) <= SurfModel.t_next t1 /\
  par t1 (read_que (read_phase cf (oracle_at u input (x_t w) t2) 0 (x_s w))) /\
  read_phase cf (oracle_at u input (x_t w) t2) 0 (x_s w) = read_phase cf (oracle_at u input (x_t w) (x_t w)) 0 (x_s w).
Proof.
  intros o n w t1 t2 SO P G. set (d0 := oracle_at u input (x_t w) (x_t w)). set (d := oracle_at u input (x_t w) t2).
  assert (E : read_phase cf d 0 (x_s w) = read_phase cf d0 0 (x_s w)).
  { apply (read_ext cf d0 d 0 (x_s w) _ eq_refl). intros p _ _ x. reflexivity. }
  unfold geo_read in G. fold d0 in G. rewrite E. clear d E.
  destruct (read_que_cases d0 (x_s w)) as [Q|(p & Q & C)].
  - assert (A : arrived (x_s w) (read_phase cf d0 0 (x_s w)) = None).
    { unfold arrived. rewrite Q. destruct (Nat.eqb_spec (length (q_packs (s_q (x_s w)))) (S (length (q_packs (s_q (x_s w)))))); [lia|reflexivity]. }
    rewrite A in G. injection G as <-. rewrite Q. split; [left; split; reflexivity|]. split; [lia|]. split; [exact P|reflexivity].
  - assert (A : arrived (x_s w) (read_phase cf d0 0 (x_s w)) = Some (p_uid p)).
    { apply packs_arrived. rewrite Q. apply locate_packs. }
    assert (D : exists b, data u input (p_uid p) = Some b).
    { apply (arrived_data o n w d0 p SO); [|exact Q]. destruct C as [(C1 & C2 & t & r & C3 & C4)|C]; [left; exists t, r; auto|right; exact C]. }
    destruct D as (b & D). rewrite A, D in G.
    destruct (SurfModel.step_burst (u_g u) (u_fuel u) (i_resume (s_in (x_s w))) b (x_t w)) as [t r] eqn:ST.
    injection G as <- G. assert (NE : r <> Err SurfModel.ELoop) by (intros ->; discriminate).
    destruct (step_par _ p b (x_t w) (s_q (x_s w)) t r P D ST NE) as (S1 & S2 & S3).
    split; [exact S1|]. split; [exact S2|]. split; [|reflexivity]. rewrite Q. apply S3. intros F x. cbn. unfold found. rewrite D.
    rewrite F in ST. rewrite ST. reflexivity.
Qed.

(** The rest of an iteration. *)
Lemma drop_until_skipn : forall c l, exists n, drop_until c l = skipn n l.
Proof.
  intros c. induction l as [|p l (n & IH)]; [exists 0; reflexivity|]. cbn. destruct (Nat.eqb (p_counter p) c); [exists 0; reflexivity|].
  exists (S n). exact IH.
Qed.
Lemma skipn_map : forall {A B} (f : A -> B) n l, skipn n (map f l) = map f (skipn n l).
Proof. intros A B f. induction n; intros [|x l]; cbn; auto. Qed.
Definition shape (q : que) (w : out) (q' : que) (w' : out) : Prop :=
  q_next q' = q_next q /\ (exists n, map p_uid (q_packs q') = skipn n (map p_uid (q_packs q))) /\
  ((length (w_done w') = length (w_done w) /\ map s_uid (q_surfs q') = map s_uid (q_surfs q)) \/
   (length (w_done w') = S (length (w_done w)) /\ map s_uid (q_surfs q') = tl (map s_uid (q_surfs q)))).
Definition writes (q : que) (w w' : out) : Prop :=
  exists new, w_l1b w' = w_l1b w ++ new /\ forall x, In x new -> In (s_uid x) (map s_uid (q_surfs q)).
Lemma surface_phase_writes : forall o q w e q' w', surface_phase cf o q w = (e, q', w') -> writes q w w'.
Proof.
  intros o q w e q' w' H. unfold surface_phase in H. unfold writes.
  assert (SK : forall l l', map skey l = map skey l' -> map s_uid l = map s_uid l').
  { intros l l' E. apply (f_equal (map (fun k => fst (fst k)))) in E. rewrite !map_map in E. exact E. }
  assert (NO : exists new, w_l1b w = w_l1b w ++ new /\ forall x, In x new -> In (s_uid x) (map s_uid (q_surfs q))).
  { exists []. rewrite app_nil_r. split; [reflexivity|intros x []]. }
  destruct (q_surfs q) as [|s0 ss] eqn:Q. { inversion H; subst. exact NO. }
  destruct (burst_loop cf o (s_uid s0) [] (q_packs q) q) as [e1 q1] eqn:B. apply burst_loop_keys in B.
  destruct B as (B1 & _ & _ & _). rewrite Q in B1. apply SK in B1.
  destruct e1; [inversion H; subst; exact NO|]. destruct (q_surfs q1) as [|s1 rest] eqn:Q1; [discriminate|].
  assert (YES : exists new, w_l1b w ++ [s1] = w_l1b w ++ new /\ forall x, In x new -> In (s_uid x) (map s_uid (s0 :: ss))).
  { exists [s1]. split; [reflexivity|]. intros x [<-|[]]. rewrite <- B1. left. reflexivity. }
  destruct (stack_size cf s1 <? c_looks cf / 2). { inversion H; subst. exact NO. }
  destruct (o_corr_fail o (s_uid s1)); [inversion H; subst; exact NO|].
  destruct (o_w1_fail o (s_uid s1)); [inversion H; subst; exact NO|].
  destruct (c_l1bs cf && o_w2_fail o (s_uid s1)); [inversion H; subst; exact YES|].
  destruct (q_packs q1); [|destruct (s_stack s1)]; inversion H; subst; exact YES.
Qed.
Lemma body_writes : forall o s r, body cf o 0 s = r -> writes (read_que (read_phase cf o 0 s)) (s_out s) (s_out (step_st r)).
Proof.
  intros o s r H. unfold body in H.
  assert (SAME : forall q w, writes q w w).
  { intros q w. exists []. rewrite app_nil_r. split; [reflexivity|intros x []]. }
  destruct (read_phase cf o 0 s) as [i q m|i q m|e i q m]; cbn [read_que].
  - destruct (i_sp i || (c_min cf <=? length (q_surfs q)) || i_gap i).
    + destruct (surface_phase cf o q (s_out s)) as [[e q1] w1] eqn:SP. apply surface_phase_writes in SP.
      destruct e; [subst r; exact SP|]. unfold end_phase in H. destruct (q_surfs q1) eqn:Q1; [|subst r; exact SP].
      cbn in H. destruct (i_gap i); subst r; exact SP.
    + unfold end_phase in H. destruct (q_surfs q); [destruct (i_gap i)|]; subst r; apply SAME.
  - subst r. apply SAME.
  - subst r. apply SAME.
Qed.
Lemma surface_phase_shape : forall o q w e q' w', surface_phase cf o q w = (e, q', w') -> shape q w q' w'.
Proof.
  intros o q w e q' w' H. unfold surface_phase in H. unfold shape.
  assert (PK : forall l l', map pkey l = map pkey l' -> map p_uid l = map p_uid l').
  { intros l l' E. apply (f_equal (map (fun k => fst (fst k)))) in E. rewrite !map_map in E. exact E. }
  assert (SK : forall l l', map skey l = map skey l' -> map s_uid l = map s_uid l').
  { intros l l' E. apply (f_equal (map (fun k => fst (fst k)))) in E. rewrite !map_map in E. exact E. }
  destruct (q_surfs q) as [|s0 ss] eqn:Q.
  { inversion H; subst. rewrite Q. split; [reflexivity|]. split; [exists 0; reflexivity|]. left. auto. }
  destruct (burst_loop cf o (s_uid s0) [] (q_packs q) q) as [e1 q1] eqn:B. apply burst_loop_keys in B.
  destruct B as (B1 & B2 & _ & B4). rewrite Q in B1. apply SK in B1. apply PK in B2. cbn [app] in B2.
  assert (STAY : q_next q1 = q_next q /\ (exists n, map p_uid (q_packs q1) = skipn n (map p_uid (q_packs q))) /\
    ((length (w_done w) = length (w_done w) /\ map s_uid (q_surfs q1) = map s_uid (s0 :: ss)) \/
     (length (w_done w) = S (length (w_done w)) /\ map s_uid (q_surfs q1) = tl (map s_uid (s0 :: ss))))).
  { split; [exact B4|]. split; [exists 0; exact B2|]. left. auto. }
  destruct e1; [inversion H; subst; exact STAY|]. destruct (q_surfs q1) as [|s1 rest] eqn:Q1; [discriminate|].
  rewrite <- Q1 in STAY.
  assert (POP : forall b ps, (exists n, ps = skipn n (q_packs q1)) ->
    q_next (set_packs_surfs q1 ps rest) = q_next q /\ (exists n, map p_uid (q_packs (set_packs_surfs q1 ps rest)) = skipn n (map p_uid (q_packs q))) /\
    ((length (w_done w ++ [(s1, b)]) = length (w_done w) /\ map s_uid (q_surfs (set_packs_surfs q1 ps rest)) = map s_uid (s0 :: ss)) \/
     (length (w_done w ++ [(s1, b)]) = S (length (w_done w)) /\ map s_uid (q_surfs (set_packs_surfs q1 ps rest)) = tl (map s_uid (s0 :: ss))))).
  { intros b ps (n & ->). cbn [set_packs_surfs q_next q_packs q_surfs]. split; [exact B4|]. split.
    - exists n. rewrite <- B2, skipn_map. reflexivity.
    - right. rewrite app_length. cbn [length]. split; [lia|]. rewrite <- B1. reflexivity. }
  destruct (stack_size cf s1 <? c_looks cf / 2). { inversion H; subst. apply POP. exists 0. reflexivity. }
  destruct (o_corr_fail o (s_uid s1)); [inversion H; subst; exact STAY|].
  destruct (o_w1_fail o (s_uid s1)); [inversion H; subst; exact STAY|].
  destruct (c_l1bs cf && o_w2_fail o (s_uid s1)); [inversion H; subst; exact STAY|].
  destruct (q_packs q1) as [|p0 ps] eqn:EP; [inversion H; subst; apply POP; exists 0; reflexivity|].
  destruct (s_stack s1) as [|e0 er]; inversion H; subst; [rewrite EP; exact STAY|]. apply POP. apply (drop_until_skipn (e_counter e0) (p0 :: ps)).
Qed.
Lemma body_shape : forall o s r, body cf o 0 s = r ->
  shape (read_que (read_phase cf o 0 s)) (s_out s) (s_q (step_st r)) (s_out (step_st r)).
Proof.
  intros o s r H. unfold body in H.
  assert (SAME : forall q w, shape q w q w).
  { intros q w. split; [reflexivity|]. split; [exists 0; reflexivity|]. left. auto. }
  destruct (read_phase cf o 0 s) as [i q m|i q m|e i q m]; cbn [read_que].
  - destruct (i_sp i || (c_min cf <=? length (q_surfs q)) || i_gap i).
    + destruct (surface_phase cf o q (s_out s)) as [[e q1] w1] eqn:SP. apply surface_phase_shape in SP.
      destruct e; [subst r; exact SP|]. unfold end_phase in H. destruct (q_surfs q1) eqn:Q1; [|subst r; exact SP].
      cbn in H. destruct (i_gap i); subst r; exact SP.
    + unfold end_phase in H. destruct (q_surfs q); [destruct (i_gap i)|]; subst r; apply SAME.
  - subst r. apply SAME.
  - subst r. apply SAME.
Qed.
Lemma skipn_len : forall {A} n (l l' : list A), l' = skipn n l -> l' = skipn (length l - length l') l.
Proof.
  intros A n l l' E. assert (LL : length l' = length l - n) by (rewrite E; apply skipn_length).
  destruct (Nat.le_gt_cases n (length l)).
  - rewrite E at 1. f_equal. lia.
  - rewrite (skipn_all2 l) in E by lia. subst l'. cbn. rewrite Nat.sub_0_r, skipn_all. reflexivity.
Qed.
Lemma advance_par : forall w t1 s' q, par t1 q -> shape q (s_out (x_s w)) (s_q s') (s_out s') ->
  par (x_t (advance u input w t1 s')) (s_q s').
Proof.
  intros w t1 s' q (P1 & P2 & P3) (N & (n & PK) & D). unfold advance. cbn [x_t].
  set (t2 := if _ <? _ then _ else _).
  assert (T : SurfModel.t_next t2 = SurfModel.t_next t1 /\ SurfModel.t_bursts t2 = SurfModel.t_bursts t1 /\
              map SurfModel.s_uid (SurfModel.t_surfs t2) = map s_uid (q_surfs (s_q s'))).
  { destruct D as [(D1 & D2)|(D1 & D2)]; unfold t2; rewrite D1.
    - rewrite Nat.ltb_irrefl. rewrite D2. auto.
    - destruct (Nat.ltb_spec (length (w_done (s_out (x_s w)))) (S (length (w_done (s_out (x_s w)))))); [|lia].
      cbn [SurfModel.run_op SurfModel.t_next SurfModel.t_bursts SurfModel.t_surfs]. rewrite D2, <- P1.
      split; [reflexivity|]. split; [reflexivity|]. destruct (SurfModel.t_surfs t1); reflexivity. }
  destruct T as (T1 & T2 & T3). cbn [SurfModel.run_op]. unfold par. cbn [SurfModel.t_surfs SurfModel.t_bursts SurfModel.t_next].
  split; [exact T3|]. split; [|rewrite T1, P3, N; reflexivity].
  rewrite T2. apply skipn_len in PK. rewrite !map_length in PK.
  assert (LB : length (SurfModel.t_bursts t1) = length (q_packs q)).
  { apply (f_equal (@length _)) in P2. rewrite !map_length in P2. exact P2. }
  rewrite LB, <- skipn_map, P2. rewrite <- !(map_map p_uid (fun p => data u input p)), PK, skipn_map. reflexivity.
Qed.
Lemma wbody_par : forall o n w r w', so_far o n w -> par (x_t w) (s_q (x_s w)) -> wbody u input w = Some (r, w') ->
  par (x_t w') (s_q (x_s w')).
Proof.
  intros o n w r w' SO P B. unfold wbody in B. destruct (geo_read u input w) as [t1 ok] eqn:G. destruct ok; [|discriminate].
  injection B as B1 <-. destruct (geo_par o n w t1 t1 SO P G) as (_ & _ & G2 & _).
  unfold advance. cbn [x_s]. eapply advance_par; [exact G2|]. apply body_shape. rewrite B1. reflexivity.
Qed.

(** Enough fuel. *)
Lemma geo_ok : forall w, fuel_enough u input -> snd (geo_read u input w) = true.
Proof.
  intros w F. unfold geo_read. destruct (arrived _ _) as [p|]; [|reflexivity]. unfold data, record_of.
  destruct (nth_error input p) as [[rc| |]|] eqn:N; cbn [option_map]; try reflexivity.
  apply nth_error_In in N. destruct (F rc N) as (F1 & F2).
  unfold SurfModel.step_burst.
  destruct (if i_resume (s_in (x_s w)) then None else SurfModel.last1 (SurfModel.t_surfs (x_t w))) as [s|].
  - destruct (SurfModel.last2 _) as [[pb cb]|]; [|reflexivity]. destruct (SurfModel.find_new_location _ _ _ _); reflexivity.
  - unfold SurfModel.first_location.
    change (SurfModel.b_lla (prepared u rc)) with (SurfModel.b_lla (w_geo rc)).
    destruct (normalize _ _ (vx _)) as [lat|]; [|congruence]. destruct (normalize _ _ (vy _)) as [lon|]; [|congruence]. reflexivity.
Qed.
Lemma whole_ends : forall cancel w, fuel_enough u input -> whole u cancel input <> WFuel w.
Proof.
  intros cancel w F E.
  pose proof (wloop_ind (fun k w => exists o, so_far o k w) cancel (enough [] items) 0 (wst0 input)) as H.
  assert (ST : forall k w s w', (exists o, so_far o k w) -> wbody u input w = Some (BCont s, w') -> exists o, so_far o (S k) w').
  { intros k w1 s w' (o & SO) B. destruct (wbody_merge o k w1 _ w' SO B) as ((M1 & M2) & M3 & M4).
    eexists. split; [exact M1|]. rewrite M4. eapply steps_snoc; [exact M2|exact M3]. }
  specialize (H ST (ex_intro _ oracle0 so_far_0)). unfold whole in E. rewrite E in H.
  destruct H as (k & (o & HF & S) & [B|B]).
  - unfold wbody in B. pose proof (geo_ok w F) as G. destruct (geo_read u input w) as [t1 ok]. cbn in G. subst ok. discriminate.
  - cbn [Nat.add] in B. subst k.
    pose proof (steps_loop cf o no_cancel (enough [] items) 0 0 s0 (x_s w) S (fun _ _ => eq_refl)) as L.
    rewrite Nat.add_0_r in L. cbn [loop] in L. exact (run_from_terminates cf o no_cancel [] [] 0 0 items _ L).
Qed.

(** * What the bursts see *)
Definition seen_az (o : oracle) (q : que) : Prop :=
  forall a c, In a (q_az q) -> In c (a_seen a) -> o_vis o c (a_uid a) = true.
Lemma KI_seen : forall o D q, KI cf o items D q -> seen_az o q.
Proof.
  intros o D q K a c A C. pose proof (k_seen _ _ _ _ _ K a c A C) as L.
  assert (X : exists s, In s (D ++ q_surfs q) /\ s_uid s = c).
  { assert (In c (map s_uid (D ++ q_surfs q))) as I by (rewrite (k_uid _ _ _ _ _ K); apply in_seq; lia).
    apply in_map_iff in I. destruct I as (s & E & I). eauto. }
  destruct X as (s & I & <-). destruct (k_stack _ _ _ _ _ K s I) as (_ & EO & B).
  rewrite <- (k_cnt _ _ _ _ _ K s I) in C. apply (B a A) in C. unfold bursts_of in C. apply in_map_iff in C.
  destruct C as (e & E1 & E2). destruct (EO e E2) as (_ & V & _). rewrite <- E1. exact V.
Qed.
Lemma step_KI : forall o s r, Inv cf o items s -> body cf o 0 s = r -> KI cf o items (decided (s_out (step_st r))) (s_q (step_st r)) /\
  forall x, In x (w_l1b (s_out (step_st r))) -> In x (decided (s_out (step_st r)) ++ q_surfs (s_q (step_st r))).
Proof.
  intros o s r I B. pose proof (body_ok cf o items s I) as R. rewrite B in R.
  assert (KEPT : forall w x, OI cf w -> In x (w_l1b w) -> In x (decided w)).
  { intros w x O H. rewrite (oi_l1b _ _ O) in H. unfold kept in H. apply in_map_iff in H. destruct H as ((y & b) & <- & H).
    apply filter_In in H. destruct H as (H & _). unfold decided. apply in_map_iff. exists (y, b). auto. }
  destruct r as [s'|s'|e s']; cbn [step_st]; cbn in R.
  - destruct R as (R & _). split; [exact (ii_K _ _ _ _ _ _ _ R)|]. intros x X. apply in_or_app. left. eapply KEPT; [exact (ii_O _ _ _ _ _ _ _ R)|exact X].
  - destruct R as (R & _). split; [exact (ii_K _ _ _ _ _ _ _ R)|]. intros x X. apply in_or_app. left. eapply KEPT; [exact (ii_O _ _ _ _ _ _ _ R)|exact X].
  - split; [exact (ir_K _ _ _ _ _ R)|]. intros x X. destruct (ir_O _ _ _ _ _ R) as (w0 & O & RD & RW).
    assert (DE : decided (s_out s') = decided w0) by (unfold decided; rewrite RD; reflexivity). rewrite DE. apply in_or_app.
    destruct RW as [(RW & _)|(y & rest & RQ & RW & _)].
    + left. eapply KEPT; [exact O|]. rewrite <- RW. exact X.
    + rewrite RW in X. apply in_app_or in X. destruct X as [X|[<-|[]]]; [left; eapply KEPT; [exact O|exact X]|].
      right. rewrite RQ. left. reflexivity.
Qed.

(** Lists of surfaces and of angles. *)
Lemma by_uid_in : forall ss n x, by_uid ss n = Some x -> In x ss /\ SurfModel.s_uid x = n.
Proof. intros ss n x H. apply find_some in H. destruct H as (H & E). apply Nat.eqb_eq in E. auto. Qed.
Lemma by_uid_exists : forall ss n, In n (map SurfModel.s_uid ss) -> exists x, by_uid ss n = Some x.
Proof.
  intros ss n H. unfold by_uid. destruct (find _ ss) as [x|] eqn:F; [eauto|exfalso].
  apply in_map_iff in H. destruct H as (x & E & I). pose proof (find_none _ _ F x I) as N. cbn in N. rewrite E, Nat.eqb_refl in N. discriminate.
Qed.
Lemma by_uid_grown : forall t t1 n x, grown t t1 -> n <> SurfModel.t_next t -> by_uid (SurfModel.t_surfs t1) n = Some x ->
  by_uid (SurfModel.t_surfs t) n = Some x.
Proof.
  intros t t1 n x [(E & _)|(y & E & U & _)] N H; rewrite E in H; [exact H|]. clear E. unfold by_uid in *.
  induction (SurfModel.t_surfs t) as [|z l IH]; cbn in *.
  - rewrite U in H. destruct (Nat.eqb_spec (SurfModel.t_next t) n); [congruence|discriminate].
  - destruct (Nat.eqb (SurfModel.s_uid z) n); [exact H|apply IH; exact H].
Qed.
Lemma by_uid_tl : forall ss n x, NoDup (map SurfModel.s_uid ss) -> by_uid (tl ss) n = Some x -> by_uid ss n = Some x.
Proof.
  intros [|y ss] n x ND H; [discriminate|]. cbn in *. destruct (Nat.eqb_spec (SurfModel.s_uid y) n) as [E|E]; [|exact H].
  exfalso. inversion ND as [|? ? N1 N2]; subst. apply N1. apply by_uid_in in H. destruct H as (H & <-). apply in_map. exact H.
Qed.
Lemma angles_app1 : forall l l' p, In p (map fst l) -> angles_of (l ++ l') p = angles_of l p.
Proof.
  intros l l' p. unfold angles_of. induction l as [|x l IH]; [intros []|]. cbn. destruct (Nat.eqb_spec (fst x) p) as [E|E]; [reflexivity|].
  intros [H|H]; [congruence|apply IH; exact H].
Qed.
Lemma angles_app2 : forall l l' p, ~ In p (map fst l) -> angles_of (l ++ l') p = angles_of l' p.
Proof.
  intros l l' p. unfold angles_of. induction l as [|x l IH]; [reflexivity|]. cbn. destruct (Nat.eqb_spec (fst x) p) as [E|E]; [tauto|].
  intros H. apply IH. tauto.
Qed.
Lemma angles_stored : forall t1 l a, NoDup (map a_uid l) -> In a l -> angles_of (map (stored u input t1) l) (a_uid a) = snd (stored u input t1 a).
Proof.
  intros t1 l a ND I. unfold angles_of. induction l as [|x l IH]; [destruct I|]. cbn [map find fst stored].
  inversion ND as [|? ? N1 N2]; subst. destruct I as [->|I]; [rewrite Nat.eqb_refl; reflexivity|].
  destruct (Nat.eqb_spec (a_uid x) (a_uid a)) as [E|E]; [exfalso; apply N1; rewrite E; apply in_map; exact I|]. apply IH; assumption.
Qed.

(** The oracle and the stored angles describe what the bursts see. *)
Definition known (o : oracle) (t : SurfModel.st) (az : list beamed) (angles : list (nat * list (option R))) : Prop :=
  map fst angles = map a_uid az /\
  (forall a n, In a az -> o_vis o n (a_uid a) = true -> n < SurfModel.t_next t) /\
  (forall a n x, In a az -> o_vis o n (a_uid a) = true -> by_uid (SurfModel.t_surfs t) n = Some x ->
     exists b, data u input (a_uid a) = Some b /\ sees u b x = true /\
       forall j, nth_error (a_seen a) j = Some n -> nth_error (angles_of angles (a_uid a)) j = Some (angle b x)).
Definition distinct (t : SurfModel.st) : Prop :=
  NoDup (map SurfModel.s_uid (SurfModel.t_surfs t)) /\
  forall n, In n (map SurfModel.s_uid (SurfModel.t_surfs t)) -> n < SurfModel.t_next t.
Lemma distinct_grown : forall t t1, grown t t1 -> distinct t -> distinct t1.
Proof.
  intros t t1 [(E & N)|(x & E & U & N)] (D1 & D2); unfold distinct; rewrite E, N; [split; assumption|].
  rewrite map_app. cbn [map]. split.
  - apply NoDup_rev in D1. rewrite <- (rev_involutive (_ ++ _)). apply NoDup_rev. rewrite rev_app_distr. cbn. constructor; [|exact D1].
    intros I. apply in_rev in I. apply D2 in I. lia.
  - intros n I. apply in_app_or in I. destruct I as [I|[<-|[]]]; [apply D2 in I; lia|lia].
Qed.
(** The products made, with the angles known. *)
Definition made (angles : list (nat * list (option R))) (p : product) : Prop :=
  exists t1 s a y, p = product_of u input t1 a s /\ (exists rest, angles = a ++ rest) /\
    by_uid (SurfModel.t_surfs t1) (s_uid s) = Some y /\ s_counter s = s_uid s /\
    forall e, In e (s_stack s) -> exists b v, data u input (e_uid e) = Some b /\ sees u b y = true /\ angle b y = Some v /\
      nth_error (angles_of a (e_uid e)) (e_beam e) = Some (Some v).
Lemma made_more : forall a rest p, made a p -> made (a ++ rest) p.
Proof.
  intros a rest p (t1 & s & a0 & y & H1 & (r0 & H2) & H). exists t1, s, a0, y. split; [exact H1|]. split; [|exact H].
  exists (r0 ++ rest). rewrite H2, app_assoc. reflexivity.
Qed.
Definition state_ok (o : oracle) (n : nat) (w : wst) : Prop :=
  so_far o n w /\ par (x_t w) (s_q (x_s w)) /\ distinct (x_t w) /\ known o (x_t w) (q_az (s_q (x_s w))) (x_angles w) /\
  Forall (made (x_angles w)) (x_out w).
Lemma increasing_NoDup : forall l, increasing l -> NoDup l.
Proof.
  intros l. induction 1 as [|x l S IH F]; constructor; [|exact IH]. intros I. rewrite Forall_forall in F. specialize (F x I). lia.
Qed.
Lemma NoDup_app_r : forall {A} (l l' : list A), NoDup (l ++ l') -> NoDup l'.
Proof. induction l; cbn; intros l' H; [exact H|]. inversion H; auto. Qed.
Lemma sees_number : forall b x, sees u b x = true -> angle b x <> None.
Proof.
  intros b x H E. unfold sees in H. destruct (lowest u b); [|discriminate]. rewrite E in H. unfold DopModel.in_range in H.
  destruct (dop u b); discriminate.
Qed.

(** One iteration, without focusing. *)
Lemma step_known : forall o n w r w', SurfModel.g_focus (u_g u) = false -> state_ok o n w -> wbody u input w = Some (r, w') ->
  exists o', so_far o' n w /\ body cf o' 0 (x_s w) = r /\ x_s w' = step_st r /\ par (x_t w') (s_q (x_s w')) /\ distinct (x_t w') /\
    known o' (x_t w') (q_az (s_q (x_s w'))) (x_angles w') /\ Forall (made (x_angles w')) (x_out w').
Proof.
  intros o n w r w' NF (SO & P & DI & (K1 & K2 & K3) & OK) B.
  pose proof (wbody_par o n w r w' SO P B) as P'.
  pose proof (wbody_merge o n w r w' SO B) as M. cbv zeta in M.
  unfold wbody in B. destruct (geo_read u input w) as [t1 ok] eqn:G. cbn [fst] in M. destruct ok; [|discriminate]. injection B as B1 B2.
  destruct (geo_par o n w t1 t1 SO P G) as (GG & GN & GP & _). specialize (GG NF). pose proof (distinct_grown _ _ GG DI) as DI1.
  set (d := oracle_at u input (x_t w) t1) in *. set (o' := merge o d (x_s w)) in *.
  destruct M as (M1 & M2 & M3). exists o'. split; [exact M1|]. split; [exact M2|]. split; [exact M3|]. split; [exact P'|].
  pose proof (steps_inv cf o' items n s0 (x_s w) (init_inv cf o' items) (proj2 M1)) as IV.
  destruct (step_KI o' (x_s w) r IV M2) as (KI' & WR).
  destruct (body_ext cf d 0 (x_s w) r B1) as (new & AZ & NEW & _).
  pose proof (body_shape d (x_s w) r B1) as SH.
  set (s' := step_st r) in *. set (angles := x_angles w ++ map (stored u input t1) new) in *.
  assert (SKN : skipn (length (q_az (s_q (x_s w)))) (q_az (s_q s')) = new).
  { rewrite AZ. rewrite skipn_app, skipn_all, Nat.sub_diag. reflexivity. }
  assert (FR : forall a, In a new -> is_az (x_s w) (a_uid a) = false).
  { intros a I. destruct (NEW a I) as (p & Q1 & Q2 & Q3). exact (fresh_az o d n (x_s w) (a_uid a) p (proj2 SO) Q1 Q2 Q3). }
  assert (OLD : forall a, In a (q_az (s_q (x_s w))) -> is_az (x_s w) (a_uid a) = true) by (intros a I; apply is_az_spec; eauto).
  assert (ND : NoDup (map a_uid (q_az (s_q s')))) by (apply increasing_NoDup; exact (k_az _ _ _ _ _ KI')).
  assert (NDN : NoDup (map a_uid new)) by (rewrite AZ, map_app in ND; eapply NoDup_app_r; exact ND).
  (* after locating *)
  assert (KN : known o' t1 (q_az (s_q s')) angles).
  { split; [|split].
    - unfold angles. rewrite AZ, !map_app, K1, map_map. reflexivity.
    - intros a c A V. rewrite AZ in A. apply in_app_or in A. destruct A as [A|A]; unfold o' in V; cbn in V.
      + rewrite (OLD a A) in V. specialize (K2 a c A V). lia.
      + rewrite (FR a A) in V. cbn in V. destruct (data u input (a_uid a)); [|discriminate].
        destruct (by_uid (SurfModel.t_surfs t1) c) as [x|] eqn:BU; [|discriminate]. apply by_uid_in in BU. destruct BU as (BU & <-).
        apply (proj2 DI1). apply in_map. exact BU.
    - intros a c x A V BU. rewrite AZ in A. apply in_app_or in A. destruct A as [A|A]; unfold o' in V; cbn in V.
      + rewrite (OLD a A) in V. pose proof (K2 a c A V) as L. apply (by_uid_grown _ _ _ _ GG) in BU; [|lia].
        destruct (K3 a c x A V BU) as (b & E1 & E2 & E3). exists b. split; [exact E1|]. split; [exact E2|].
        intros j J. unfold angles. rewrite angles_app1; [exact (E3 j J)|]. rewrite K1. apply in_map. exact A.
      + rewrite (FR a A) in V. cbn in V. rewrite BU in V. destruct (data u input (a_uid a)) as [b|] eqn:D; [|discriminate].
        exists b. split; [reflexivity|]. split; [exact V|]. intros j J. unfold angles. rewrite angles_app2.
        * rewrite angles_stored by assumption. cbn [stored snd]. rewrite nth_error_map, J. cbn [option_map]. rewrite D, BU. reflexivity.
        * rewrite K1. intros I. apply in_map_iff in I. destruct I as (a' & E & I). pose proof (OLD a' I) as O1. rewrite E, (FR a A) in O1. discriminate. }
  assert (XT : forall m x, by_uid (SurfModel.t_surfs (x_t w')) m = Some x -> by_uid (SurfModel.t_surfs t1) m = Some x).
  { intros m x. rewrite <- B2. unfold advance. cbn [x_t SurfModel.run_op SurfModel.t_surfs]. destruct (_ <? _); [|auto].
    cbn [SurfModel.t_surfs]. apply by_uid_tl. exact (proj1 DI1). }
  assert (XN : SurfModel.t_next (x_t w') = SurfModel.t_next t1).
  { rewrite <- B2. unfold advance. cbn [x_t SurfModel.run_op SurfModel.t_next]. destruct (_ <? _); reflexivity. }
  assert (XA : x_angles w' = angles).
  { rewrite <- B2. unfold advance. cbn [x_angles]. rewrite B1. fold s'. rewrite SKN. reflexivity. }
  split; [|split].
  - destruct DI1 as (D1 & D2). unfold distinct. rewrite XN. rewrite <- B2. unfold advance. cbn [x_t SurfModel.run_op SurfModel.t_surfs].
    destruct (_ <? _); [|split; assumption]. cbn [SurfModel.t_surfs]. destruct (SurfModel.t_surfs t1) as [|y ys]; [split; assumption|]. cbn in *.
    inversion D1; subst. split; [assumption|]. intros m I. apply D2. right. exact I.
  - destruct KN as (N1 & N2 & N3). rewrite M3, XA. split; [exact N1|]. split.
    + intros a c A V. rewrite XN. exact (N2 a c A V).
    + intros a c x A V BU. exact (N3 a c x A V (XT _ _ BU)).
  - rewrite XA. rewrite <- B2. unfold advance. cbn [x_out]. rewrite B1. fold s'. rewrite SKN. fold angles. apply Forall_app. split.
    { eapply Forall_impl; [|exact OK]. intros p Q. apply made_more. exact Q. }
    apply Forall_map, Forall_forall. intros x X.
    assert (XI : In x (w_l1b (s_out s'))).
    { rewrite <- (firstn_skipn (length (w_l1b (s_out (x_s w)))) (w_l1b (s_out s'))). apply in_or_app. right. exact X. }
    pose proof (WR x XI) as XD.
    (* it is in the queue before it is removed *)
    assert (UI : In (s_uid x) (map SurfModel.s_uid (SurfModel.t_surfs t1))).
    { destruct (body_writes d (x_s w) r B1) as (nw & W1 & W2). fold s' in W1. rewrite W1, skipn_app, skipn_all, Nat.sub_diag in X.
      rewrite (proj1 GP). apply W2. exact X. }
    destruct (by_uid_exists _ _ UI) as (y & Y). exists t1, x, angles, y. split; [reflexivity|]. split; [exists []; rewrite app_nil_r; reflexivity|].
    split; [exact Y|]. split; [exact (k_cnt _ _ _ _ _ KI' x XD)|]. intros e I.
    destruct (k_stack _ _ _ _ _ KI' x XD) as (_ & EO & _). destruct (EO e I) as (_ & V & az & A1 & A2 & A3 & _).
    destruct KN as (_ & _ & N3). rewrite <- A2 in V. destruct (N3 az (s_uid x) y A1 V Y) as (b & D1 & D2 & D3).
    rewrite A2 in D1, D3.
    assert (A4 : nth_error (a_seen az) (e_beam e) = Some (s_uid x)) by (rewrite A3, (k_cnt _ _ _ _ _ KI' x XD); reflexivity).
    specialize (D3 _ A4). pose proof (sees_number b y D2) as NN. destruct (angle b y) as [v|] eqn:EA; [|congruence].
    exists b, v. auto.
Qed.

(** Along a run. *)
Lemma state_after_par : forall n w, state_after u input n = Some w -> exists o, so_far o n w /\ par (x_t w) (s_q (x_s w)).
Proof.
  induction n as [|n IH]; intros w H; cbn [state_after] in H.
  - injection H as <-. exists oracle0. split; [apply so_far_0|]. repeat split.
  - destruct (state_after u input n) as [w0|]; [|discriminate]. destruct (IH w0 eq_refl) as (o & SO & P).
    destruct (wbody u input w0) as [[[s| |] w']|] eqn:B; try discriminate. injection H as <-.
    pose proof (wbody_par o n w0 _ w' SO P B) as P'. destruct (wbody_merge o n w0 _ w' SO B) as ((M1 & M2) & M3 & M4).
    eexists. split; [|exact P']. split; [exact M1|]. rewrite M4. eapply steps_snoc; [exact M2|exact M3].
Qed.
Lemma whole_par : forall cancel, par (x_t (wfinal (whole u cancel input))) (s_q (x_s (wfinal (whole u cancel input)))).
Proof.
  intros cancel. pose proof (wloop_ind (fun k w => exists o, so_far o k w /\ par (x_t w) (s_q (x_s w))) cancel (enough [] items) 0 (wst0 input)) as H.
  assert (ST : forall k w s w', (exists o, so_far o k w /\ par (x_t w) (s_q (x_s w))) -> wbody u input w = Some (BCont s, w') ->
    exists o, so_far o (S k) w' /\ par (x_t w') (s_q (x_s w'))).
  { intros k w1 s w' (o & SO & P) B. pose proof (wbody_par o k w1 _ w' SO P B) as P'. destruct (wbody_merge o k w1 _ w' SO B) as ((M1 & M2) & M3 & M4).
    eexists. split; [|exact P']. split; [exact M1|]. rewrite M4. eapply steps_snoc; [exact M2|exact M3]. }
  assert (P0 : exists o, so_far o 0 (wst0 input) /\ par (x_t (wst0 input)) (s_q (x_s (wst0 input)))).
  { exists oracle0. split; [apply so_far_0|]. repeat split. }
  specialize (H ST P0). unfold whole. destruct (wloop u input cancel (enough [] items) 0 (wst0 input)) as [w c|e w|w]; cbn [wfinal].
  - destruct H as (k & w0 & r & (o & SO & P) & B). exact (wbody_par o k w0 r w SO P B).
  - destruct H as (k & w0 & r & (o & SO & P) & B). exact (wbody_par o k w0 r w SO P B).
  - destruct H as (k & (o & SO & P) & _). exact P.
Qed.
Lemma whole_made : forall cancel, SurfModel.g_focus (u_g u) = false ->
  Forall (made (x_angles (wfinal (whole u cancel input)))) (x_out (wfinal (whole u cancel input))).
Proof.
  intros cancel NF. pose proof (wloop_ind (fun k w => exists o, state_ok o k w) cancel (enough [] items) 0 (wst0 input)) as H.
  assert (ST : forall k w s w', (exists o, state_ok o k w) -> wbody u input w = Some (BCont s, w') -> exists o, state_ok o (S k) w').
  { intros k w1 s w' (o & SO) B. destruct (step_known o k w1 _ w' NF SO B) as (o' & (M1 & M2) & M3 & M4 & M5). exists o'.
    split; [|exact M5]. split; [exact M1|]. rewrite M4. eapply steps_snoc; [exact M2|exact M3]. }
  assert (P0 : exists o, state_ok o 0 (wst0 input)).
  { exists oracle0. split; [apply so_far_0|]. split; [repeat split|]. split; [split; [constructor|intros n []]|].
    split; [|constructor]. split; [reflexivity|]. split; [intros a n []|intros a n x []]. }
  specialize (H ST P0). unfold whole. destruct (wloop u input cancel (enough [] items) 0 (wst0 input)) as [w c|e w|w]; cbn [wfinal].
  - destruct H as (k & w0 & r & (o & SO) & B). destruct (step_known o k w0 r w NF SO B) as (o' & _ & _ & _ & _ & _ & _ & M). exact M.
  - destruct H as (k & w0 & r & (o & SO) & B). destruct (step_known o k w0 r w NF SO B) as (o' & _ & _ & _ & _ & _ & _ & M). exact M.
  - destruct H as (k & (o & _ & _ & _ & _ & M) & _). exact M.
Qed.
(** The products are those of the surfaces written. *)
Lemma step_products : forall w r w', Forall2 product_for (x_out w) (w_l1b (s_out (x_s w))) -> wbody u input w = Some (r, w') ->
  Forall2 product_for (x_out w') (w_l1b (s_out (x_s w'))).
Proof.
  intros w r w' F B. unfold wbody in B. destruct (geo_read u input w) as [t1 ok]. destruct ok; [|discriminate]. injection B as B1 <-.
  destruct (body_writes _ (x_s w) _ B1) as (nw & W & _). unfold advance. cbn [x_out x_s]. rewrite B1, W, skipn_app, skipn_all, Nat.sub_diag.
  cbn [skipn app]. apply Forall2_app; [exact F|]. match goal with |- Forall2 _ (map (product_of _ _ _ ?a) _) _ => generalize a end. intros ang. clear. induction nw as [|x nw IH]; cbn [map]; constructor; [|exact IH].
  split; [reflexivity|]. unfold product_of. cbn [pr_stack]. rewrite map_map. reflexivity.
Qed.
Lemma whole_products : forall cancel,
  Forall2 product_for (x_out (wfinal (whole u cancel input))) (w_l1b (s_out (x_s (wfinal (whole u cancel input))))).
Proof.
  intros cancel. pose proof (wloop_ind (fun _ w => Forall2 product_for (x_out w) (w_l1b (s_out (x_s w)))) cancel (enough [] items) 0 (wst0 input)) as H.
  assert (ST : forall (k : nat) w s w', Forall2 product_for (x_out w) (w_l1b (s_out (x_s w))) -> wbody u input w = Some (BCont s, w') ->
    Forall2 product_for (x_out w') (w_l1b (s_out (x_s w')))) by (intros k w s w' F B; eapply step_products; eassumption).
  specialize (H ST (Forall2_nil _)). unfold whole. destruct (wloop u input cancel (enough [] items) 0 (wst0 input)) as [w c|e w|w]; cbn [wfinal].
  - destruct H as (k & w0 & r & F & B). eapply step_products; eassumption.
  - destruct H as (k & w0 & r & F & B). eapply step_products; eassumption.
  - destruct H as (k & F & _). exact F.
Qed.
End Whole.

(** * What a product shows *)
Lemma sees_sees_at : forall u r y l v, SurfModel.s_loc y = Some l -> sees u (prepared u r) y = true -> angle (prepared u r) y = Some v ->
  sees_at u r (SurfModel.l_surf l) v.
Proof.
  intros u r y l v L S A. unfold sees in S. rewrite A in S.
  destruct (lowest u (prepared u r)) as [q|] eqn:Q; [|discriminate]. unfold DopModel.in_range in S.
  destruct (dop u (prepared u r)) as [d|] eqn:D; [|discriminate].
  exists q, d. split; [exact Q|]. split; [exact D|]. split; [|].
  - unfold angle in A. rewrite L in A. exact A.
  - destruct (Rle_dec q (v - d)); [|discriminate]. destruct (Rle_dec (v - d) _); [|discriminate]. split; assumption.
Qed.
Lemma made_seen : forall u input angles p, made u input angles p -> seen_by_stack u input p.
Proof.
  intros u input angles p (t1 & s & a & y & -> & _ & Y & N & E). exists y. cbn [product_of pr_surf pr_number pr_stack].
  split; [exact Y|]. split; [rewrite N; apply by_uid_in in Y; exact (proj2 Y)|].
  intros i j v I. apply in_map_iff in I. destruct I as (e & EQ & I). injection EQ as E1 E2 E3. subst i j.
  destruct (E e I) as (b & v' & D & S & A & NT). unfold data, record_of in D.
  destruct (nth_error input (e_uid e)) as [[r| |]|] eqn:NE; try discriminate. cbn in D. injection D as <-.
  assert (L : exists l, SurfModel.s_loc y = Some l) by (unfold angle in A; destruct (SurfModel.s_loc y); [eauto|discriminate]).
  destruct L as (l & L). exists l, r, v'. split; [exact L|]. split; [reflexivity|].
  split; [rewrite <- E3; apply nth_error_nth; exact NT|]. eapply sees_sees_at; eassumption.
Qed.

(** Only the angle of its own beam matters for a look. *)
Definition alone (a : R) (o : PointModel.obs) : PointModel.obs :=
  {| PointModel.b_x := PointModel.b_x o; PointModel.b_y := PointModel.b_y o; PointModel.b_z := PointModel.b_z o;
     PointModel.b_speed := PointModel.b_speed o; PointModel.b_pri := PointModel.b_pri o; PointModel.b_wd := PointModel.b_wd o;
     PointModel.b_t0 := PointModel.b_t0 o; PointModel.b_angles := [a]; PointModel.b_pos := 0; PointModel.b_wfm := PointModel.b_wfm o |}.
Lemma gathered_alone : forall k N o a, nth_error (PointModel.b_angles o) (PointModel.b_pos o) = Some a ->
  PointModel.gathered k N o = if N <? length (PointModel.b_angles o) then None else PointModel.gathered k N (alone a o).
Proof.
  intros k N o a H. unfold PointModel.gathered. rewrite H. cbn [alone PointModel.b_angles PointModel.b_pos nth_error].
  unfold AzModel.exact_method, exact_rows. destruct (Nat.ltb_spec N (length (PointModel.b_angles o))) as [L|L]; [reflexivity|].
  assert (0 < length (PointModel.b_angles o)) by (destruct (PointModel.b_angles o); [destruct (PointModel.b_pos o); discriminate|cbn; lia]).
  destruct (Nat.ltb_spec N (length [a])) as [L'|L']; [cbn in L'; lia|].
  rewrite nth_error_app1 by (rewrite map_length; apply nth_error_Some; congruence).
  rewrite nth_error_map, H. cbn [option_map map app nth_error]. reflexivity.
Qed.
Definition alone_raw (a : R) (r : LinModel.raw) : LinModel.raw :=
  {| LinModel.r_burst := alone a (LinModel.r_burst r); LinModel.r_agc := LinModel.r_agc r; LinModel.r_sig0 := LinModel.r_sig0 r;
     LinModel.r_power := LinModel.r_power r; LinModel.r_phase := LinModel.r_phase r; LinModel.r_table := LinModel.r_table r |}.
Definition own_beam (r r' : LinModel.raw) : Prop :=
  exists a, nth_error (PointModel.b_angles (LinModel.r_burst r)) (PointModel.b_pos (LinModel.r_burst r)) = Some a /\ r' = alone_raw a r.
Lemma calibrated_alone : forall f1 f2 k N r a,
  LinModel.calibrated f1 f2 k N (alone_raw a r) = option_map (alone a) (LinModel.calibrated f1 f2 k N r).
Proof.
  intros. unfold LinModel.calibrated. cbn [alone_raw alone LinModel.r_agc LinModel.r_sig0 LinModel.r_power LinModel.r_phase LinModel.r_table
    LinModel.r_burst PointModel.b_wfm]. destruct (DftModel.cal1 _ _ _ _ _ _ _) as [[w1|]|]; try reflexivity.
  destruct (DftModel.cal2 _ _ _ _ _) as [[w2|]|]; reflexivity.
Qed.
Lemma calibrated_angles : forall f1 f2 k N r o, LinModel.calibrated f1 f2 k N r = Some o ->
  PointModel.b_angles o = PointModel.b_angles (LinModel.r_burst r) /\ PointModel.b_pos o = PointModel.b_pos (LinModel.r_burst r).
Proof.
  intros f1 f2 k N r o H. unfold LinModel.calibrated in H. destruct (DftModel.cal1 _ _ _ _ _ _ _) as [[w1|]|]; try discriminate.
  destruct (DftModel.cal2 _ _ _ _ _) as [[w2|]|]; try discriminate. injection H as <-. split; reflexivity.
Qed.
Lemma gathered_all_alone : forall f1 f2 k N l l', Forall2 own_beam l l' ->
  match LinModel.calibrated_all f1 f2 k N l, LinModel.calibrated_all f1 f2 k N l' with
  | Some os, Some os' =>
      (forall bs, PointModel.gathered_all k N os = Some bs -> PointModel.gathered_all k N os' = Some bs) /\
      (Forall (fun r => length (PointModel.b_angles (LinModel.r_burst r)) <= N) l ->
       PointModel.gathered_all k N os = PointModel.gathered_all k N os')
  | None, None => True
  | _, _ => False
  end.
Proof.
  intros f1 f2 k N l l'. induction 1 as [|r r' l l' (a & A & ->) F IH]; [split; auto|].
  cbn [LinModel.calibrated_all]. rewrite calibrated_alone. destruct (LinModel.calibrated f1 f2 k N r) as [o|] eqn:CR; [|exact I].
  cbn [option_map]. apply calibrated_angles in CR. destruct CR as (C1 & C2). rewrite <- C1, <- C2 in A.
  destruct (LinModel.calibrated_all f1 f2 k N l) as [os|], (LinModel.calibrated_all f1 f2 k N l') as [os'|]; try contradiction; [|exact I].
  destruct IH as (IH1 & IH2). cbn [PointModel.gathered_all]. rewrite (gathered_alone k N o a A). split.
  - intros bs. destruct (N <? _); [discriminate|]. destruct (PointModel.gathered k N (alone a o)); [|discriminate].
    destruct (PointModel.gathered_all k N os) as [bs'|] eqn:GA; [|discriminate]. rewrite (IH1 bs' eq_refl). auto.
  - intros FA. inversion FA as [|? ? H1 H2]; subst. rewrite <- C1 in H1. destruct (Nat.ltb_spec N (length (PointModel.b_angles o))); [lia|].
    rewrite (IH2 H2). reflexivity.
Qed.
Lemma looks_alone : forall f1 f2 fl k s N zp nl l l', Forall2 own_beam l l' ->
  (forall rows, LinModel.looks f1 f2 fl k s N zp nl l = Some rows -> LinModel.looks f1 f2 fl k s N zp nl l' = Some rows) /\
  (Forall (fun r => length (PointModel.b_angles (LinModel.r_burst r)) <= N) l ->
   LinModel.looks f1 f2 fl k s N zp nl l = LinModel.looks f1 f2 fl k s N zp nl l').
Proof.
  intros f1 f2 fl k s N zp nl l l' F. pose proof (gathered_all_alone f1 f2 k N l l' F) as H. unfold LinModel.looks.
  destruct (LinModel.calibrated_all f1 f2 k N l) as [os|], (LinModel.calibrated_all f1 f2 k N l') as [os'|]; try contradiction; [|split; [discriminate|reflexivity]].
  destruct H as (H1 & H2). unfold PointModel.image. split.
  - intros rows. destruct (PointModel.gathered_all k N os) as [bs|]; [|discriminate]. rewrite (H1 bs eq_refl). auto.
  - intros FA. rewrite (H2 FA). reflexivity.
Qed.

Section Looks.
Variables (u : setup) (input : list witem).
(** The entries of a stack as written. *)
Definition shown (a : list (nat * list (option R))) (e : entry) : nat * nat * option R :=
  (e_uid e, e_beam e, nth (e_beam e) (angles_of a (e_uid e)) None).
Lemma look_shown : forall a e, look u input a e = look_of u input (shown a e).
Proof.
  intros a e. unfold look, look_of, shown, data, record_of. cbn [fst snd].
  destruct (nth_error input (e_uid e)) as [[r| |]|]; reflexivity.
Qed.
Lemma kept_shown : forall a t1 s, kept_looks u input (product_of u input t1 a s) = map (shown a) (picked u input a (s_stack s)).
Proof.
  intros a t1 s. unfold kept_looks, picked. cbn [product_of pr_stack]. rewrite map_map.
  change (fun x => look_of u input (e_uid x, e_beam x, nth (e_beam x) (angles_of a (e_uid x)) None)) with (fun x => look_of u input (shown a x)).
  rewrite (map_ext _ _ (look_shown a)). induction (u_pick u _) as [|i l IH]; cbn [flat_map]; [reflexivity|].
  rewrite map_app, IH. f_equal. rewrite nth_error_map. destruct (nth_error (s_stack s) i); reflexivity.
Qed.
Lemma picked_in : forall a l e, In e (picked u input a l) -> In e l.
Proof.
  intros a l e H. unfold picked in H. apply in_flat_map in H. destruct H as (i & _ & H).
  destruct (nth_error l i) eqn:N; [|destruct H]. destruct H as [<-|[]]. eapply nth_error_In. exact N.
Qed.
Lemma angles_of_in : forall a p x, nth_error (angles_of a p) x <> None -> In (p, angles_of a p) a.
Proof.
  intros a p x H. unfold angles_of in *. destruct (find _ a) as [[i l]|] eqn:F; [|destruct x; cbn in H; congruence].
  apply find_some in F. destruct F as (I & E). cbn in *. apply Nat.eqb_eq in E. subst. exact I.
Qed.
Lemma held_echo : forall p w, echo_of u input p w =
  option_map (fun wfm => {| LinModel.r_burst := LinModel.with_wfm (LinModel.r_burst w) wfm; LinModel.r_agc := LinModel.r_agc w;
    LinModel.r_sig0 := LinModel.r_sig0 w; LinModel.r_power := LinModel.r_power w; LinModel.r_phase := LinModel.r_phase w;
    LinModel.r_table := LinModel.r_table w |}) (held u input p w).
Proof.
  intros p w. unfold echo_of, held. destruct (after_gap _ _ _ _).
  - unfold LinModel.calibrated. destruct (DftModel.cal1 _ _ _ _ _ _ _) as [[w1|]|]; try reflexivity.
    destruct (DftModel.cal2 _ _ _ _ _) as [[w2|]|]; reflexivity.
  - destruct w as [o ag sg pw ph tb]. destruct o. reflexivity.
Qed.
Lemma views : forall a l, (forall e, In e l -> exists r v, record_of input (e_uid e) = Some r /\ nth_error (angles_of a (e_uid e)) (e_beam e) = Some (Some v)) ->
  match all_some (map (view u input a) l), all_some (map (steered u input) (map (shown a) l)) with
  | Some vs, Some ws => Forall2 own_beam vs ws /\
      (beams_fit u a -> Forall (fun r => length (PointModel.b_angles (LinModel.r_burst r)) <= c_N (u_cf u)) vs)
  | None, None => True
  | _, _ => False
  end.
Proof.
  intros a l. induction l as [|e l IH]; intros H.
  - split; constructor.
  - specialize (IH (fun x X => H x (or_intror X))).
    destruct (H e (or_introl eq_refl)) as (r & v & R1 & R2). cbn [map].
    assert (NE : nth_error input (e_uid e) = Some (WValid r)) by (unfold record_of in R1; destruct (nth_error input (e_uid e)) as [[?| |]|]; try discriminate; congruence).
    assert (VE : view u input a e = option_map (fun wfm => {| LinModel.r_burst :=
        {| PointModel.b_x := vx (SurfModel.b_sat (prepared u r)); PointModel.b_y := vy (SurfModel.b_sat (prepared u r));
           PointModel.b_z := vz (SurfModel.b_sat (prepared u r)); PointModel.b_speed := norm (vlist (SurfModel.b_vel (prepared u r)));
           PointModel.b_pri := PointModel.b_pri (LinModel.r_burst (w_echo r)); PointModel.b_wd := SurfModel.b_wd (prepared u r);
           PointModel.b_t0 := PointModel.b_t0 (LinModel.r_burst (w_echo r));
           PointModel.b_angles := map (fun a => match a with Some x => x | None => 0%R end) (angles_of a (e_uid e));
           PointModel.b_pos := e_beam e; PointModel.b_wfm := wfm |};
         LinModel.r_agc := LinModel.r_agc (w_echo r); LinModel.r_sig0 := LinModel.r_sig0 (w_echo r);
         LinModel.r_power := LinModel.r_power (w_echo r); LinModel.r_phase := LinModel.r_phase (w_echo r);
         LinModel.r_table := LinModel.r_table (w_echo r) |}) (held u input (e_uid e) (w_echo r)))
      by (unfold view; rewrite R1, held_echo; destruct (held u input (e_uid e) (w_echo r)); reflexivity).
    pose proof (eq_refl (steered u input (shown a e))) as SE. unfold steered at 2 in SE. unfold shown at 2 3 4 in SE. cbn [fst snd] in SE.
    rewrite NE, (nth_error_nth _ _ None R2) in SE. rewrite VE, SE. clear SE VE.
    destruct (held u input (e_uid e) (w_echo r)) as [wfm|]; cbn [option_map all_some]; [|exact I].
    destruct (all_some (map (view u input a) l)) as [vs|], (all_some (map (steered u input) (map (shown a) l))) as [ws|]; try contradiction; [|exact I].
    cbn [option_map]. destruct IH as (V2 & V3). split.
    + constructor; [|exact V2]. exists v. split; [|reflexivity].
      cbn [LinModel.r_burst PointModel.b_angles PointModel.b_pos]. rewrite nth_error_map, R2. reflexivity.
    + intros BF. constructor; [|exact (V3 BF)]. cbn [LinModel.r_burst PointModel.b_angles]. rewrite map_length.
      apply (BF (e_uid e)). eapply angles_of_in. rewrite R2. discriminate.
Qed.
Lemma made_looks : forall angles p, made u input angles p ->
  map (fun e => fst (fst e)) (kept_looks u input p) = pr_bursts p /\
  forall x l, pr_surf p = Some x -> SurfModel.s_loc x = Some l ->
    (forall rows, pr_looks p = Some rows -> looks_of u input l p = Some rows) /\
    (c_approx (u_cf u) = false -> beams_fit u angles -> pr_looks p = looks_of u input l p).
Proof.
  intros angles p (t1 & s & a & y & -> & (rest & ->) & Y & N & E). rewrite kept_shown. split.
  - cbn [product_of pr_bursts]. rewrite map_map. reflexivity.
  - intros x l X L. unfold looks_of. rewrite kept_shown. cbn [product_of pr_surf pr_looks] in *. rewrite X, L.
    assert (V := views a (picked u input a (s_stack s))). match type of V with ?H -> _ => assert (HH : H) end.
    { intros e I. apply picked_in in I. destruct (E e I) as (b & v & D & _ & _ & NT). unfold data in D.
      destruct (record_of input (e_uid e)) as [r|]; [|discriminate]. eauto. }
    specialize (V HH). clear HH.
    destruct (all_some (map (view u input a) _)) as [vs|], (all_some (map (steered u input) _)) as [ws|];
      [destruct V as (V2 & V3)|destruct V|destruct V|split; intros; [discriminate|reflexivity]].
    destruct (looks_alone (u_cal1 u) (u_cal2 u) (u_flags u) (u_k u) (ground l) (c_N (u_cf u)) (u_zp u) (c_looks (u_cf u)) vs _ V2) as (K1 & K2).
    split.
    + intros rows. destruct (c_approx (u_cf u)); [discriminate|]. apply K1.
    + intros -> BF. apply K2. apply V3. intros i q I. apply (BF i q). apply in_or_app. left. exact I.
Qed.
End Looks.
