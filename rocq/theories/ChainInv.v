(** Invariants of the main loop for a fresh processor. *)
From Coq Require Import List ZArith QArith Bool Lia Arith Sorted.
From Coq Require Import ZifyBool ZifyNat.
From Verif Require Import Common BeamModel BeamSpec BeamProofs ChainModel ChainSpec ChainAux ChainProofs.
Import ListNotations.
Local Open Scope nat_scope.

Arguments trends : simpl never.
Arguments psize_of : simpl never.
Arguments abs_index : simpl never.
Arguments stack_size : simpl never.
Arguments Nat.div : simpl never.
Arguments Nat.ltb : simpl never.
Arguments Nat.leb : simpl never.

Section Inv.
Variable cf : cfg.
Variable o : oracle.
Variable items : list item.

Notation gapat := (gap_at (c_gap cf) items).

(** the entry [e] in the stack of [s] is backed by what beam_angles stored *)
Definition entry_ok (az : list beamed) (s : surface) (e : entry) : Prop :=
  e_counter e = e_uid e /\ o_vis o (s_uid s) (e_uid e) = true /\
  exists a, In a az /\ a_uid a = e_uid e /\
    nth_error (a_seen a) (e_beam e) = Some (s_counter s) /\
    e_abs e = abs_index (c_N cf) (e_beam e) (a_trend a) (length (a_seen a)).

Definition stack_ok (az : list beamed) (s : surface) : Prop :=
  increasing (bursts_of s) /\
  (forall e, In e (s_stack s) -> entry_ok az s e) /\
  (forall a, In a az -> In (s_counter s) (a_seen a) -> In (a_uid a) (bursts_of s)).

Definition seg_ok (s : surface) : Prop :=
  forall e j, In e (s_stack s) -> gapat j -> s_loc s < j -> e_uid e < j.

Definition sizes (az : list beamed) : list nat := map (fun a => length (a_seen a)) az.

(** invariant of all surfaces known, [D] being those already decided *)
Record KI (D : list surface) (q : que) : Prop := mkKI {
  k_uid : map s_uid (D ++ q_surfs q) = seq 0 (q_next q);
  k_count : q_count q = q_next q;
  k_cnt : forall s, In s (D ++ q_surfs q) -> s_counter s = s_uid s;
  k_loc : increasing (map s_loc (D ++ q_surfs q));
  k_az : increasing (map a_uid (q_az q));
  k_stack : forall s, In s (D ++ q_surfs q) -> stack_ok (q_az q) s;
  k_seg : forall s, In s (D ++ q_surfs q) -> seg_ok s;
  k_trend : map a_trend (q_az q) = trends (c_N cf) (sizes (q_az q));
  k_seen : forall a c, In a (q_az q) -> In c (a_seen a) -> c < q_next q;
  k_len : forall a, In a (q_az q) -> length (a_seen a) <= c_N cf }.

(** invariant of the bursts queued; [B] bounds the records that entered *)
Record PI (B : nat) (q : que) : Prop := mkPI {
  pi_inc : increasing (map p_uid (q_packs q));
  pi_cnt : forall p, In p (q_packs q) -> p_counter p = p_uid p;
  pi_val : forall p, In p (q_packs q) ->
      p_uid p < B /\ nth_error items (p_uid p) = Some (Valid (p_time p));
  pi_done : forall p, In p (q_packs q) -> p_done p = true -> In (p_uid p) (map a_uid (q_az q));
  pi_new : forall p a, In p (q_packs q) -> p_done p = false -> In a (q_az q) -> a_uid a < p_uid p;
  pi_az : forall a, In a (q_az q) -> a_uid a < B /\ exists t, nth_error items (a_uid a) = Some (Valid t);
  pi_seg : forall s p j, In s (q_surfs q) -> In p (q_packs q) -> gapat j ->
      s_loc s < j -> p_uid p < j;
  pi_psize : q_psize q = psize_of (sizes (q_az q));
  pi_ptrend : q_ptrend q = last (map a_trend (q_az q)) (-1)%Z }.

Definition with_packs (q : que) (ps : list packet) : que := set_packs_surfs q ps (q_surfs q).

Lemma KI_packs : forall D q ps, KI D q -> KI D (with_packs q ps).
Proof. intros D q ps []; constructor; auto. Qed.

Lemma seq_uid_unique : forall D q s s',
  KI D q -> In s (D ++ q_surfs q) -> In s' (D ++ q_surfs q) -> s_uid s = s_uid s' -> s = s'.
Proof.
  intros D q s s' H Hs Hs' E.
  assert (ND : NoDup (map s_uid (D ++ q_surfs q))) by (rewrite (k_uid _ _ H); apply seq_NoDup).
  revert ND Hs Hs' E. generalize (D ++ q_surfs q). clear. intros l.
  induction l as [|a l IH]; cbn; intros ND Hs Hs' E; [tauto|].
  inversion ND as [|? ? N1 N2]; subst.
  destruct Hs as [->|Hs]; destruct Hs' as [->|Hs']; auto.
  - exfalso. apply N1. rewrite E. apply in_map; auto.
  - exfalso. apply N1. rewrite <- E. apply in_map; auto.
Qed.

(** One beam-forming step preserves the surface invariant. *)
Section BeamStep.
  Variables (D : list surface) (q : que) (B : nat) (wuid : nat) (p : packet).
  Variables (seen : list nat) (t : Z) (surfs' : list surface) (wseen : bool).
  Hypothesis HK : KI D q.
  Hypothesis HB : beam_step cf o wuid p q = (seen, t, surfs', wseen).
  Hypothesis Hnew : forall a, In a (q_az q) -> a_uid a < p_uid p.
  Hypothesis Hcnt : p_counter p = p_uid p.
  Hypothesis Hseg : forall s j, In s (q_surfs q) -> gapat j -> s_loc s < j -> p_uid p < j.
  Hypothesis Hps : q_psize q = psize_of (sizes (q_az q)).
  Hypothesis Hpt : q_ptrend q = last (map a_trend (q_az q)) (-1)%Z.

  Let az' := q_az q ++ [mk_beamed (p_uid p) seen t].

  Lemma bs_seen : seen = map s_counter (last_n (c_N cf)
        (first_run (fun s => o_vis o (s_uid s) (p_uid p)) (q_surfs q)))
     /\ wseen = existsb (fun s => Nat.eqb (s_uid s) wuid)
                  (first_run (fun s => o_vis o (s_uid s) (p_uid p)) (q_surfs q))
     /\ t = trend (c_N cf) (length seen) (q_psize q) (q_ptrend q)
     /\ surfs' = pair_loop (c_N cf) p t (length seen) 0 seen (q_surfs q).
  Proof.
    unfold beam_step in HB. rewrite beam_angles_spec in HB. cbn [fst snd] in HB.
    inversion HB; subst. clear HB.
    split; auto.
    unfold last_n. rewrite map_length.
    generalize (length (first_run (fun s => o_vis o (s_uid s) (p_uid p)) (q_surfs q)) - c_N cf).
    generalize (first_run (fun s => o_vis o (s_uid s) (p_uid p)) (q_surfs q)).
    intros l n; revert l. induction n; intros [|x l]; cbn; auto.
    { rewrite map_map. reflexivity. }
  Qed.

  Lemma bs_nodup : NoDup (map s_counter (q_surfs q)).
  Proof.
    assert (E : map s_counter (D ++ q_surfs q) = seq 0 (q_next q)).
    { rewrite <- (k_uid _ _ HK). apply map_ext_in. apply (k_cnt _ _ HK). }
    rewrite map_app in E. assert (ND : NoDup (map s_counter D ++ map s_counter (q_surfs q))).
    { rewrite E. apply seq_NoDup. }
    apply NoDup_app_right in ND. exact ND.
  Qed.

  Lemma bs_sub : subseq seen (map s_counter (q_surfs q)).
  Proof.
    destruct bs_seen as (E & _). rewrite E. apply subseq_map.
    eapply subseq_trans; [apply subseq_first_run|apply subseq_last_n].
  Qed.

  Lemma bs_surfs : surfs' = map (paired (c_N cf) p t (length seen) 0 seen) (q_surfs q).
  Proof.
    destruct bs_seen as (_ & _ & _ & E). rewrite E. apply pair_loop_map; [apply bs_nodup|apply bs_sub].
  Qed.

  Lemma bs_not_done : forall s, In s D -> ~ In (s_counter s) seen.
  Proof.
    intros s Hs Hi. apply (subseq_in _ _ bs_sub) in Hi.
    assert (E : map s_counter (D ++ q_surfs q) = seq 0 (q_next q)).
    { rewrite <- (k_uid _ _ HK). apply map_ext_in. apply (k_cnt _ _ HK). }
    assert (ND : NoDup (map s_counter D ++ map s_counter (q_surfs q))).
    { rewrite <- map_app, E. apply seq_NoDup. }
    revert ND Hs Hi. generalize (map s_counter (q_surfs q)). generalize D. clear. intros D0 l.
    induction D0 as [|x D' IH]; cbn; intros ND Hs Hi; [tauto|].
    inversion ND; subst. destruct Hs as [->|Hs]; auto.
    apply H1. apply in_or_app; auto.
  Qed.

  Lemma stack_ok_unseen : forall s, stack_ok (q_az q) s -> ~ In (s_counter s) seen -> stack_ok az' s.
  Proof.
    intros s (A1 & A2 & A3) Hn. split; [|split]; auto.
    - intros e He. destruct (A2 e He) as (E1 & EV & a & E2 & E3).
      split; auto. split; auto. exists a. split; auto. apply in_or_app; auto.
    - intros a Ha Hs. apply in_app_or in Ha. destruct Ha as [Ha|[<-|[]]]; auto.
      cbn in Hs. contradiction.
  Qed.

  Lemma bs_visible : forall s, In s (q_surfs q) -> In (s_counter s) seen ->
    o_vis o (s_uid s) (p_uid p) = true.
  Proof.
    intros s Hs Hi. destruct bs_seen as (E & _). rewrite E in Hi.
    apply in_map_iff in Hi. destruct Hi as (s' & Hc & Hs').
    apply (subseq_in _ _ (subseq_last_n _ _)) in Hs'.
    pose proof (subseq_in _ _ (subseq_first_run _ _) _ Hs') as Hq.
    assert (s' = s) as ->.
    { apply (seq_uid_unique D q); auto; try (apply in_or_app; auto).
      rewrite <- !(k_cnt _ _ HK); auto; apply in_or_app; auto. }
    clear - Hs'. unfold first_run in Hs'.
    revert Hs'. generalize (drop_while (fun s0 => negb (o_vis o (s_uid s0) (p_uid p))) (q_surfs q)).
    induction l as [|x l IH]; cbn; [tauto|].
    destruct (o_vis o (s_uid x) (p_uid p)) eqn:V; cbn; [|tauto].
    intros [<-|H]; auto.
  Qed.

  Lemma stack_ok_seen : forall s i, In s (q_surfs q) -> stack_ok (q_az q) s -> find_idx (s_counter s) seen = Some i ->
    stack_ok az' (add_entry s (mk_entry (p_uid p) (p_counter p) (0 + i)
                                 (abs_index (c_N cf) (0 + i) t (length seen)))).
  Proof.
    intros s i Hin (A1 & A2 & A3) Hf. unfold stack_ok, bursts_of, add_entry; cbn.
    rewrite map_app. cbn. split; [|split].
    - apply increasing_snoc; auto. intros u Hu. apply in_map_iff in Hu.
      destruct Hu as (e & <- & He). destruct (A2 e He) as (_ & _ & a & Ha & <- & _). auto.
    - intros e He. apply in_app_or in He. destruct He as [He|[<-|[]]].
      + destruct (A2 e He) as (E1 & EV & a & E2 & E3). split; auto. split; auto.
        exists a. split; auto. apply in_or_app; auto.
      + unfold entry_ok; cbn. split; auto.
        split; [apply bs_visible; auto; eapply nth_error_In; apply find_idx_some; eauto|].
        exists (mk_beamed (p_uid p) seen t). cbn. repeat split; auto.
        * apply in_or_app; right; left; reflexivity.
        * apply find_idx_some; auto.
    - intros a Ha Hs. apply in_or_app. apply in_app_or in Ha.
      destruct Ha as [Ha|[<-|[]]]; [left; apply A3; auto|right; left; reflexivity].
  Qed.

  Lemma bs_KI : KI D (mk_que surfs' (q_packs q) (q_count q) (q_next q)
                        (Z.of_nat (length seen)) t az').
  Proof.
    destruct bs_seen as (S1 & S2 & S3 & S4).
    assert (KEY : map skey surfs' = map skey (q_surfs q)) by (rewrite S4; apply pair_loop_key).
    assert (KU : map s_uid surfs' = map s_uid (q_surfs q)) by (rewrite S4; apply pair_loop_uid).
    assert (KL : map s_loc surfs' = map s_loc (q_surfs q)) by (rewrite S4; apply pair_loop_loc).
    constructor; cbn.
    - rewrite map_app, KU, <- map_app. apply (k_uid _ _ HK).
    - apply (k_count _ _ HK).
    - intros s Hs. apply in_app_or in Hs. destruct Hs as [Hs|Hs].
      + apply (k_cnt _ _ HK). apply in_or_app; auto.
      + rewrite bs_surfs in Hs. apply in_map_iff in Hs. destruct Hs as (s0 & <- & Hs0).
        pose proof (k_cnt _ _ HK s0 (in_or_app _ _ _ (or_intror Hs0))) as C.
        unfold paired. destruct (find_idx (s_counter s0) seen); auto.
    - rewrite map_app, KL, <- map_app. apply (k_loc _ _ HK).
    - unfold az'. rewrite map_app. cbn. apply increasing_snoc; [apply (k_az _ _ HK)|].
      intros u Hu. apply in_map_iff in Hu. destruct Hu as (a & <- & Ha). auto.
    - intros s Hs. apply in_app_or in Hs. destruct Hs as [Hs|Hs].
      + apply stack_ok_unseen; [|apply bs_not_done; auto].
        apply (k_stack _ _ HK). apply in_or_app; auto.
      + rewrite bs_surfs in Hs. apply in_map_iff in Hs. destruct Hs as (s0 & <- & Hs0).
        pose proof (k_stack _ _ HK s0 (in_or_app _ _ _ (or_intror Hs0))) as C.
        unfold paired. destruct (find_idx (s_counter s0) seen) eqn:F.
        * apply stack_ok_seen; auto.
        * apply stack_ok_unseen; auto. apply find_idx_none; auto.
    - intros s Hs. apply in_app_or in Hs. destruct Hs as [Hs|Hs].
      + apply (k_seg _ _ HK). apply in_or_app; auto.
      + rewrite bs_surfs in Hs. apply in_map_iff in Hs. destruct Hs as (s0 & <- & Hs0).
        pose proof (k_seg _ _ HK s0 (in_or_app _ _ _ (or_intror Hs0))) as C.
        unfold paired. destruct (find_idx (s_counter s0) seen) eqn:F; auto.
        intros e j He Hj Hl. cbn in He, Hl. apply in_app_or in He.
        destruct He as [He|[<-|[]]]; [eapply C; eauto|]. cbn. eapply Hseg; eauto.
    - unfold az', sizes. rewrite !map_app. cbn [map a_trend a_seen length]. rewrite trends_snoc.
      rewrite (k_trend _ _ HK). f_equal. f_equal. rewrite S3. f_equal; auto.
      rewrite Hpt, (k_trend _ _ HK). reflexivity.
    - intros a c Ha Hc. unfold az' in Ha. apply in_app_or in Ha.
      destruct Ha as [Ha|[<-|[]]]; [eapply (k_seen _ _ HK); eauto|].
      cbn in Hc. apply (subseq_in _ _ bs_sub) in Hc. apply in_map_iff in Hc.
      destruct Hc as (s & <- & Hs).
      pose proof (in_or_app D (q_surfs q) s (or_intror Hs)) as Hin.
      rewrite (k_cnt _ _ HK s Hin).
      assert (In (s_uid s) (seq 0 (q_next q))) as I.
      { rewrite <- (k_uid _ _ HK). apply in_map; auto. }
      apply in_seq in I. lia.
    - intros a Ha. unfold az' in Ha. apply in_app_or in Ha.
      destruct Ha as [Ha|[<-|[]]]; [apply (k_len _ _ HK); auto|].
      cbn. rewrite S1, map_length, last_n_length. lia.
  Qed.
End BeamStep.

Lemma burst_loop_inv : forall D B wuid todo visited q e q',
  KI D (with_packs q (visited ++ todo)) -> PI B (with_packs q (visited ++ todo)) ->
  (forall p, In p visited -> p_done p = true) ->
  burst_loop cf o wuid visited todo q = (e, q') ->
  KI D q' /\ (e = None -> PI B q').
Proof.
  intros D B wuid. induction todo as [|p rest IH]; intros visited q e q' HK HP HV H;
    cbn [burst_loop] in H.
  - inversion H; subst. rewrite app_nil_r in *. split; auto.
  - destruct (p_done p) eqn:DN.
    + eapply IH in H; eauto; rewrite <- ?app_assoc; auto.
      intros p0 Hp0. apply in_app_or in Hp0. destruct Hp0 as [Hp0|[<-|[]]]; auto.
    + destruct (beam_step cf o wuid p q) as [[[seen t] surfs'] wseen] eqn:BS.
      assert (Hp : In p (visited ++ p :: rest)) by (apply in_or_app; right; left; auto).
      assert (HK0 : KI D q).
      { destruct HK; constructor; auto. }
      assert (Hn : forall a, In a (q_az q) -> a_uid a < p_uid p).
      { intros a Ha. apply (pi_new _ _ HP p a); auto. }
      pose proof (bs_KI D q wuid p seen t surfs' wseen HK0 BS Hn
                    (pi_cnt _ _ HP p Hp)
                    (fun s j Hs Hj Hl => pi_seg _ _ HP s p j Hs Hp Hj Hl)
                    (pi_psize _ _ HP) (pi_ptrend _ _ HP)) as HK'.
      destruct (azimuth_fails cf o p seen t).
      * inversion H; subst. split; [|discriminate].
        apply (KI_packs _ _ (visited ++ p :: rest)) in HK'. exact HK'.
      * (* invariant after the step *)
        set (p' := mk_packet (p_uid p) (p_counter p) (p_time p) true) in *.
        set (q2 := mk_que surfs' (q_packs q) (q_count q) (q_next q)
                     (Z.of_nat (length seen)) t (q_az q ++ [mk_beamed (p_uid p) seen t])) in *.
        assert (HK2 : KI D (with_packs q2 (visited ++ p' :: rest))) by (apply KI_packs; exact HK').
        assert (INC : forall x, In x rest -> p_uid p < p_uid x).
        { intros x Hx. pose proof (pi_inc _ _ HP) as I. cbn in I. rewrite map_app in I.
          apply increasing_app in I. destruct I as (_ & I & _). cbn in I.
          inversion I; subst. rewrite Forall_forall in H3. apply H3. apply in_map; auto. }
        assert (KL : forall s', In s' surfs' -> exists s, In s (q_surfs q) /\ s_loc s = s_loc s').
        { intros s' Hs'. assert (In (s_loc s') (map s_loc surfs')) as I by (apply in_map; auto).
          assert (map s_loc surfs' = map s_loc (q_surfs q)) as E.
          { unfold beam_step in BS. inversion BS; subst. apply pair_loop_loc. }
          rewrite E in I. apply in_map_iff in I. destruct I as (s & I1 & I2). eauto. }
        assert (HP2 : PI B (with_packs q2 (visited ++ p' :: rest))).
        { assert (MEM : forall x, In x (visited ++ p' :: rest) ->
                    exists y, In y (visited ++ p :: rest) /\ p_uid y = p_uid x
                      /\ p_counter y = p_counter x /\ p_time y = p_time x
                      /\ (p_done x = false -> y = x /\ In x rest)).
          { intros x Hx. apply in_app_or in Hx. destruct Hx as [Hx|[<-|Hx]].
            - exists x. repeat split; auto; try (apply in_or_app; auto; fail);
                match goal with Hd : p_done x = false |- _ => rewrite HV in Hd by auto; discriminate Hd end.
            - exists p. repeat split; auto; discriminate.
            - exists x. repeat split; auto. apply in_or_app; right; right; auto. }
          constructor; cbn.
          - pose proof (pi_inc _ _ HP) as I. cbn in I. rewrite map_app in *. exact I.
          - intros x Hx. destruct (MEM x Hx) as (y & Y1 & Y2 & Y3 & _).
            rewrite <- Y2, <- Y3. apply (pi_cnt _ _ HP); auto.
          - intros x Hx. destruct (MEM x Hx) as (y & Y1 & Y2 & Y3 & Y4 & _).
            rewrite <- Y2, <- Y4. apply (pi_val _ _ HP); auto.
          - intros x Hx Hd. rewrite map_app. apply in_or_app.
            apply in_app_or in Hx. destruct Hx as [Hx|[<-|Hx]].
            + left. apply (pi_done _ _ HP); auto. apply in_or_app; auto.
            + right. left. reflexivity.
            + left. apply (pi_done _ _ HP); auto. apply in_or_app; right; right; auto.
          - intros x a Hx Hd Ha. destruct (MEM x Hx) as (y & Y1 & _ & _ & _ & Y5).
            destruct (Y5 Hd) as [-> Hr].
            apply in_app_or in Ha. destruct Ha as [Ha|[<-|[]]].
            + apply (pi_new _ _ HP); auto.
            + cbn. auto.
          - intros a Ha. apply in_app_or in Ha. destruct Ha as [Ha|[<-|[]]].
            + apply (pi_az _ _ HP); auto.
            + cbn. destruct (pi_val _ _ HP p Hp). eauto.
          - intros s x j Hs Hx Hj Hl. destruct (KL s Hs) as (s0 & Hs0 & E).
            destruct (MEM x Hx) as (y & Y1 & Y2 & _). rewrite <- Y2.
            eapply (pi_seg _ _ HP); eauto. lia.
          - unfold sizes. rewrite map_app. cbn. rewrite psize_of_snoc. reflexivity.
          - rewrite map_app. cbn. rewrite last_snoc. reflexivity. }
        destruct wseen.
        -- eapply IH in H.
           ++ exact H.
           ++ rewrite <- app_assoc. exact HK2.
           ++ rewrite <- app_assoc. exact HP2.
           ++ intros x Hx. apply in_app_or in Hx. destruct Hx as [Hx|[<-|[]]]; auto.
        -- inversion H; subst. split; auto.
Qed.

(* ================================================================== *)
(** * Output *)

Definition decided (w : out) : list surface := map fst (w_done w).
Definition kept (w : out) : list surface := map fst (filter snd (w_done w)).

Record OI (w : out) : Prop := mkOI {
  oi_dec : forall s b, In (s, b) (w_done w) ->
      b = negb (Nat.ltb (stack_size cf s) (Nat.div (c_looks cf) 2));
  oi_l1b : w_l1b w = kept w;
  oi_l1bs : w_l1bs w = if c_l1bs cf then kept w else [] }.

(** what holds of the output when the surface phase raises *)
Definition RO (w0 : out) (q : que) (w : out) (e : err) : Prop :=
  w_done w = w_done w0 /\
  ((w_l1b w = w_l1b w0 /\ w_l1bs w = w_l1bs w0) \/
   (exists s rest, q_surfs q = s :: rest /\ w_l1b w = w_l1b w0 ++ [s]
      /\ stack_size cf s <? c_looks cf / 2 = false
      /\ ((e = EStackEmpty /\ w_l1bs w = if c_l1bs cf then w_l1bs w0 ++ [s] else w_l1bs w0)
          \/ (e = EWriteL1BS /\ c_l1bs cf = true /\ w_l1bs w = w_l1bs w0)))).

Lemma surface_phase_inv : forall B q w e q' w',
  KI (decided w) q -> PI B q -> OI w ->
  surface_phase cf o q w = (e, q', w') ->
  match e with
  | None => KI (decided w') q' /\ PI B q' /\ OI w'
            /\ (exists s, In s (q_surfs q) /\ map skey (q_surfs q) = skey s :: map skey (q_surfs q'))
            /\ q_next q' = q_next q
  | Some e => KI (decided w) q' /\ RO w q' w' e /\ map skey (q_surfs q') = map skey (q_surfs q)
  end.
Proof.
  intros B q w e q' w' HK HP HO H. unfold surface_phase in H.
  destruct (q_surfs q) as [|s0 sr] eqn:ES.
  { inversion H; subst. split; auto. split; [split; auto; left; auto|]. now rewrite ES. }
  destruct (burst_loop cf o (s_uid s0) [] (q_packs q) q) as [e1 q1] eqn:BL.
  pose proof (burst_loop_keys _ _ _ _ _ _ _ _ BL) as (KS & KP & KC & KN).
  assert (I : KI (decided w) q1 /\ (e1 = None -> PI B q1)).
  { eapply burst_loop_inv; eauto.
    - cbn. apply KI_packs; auto.
    - cbn. destruct HP; constructor; auto.
    - cbn. tauto. }
  destruct I as (HK1 & HP1).
  rewrite ES in KS.
  destruct e1 as [e1|].
  { inversion H; subst. split; auto. split; [split; auto; left; auto|]. auto. }
  specialize (HP1 eq_refl).
  destruct (q_surfs q1) as [|s1 rest] eqn:E1; [discriminate|].
  assert (POP : forall b ps, subseq ps (q_packs q1) ->
     b = negb (Nat.ltb (stack_size cf s1) (Nat.div (c_looks cf) 2)) ->
     KI (map fst (w_done w ++ [(s1, b)])) (set_packs_surfs q1 ps rest)
     /\ PI B (set_packs_surfs q1 ps rest)).
  { intros b ps Hps Hb. split.
    - assert (EQ : map fst (w_done w ++ [(s1, b)]) ++ rest = decided w ++ q_surfs q1).
      { rewrite map_app. cbn. rewrite <- app_assoc. cbn. rewrite E1. reflexivity. }
      destruct HK1. constructor; cbn; rewrite ?EQ; auto.
    - assert (SUB : forall p, In p ps -> In p (q_packs q1)) by (apply subseq_in; auto).
      destruct HP1. constructor; cbn; auto.
      + eapply increasing_subseq; [|eauto]. apply subseq_map; auto.
      + intros s p j Hs Hp Hj Hl. apply (pi_seg0 s p j); auto. rewrite E1. right; auto. }
  assert (OIF : stack_size cf s1 <? c_looks cf / 2 = false ->
     OI (mk_out (w_l1b w ++ [s1]) (if c_l1bs cf then w_l1bs w ++ [s1] else w_l1bs w)
                (w_done w ++ [(s1, true)]))).
  { intros LT. destruct HO. constructor; cbn.
    - intros s b Hs. apply in_app_or in Hs. destruct Hs as [Hs|[Hs|[]]]; eauto.
      inversion Hs; subst. now rewrite LT.
    - unfold kept. cbn. rewrite filter_app, map_app. cbn. rewrite oi_l1b0. reflexivity.
    - unfold kept. cbn. rewrite filter_app, map_app. cbn.
      rewrite oi_l1bs0. destruct (c_l1bs cf); reflexivity. }
  assert (KEYS : exists s, In s (s0 :: sr) /\ skey s0 :: map skey sr = skey s :: map skey rest).
  { exists s0. split; [left; auto|]. cbn in KS. now inversion KS. }
  destruct (stack_size cf s1 <? c_looks cf / 2) eqn:LT.
  { inversion H; subst; clear H.
    destruct (POP false (q_packs q1) (subseq_refl _) eq_refl) as (K2 & P2).
    split; auto. split; auto. split.
    - destruct HO. constructor; cbn.
      + intros s b Hs. apply in_app_or in Hs. destruct Hs as [Hs|[Hs|[]]]; eauto.
        inversion Hs; subst. now rewrite LT.
      + unfold kept. cbn. rewrite filter_app, map_app. cbn. rewrite app_nil_r. auto.
      + unfold kept. cbn. rewrite filter_app, map_app. cbn. rewrite app_nil_r. auto.
    - split; auto. }
  destruct (o_corr_fail o (s_uid s1)).
  { inversion H; subst. split; auto. split; [split; auto; left; auto|]. rewrite E1. auto. }
  destruct (o_w1_fail o (s_uid s1)).
  { inversion H; subst. split; auto. split; [split; auto; left; auto|]. rewrite E1. auto. }
  destruct (c_l1bs cf && o_w2_fail o (s_uid s1)) eqn:W2.
  { inversion H; subst. split; auto. split; [|rewrite E1; auto]. split; auto. right.
    exists s1, rest. cbn. repeat (split; auto). right. apply andb_true_iff in W2. tauto. }
  specialize (OIF eq_refl).
  destruct (q_packs q1) as [|p0 ps] eqn:EP.
  - inversion H; subst; clear H.
    destruct (POP true [] (sub_nil _)) as (K2 & P2); [reflexivity|].
    split; [exact K2|]. split; [exact P2|]. split; [exact OIF|]. split; auto.
  - destruct (s_stack s1) as [|e0 er] eqn:EST.
    + inversion H; subst. split; auto. split; [|rewrite E1; auto]. split; auto. right.
      exists s1, rest. cbn. repeat (split; auto).
    + inversion H; subst; clear H.
      destruct (POP true (drop_until (e_counter e0) (p0 :: ps)) (drop_until_subseq _ _)) as (K2 & P2);
        [reflexivity|].
      split; [exact K2|]. split; [exact P2|]. split; [exact OIF|]. split; auto.
Qed.

End Inv.
