(** C134: what a run holds in memory. *)
From Coq Require Import List ZArith QArith Bool Lia Arith Sorted.
From Verif Require Import Common ChainModel ChainSpec ChainAux ChainProofs ChainInv ChainMain ChainFacts ChainProps FullSpec FullProofs FullProps LongSpec LongProofs HeldSpec HeldProofs.
Import ListNotations.
Local Open Scope nat_scope.

(** At no time more surfaces are held than must be located before the first is processed. *)
Theorem C134_surfaces : forall cf o cancel input f, 1 <= c_min cf -> surfaces_held (after cf o cancel input f) <= c_min cf.
Proof. intros cf o cancel input f M. apply loop_surfs; [exact M|]. cbn. lia. Qed.
Print Assumptions C134_surfaces.

(** The bursts held are the last valid records dealt with, all of them as long as no surface has been
    written; and a burst before the first look of a surface written is not held any more. *)
Theorem C134_bursts : forall cf o cancel input f, let s := after cf o cancel input f in
  (exists released, valid_numbers input (dealt s) = released ++ bursts_held s) /\
  ((forall x b, In (x, b) (w_done (s_out s)) -> b = false) -> bursts_held s = valid_numbers input (dealt s)) /\
  (forall x e r u, In (x, true) (w_done (s_out s)) -> s_stack x = e :: r -> In u (bursts_held s) -> e_uid e <= u).
Proof.
  intros cf o cancel input f s. destruct (loop_held cf o input cancel f 0 _ (init_inv cf o input) (init_held input)) as (pre & E & N & F).
  fold (after cf o cancel input f) in E, N, F. fold s in E, N, F. split; [exists pre; exact E|]. split; [|exact F].
  intros H. rewrite E, (N H). reflexivity.
Qed.
Print Assumptions C134_bursts.

(** ** A bound *)
Lemma chain_loc : forall d r (l : list surface) a L, L = l ++ a :: r ->
  (forall l a b r, L = l ++ a :: b :: r -> s_loc b <= s_loc a + d) ->
  forall l' z, L = l' ++ [z] -> s_loc z <= s_loc a + d * length r.
Proof.
  intros d. induction r as [|b r IH]; intros l a L E H l' z Z.
  - rewrite E in Z. apply app_inj_tail in Z. destruct Z as (_ & <-). lia.
  - specialize (IH (l ++ [a]) b L ltac:(rewrite <- app_assoc; exact E) H l' z Z). specialize (H l a b r E). cbn [length]. lia.
Qed.
Lemma list_last : forall {A} (l : list A), l = [] \/ exists l' z, l = l' ++ [z].
Proof. intros A l. destruct l as [|x l]; [auto|]. right. destruct (exists_last (l := x :: l)) as (l' & z & E); [discriminate|]. eauto. Qed.
Lemma numbers_in : forall input k u, In u (valid_numbers input k) -> u < k.
Proof. intros input k u H. unfold valid_numbers in H. apply filter_In in H. destruct H as (H & _). apply in_seq in H. lia. Qed.
Lemma numbers_nodup : forall input k, NoDup (valid_numbers input k).
Proof. intros. apply NoDup_filter, seq_NoDup. Qed.
Lemma filter_all : forall {A} (g : A -> bool) l, (forall x, In x l -> g x = true) -> filter g l = l.
Proof.
  intros A g l H. induction l as [|x l IH]; [reflexivity|]. cbn [filter]. rewrite (H x (or_introl eq_refl)), IH; [reflexivity|].
  intros y Y. apply H. right. exact Y.
Qed.
Lemma between : forall (l : list nat) a b, NoDup l -> (forall u, In u l -> a <= u < b) -> length l <= b - a.
Proof.
  intros l a b N H. rewrite <- (seq_length (b - a) a). apply NoDup_incl_length; [exact N|]. intros u U. apply in_seq. specialize (H u U). lia.
Qed.

(** If surfaces are located every [d] records, all have enough looks to be written, and the first look
    of a surface is at most [v] records before the one it was located at, then the number of bursts
    held does not depend on the length of the recording. *)
Theorem C134_bounded_partial : forall cf o cancel input f d v, 1 <= c_min cf -> let s := after cf o cancel input f in
  located_every d s ->
  (forall x b, In (x, b) (w_done (s_out s)) -> b = true /\ exists e r, s_stack x = e :: r /\ s_loc x <= e_uid e + v) ->
  length (bursts_held s) <= v + d * S (c_min cf).
Proof.
  intros cf o cancel input f d v M s (L0 & L1 & L2 & L3) W. destruct (C134_bursts cf o cancel input f) as ((pre & E) & _ & F). fold s in E, F.
  pose proof (C134_surfaces cf o cancel input f M) as SH. fold s in SH. unfold surfaces_held in SH.
  assert (ND : NoDup (bursts_held s)) by (apply (NoDup_app_right pre); rewrite <- E; apply numbers_nodup).
  assert (LT : forall u, In u (bursts_held s) -> u < dealt s) by (intros u U; apply (numbers_in input); rewrite E; apply in_or_app; right; exact U).
  assert (B0 : length (bursts_held s) <= dealt s) by (rewrite <- (Nat.sub_0_r (dealt s)); apply between; [exact ND|]; intros u U; specialize (LT u U); lia).
  unfold known_surfaces in *. destruct (list_last (w_done (s_out s))) as [D|(l & [x b] & D)].
  - rewrite D in *. cbn [map app] in *. destruct (list_last (q_surfs (s_q s))) as [Q|(l' & z & Q)].
    + specialize (L3 Q). cbn [Nat.mul]. nia.
    + specialize (L2 l' z Q). destruct (q_surfs (s_q s)) as [|a r] eqn:QQ; [destruct l'; discriminate|].
      pose proof (chain_loc d r [] a (a :: r) eq_refl L1 l' z Q). specialize (L0 a r eq_refl). cbn [length] in SH. nia.
  - destruct (W x b) as (-> & e & r & SS & LX); [rewrite D; apply in_or_app; right; left; reflexivity|].
    assert (BE : length (bursts_held s) <= dealt s - e_uid e).
    { apply between; [exact ND|]. intros u U. split; [|apply LT; exact U]. apply (F x e r u); [rewrite D; apply in_or_app; right; left; reflexivity|exact SS|exact U]. }
    rewrite D, map_app in *. cbn [map fst] in *. rewrite <- app_assoc in *. cbn [app] in *.
    destruct (list_last (map fst l ++ x :: q_surfs (s_q s))) as [Q|(l' & z & Q)]; [destruct (map fst l); discriminate|].
    specialize (L2 l' z Q). pose proof (chain_loc d _ _ x _ eq_refl L1 l' z Q). nia.
Qed.
Print Assumptions C134_bounded_partial.

(** Without enough looks no burst is ever released: for every length there is a regular pass after
    which all bursts of the recording are held. *)
Definition cf_looks : cfg := mk_cfg 64 100 80 (3 # 2) false true.
Theorem C134_bounded_refuted : forall k, exists cf o lo hi input,
  c_min cf = 80 /\ c_N cf = 64 /\ no_failures o /\ regular cf o lo hi /\ all_valid input /\ gapless cf input /\ length input = k /\
  length (bursts_held (final (run cf o no_cancel input))) = k.
Proof.
  intros k. exists cf_looks, o_reg, pred, S, (track 0 k).
  assert (R : regular cf_looks o_reg pred S) by (apply o_reg_regular; lia).
  assert (V : all_valid (track 0 k)) by apply track_valid. assert (G : gapless cf_looks (track 0 k)) by apply track_gapless.
  assert (LK : length (track 0 k) = k) by (unfold track; rewrite map_length, seq_length; reflexivity).
  assert (M : c_N cf_looks + 2 <= c_min cf_looks) by (vm_compute; lia).
  split; [reflexivity|]. split; [reflexivity|]. split; [repeat split|]. split; [exact R|]. split; [exact V|]. split; [exact G|]. split; [exact LK|].
  destruct (C134_bursts cf_looks o_reg no_cancel (track 0 k) (enough [] (track 0 k))) as (_ & N & _).
  change (after cf_looks o_reg no_cancel (track 0 k) (enough [] (track 0 k))) with (final (run cf_looks o_reg no_cancel (track 0 k))) in N.
  rewrite N.
  - assert (D : dealt (final (run cf_looks o_reg no_cancel (track 0 k))) = k).
    { destruct (C10_causes_partial cf_looks o_reg no_cancel (track 0 k)) as [(s & c & E)|[(s & E & RE & _)|[(s & p & E & _)|(s & a & E & A & _)]]];
        [vm_compute; lia|vm_compute; lia|repeat split|intros I; unfold all_valid in V; rewrite Forall_forall in V; destruct (V _ I); discriminate| | | |].
      - pose proof (run_ok cf_looks o_reg (track 0 k) no_cancel) as OK.
        assert (c = false) as ->.
        { destruct c; [|reflexivity]. exfalso. assert (X : forall f k' s0 s', loop cf_looks o_reg 0 no_cancel f k' s0 <> OEnd s' true).
          { induction f as [|f IH]; intros k' s0 s'; cbn [loop]; [discriminate|]. destruct (body cf_looks o_reg 0 s0); [apply IH|discriminate|discriminate]. }
          exact (X _ _ _ _ E). }
        pose proof (C09_all_valid_partial cf_looks o_reg no_cancel (track 0 k) s ltac:(vm_compute; lia) V E) as NN.
        rewrite E in *. cbn [final out_ok] in *. destruct OK as (_ & _ & G1 & G2). unfold dealt. rewrite G1, G2. cbn [orb]. congruence.
      - pose proof (run_ok cf_looks o_reg (track 0 k) no_cancel) as OK. rewrite E in *. cbn [final out_ok] in *.
        assert (GG : i_gap (s_in s) || i_resume (s_in s) = false).
        { destruct (i_gap (s_in s) || i_resume (s_in s)) eqn:GE; [|reflexivity]. destruct (ir_gap _ _ _ _ _ OK GE) as (j & _ & GJ). exfalso. exact (G j GJ). }
        unfold dealt. rewrite GG. pose proof (ir_rest _ _ _ _ _ OK) as IR. pose proof (ir_n _ _ _ _ _ OK) as IN. rewrite RE in IR.
        apply (f_equal (@length _)) in IR. rewrite skipn_length, LK in IR. cbn in IR. rewrite LK in IN. lia.
      - exfalso. exact (C112_no_missing_burst cf_looks o_reg pred S no_cancel (track 0 k) s R M V G E).
      - discriminate A. }
    rewrite D. unfold valid_numbers.
    assert (FA : forall n, n <= k -> filter (valid_record (track 0 k)) (seq 0 n) = seq 0 n).
    { intros n L. apply filter_all. intros x X. apply in_seq in X. unfold valid_record.
      destruct (nth_error (track 0 k) x) as [it|] eqn:NE; [|apply nth_error_None in NE; lia].
      apply nth_error_In in NE. unfold all_valid in V. rewrite Forall_forall in V. destruct (V _ NE) as (t & ->). reflexivity. }
    rewrite FA by lia. apply seq_length.
  - intros x b X. destruct b; [|reflexivity]. exfalso.
    pose proof (C112_stack_complete cf_looks o_reg pred S no_cancel (track 0 k) x true R M V G X) as SC.
    pose proof (proj1 (decided_iff cf_looks o_reg no_cancel (track 0 k) x true X) eq_refl) as LE.
    assert (L3 : length (bursts_of x) <= S (S (s_uid x)) - pred (s_uid x)).
    { apply between; [rewrite SC; apply NoDup_filter, seq_NoDup|]. intros u U. rewrite SC in U. apply filter_In in U. destruct U as (_ & U).
      apply (r_vis _ _ _ _ R) in U. lia. }
    unfold bursts_of in L3. rewrite map_length in L3. change (c_looks cf_looks / 2) with 50 in LE. lia.
Qed.
Print Assumptions C134_bounded_refuted.

(** The same pass with four looks asked for: at most a few bursts more than surfaces. *)
Example C134_example : let s := after cf6 o_reg no_cancel (track 0 40) 40 in
  length (bursts_held s) = 7 /\ surfaces_held s = 5 /\ dealt s = 40 /\ map snd (w_done (s_out s)) = repeat true 35 /\
  length (bursts_held (after (mk_cfg 4 100 6 (3 # 2) false true) o_reg no_cancel (track 0 40) 40)) = 40.
Proof. vm_compute. repeat split. Qed.

(** The bound's premises hold of it: a surface every record, first looks one record back. *)
Lemma located_seq : forall d s n, map s_loc (known_surfaces s) = seq 0 n -> 1 <= d -> dealt s <= n -> located_every d s.
Proof.
  intros d s n E D L. assert (LEN : length (known_surfaces s) = n) by (rewrite <- (map_length s_loc), E; apply seq_length).
  assert (AT : forall k x, nth_error (known_surfaces s) k = Some x -> s_loc x = k).
  { intros k x H. assert (K : k < n) by (rewrite <- LEN; apply nth_error_Some; congruence).
    apply (map_nth_error s_loc) in H. rewrite E, (nth_error_nth' _ 0) in H by (rewrite seq_length; lia). rewrite seq_nth in H by lia. inversion H. lia. }
  repeat split.
  - intros x r H. rewrite (AT 0 x) by (rewrite H; reflexivity). lia.
  - intros l a b r H. rewrite (AT (length l) a), (AT (S (length l)) b); [lia| |].
    + rewrite H, nth_error_app2 by lia. replace (S (length l) - length l) with 1 by lia. reflexivity.
    + rewrite H, nth_error_app2 by lia. rewrite Nat.sub_diag. reflexivity.
  - intros l a H. rewrite (AT (length l) a); [|rewrite H, nth_error_app2 by lia; rewrite Nat.sub_diag; reflexivity].
    rewrite H, app_length in LEN. cbn in LEN. lia.
  - intros H. rewrite H in LEN. cbn in LEN. lia.
Qed.
Definition written_near (v : nat) (y : surface * bool) : bool :=
  snd y && match s_stack (fst y) with e :: _ => s_loc (fst y) <=? e_uid e + v | [] => false end.
Lemma near_all : forall v l, forallb (written_near v) l = true ->
  forall x b, In (x, b) l -> b = true /\ exists e r, s_stack x = e :: r /\ s_loc x <= e_uid e + v.
Proof.
  intros v l F x b I. rewrite forallb_forall in F. specialize (F _ I). unfold written_near in F. cbn [fst snd] in F. apply andb_prop in F. destruct F as (B & A).
  split; [exact B|]. destruct (s_stack x) as [|e r]; [discriminate|]. exists e, r. split; [reflexivity|]. apply Nat.leb_le. exact A.
Qed.
Example C134_bounded_example : let s := after cf6 o_reg no_cancel (track 0 40) 40 in
  located_every 1 s /\ (forall x b, In (x, b) (w_done (s_out s)) -> b = true /\ exists e r, s_stack x = e :: r /\ s_loc x <= e_uid e + 1).
Proof.
  intros s. assert (E : (map s_loc (known_surfaces s), dealt s, forallb (written_near 1) (w_done (s_out s))) = (seq 0 40, 40, true)) by (vm_compute; reflexivity).
  revert E. generalize s. clear s. intros s E. injection E as E1 E2 E3. split; [|apply near_all; exact E3].
  apply (located_seq 1 s 40); [exact E1|apply le_n|rewrite E2; apply le_n].
Qed.
