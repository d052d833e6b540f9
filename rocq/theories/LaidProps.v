(** C137: what a run with its geometry puts out, said without the loop. *)
From Coq Require Import List ZArith QArith Reals Bool Lia Lra Arith.
From Verif Require Import Common GeoModel ChainModel ChainSpec ChainAux ChainInv ChainMain ChainFacts ChainProps FullSpec HeldSpec SplitProofs HoleSpec HoleProofs ManySpec ManyProofs ManyProps.
From Verif Require Import WholeModel WholeSpec WholeProofs LaidSpec LaidProofs.
From Verif Require SurfModel.
Import ListNotations.
Local Open Scope nat_scope.

Lemma filter_twice : forall A (f g : A -> bool) l, filter f (filter g l) = filter (fun x => g x && f x) l.
Proof.
  intros A f g. induction l as [|x l IH]; [reflexivity|]. cbn. destruct (g x); cbn; [|exact IH]. destruct (f x); now rewrite IH.
Qed.
Lemma filter_numbers : forall (f : nat -> bool) (l : list (surface * bool)), (forall s b, In (s, b) l -> b = f (s_counter s)) ->
  map s_counter (map fst (filter snd l)) = filter f (map s_counter (map fst l)).
Proof.
  intros f. induction l as [|[s b] l IH]; intros H; [reflexivity|]. cbn [map fst filter snd]. rewrite <- (H s b (or_introl eq_refl)).
  specialize (IH (fun s b I => H s b (or_intror I))). destruct b; cbn [map fst]; now rewrite IH.
Qed.

Lemma Forall2_find : forall A B (P : A -> B -> Prop) l l' x, Forall2 P l l' -> In x l -> exists y, In y l' /\ P x y.
Proof.
  intros A B P l l' x F. induction F as [|a b l l' H F IH]; intros I; [destruct I|]. destruct I as [<-|I]; [exists b; split; [now left|exact H]|].
  destruct (IH I) as (y & Y1 & Y2). exists y. split; [now right|exact Y2].
Qed.
Lemma product_records : forall p s, product_for p s -> records_in p = bursts_of s.
Proof.
  intros p s (_ & H). unfold records_in, bursts_of. rewrite <- (map_map fst fst), H, map_map. reflexivity.
Qed.

Section Steady.
Variables (u : setup) (input : list witem).
Notation cf := (u_cf u).
Notation items := (map erase input).
Hypothesis ST : steady u input.

Lemma start_ok : forall it l, items = it :: l -> it <> Nothing.
Proof.
  intros it l E. pose proof (d_start _ _ ST) as H. destruct input as [|i l']; [discriminate|]. cbn in E. injection E as <- _.
  specialize (H i l' eq_refl). destruct i; cbn; congruence.
Qed.

Lemma records_kept : forall vis located s, seen_as u input vis -> located <= length (laid u input) -> s_uid s < located ->
  kept_by (c_N cf) located (og u input vis) items s = records_for u input located (s_uid s).
Proof.
  intros vis located s SEE LE LT. unfold kept_by, records_for, valid_numbers. rewrite map_length, filter_twice. apply filter_ext_in. intros p I.
  assert (IS : forall x, x < length (laid u input) -> valid_record items p && o_vis (og u input vis) x p = in_sight u input x p).
  { intros x X. unfold in_sight. destruct (nth_error (laid u input) x) as [[r e]|] eqn:N; [|apply nth_error_None in N; lia].
    destruct (valid_record items p) eqn:V.
    - apply (ok_input input) in V as (rc & V). rewrite V. cbn [andb og o_vis pass_oracle]. exact (SEE x _ r e _ N (bs_nth u input p rc V)).
    - cbn [andb]. destruct (nth_error input p) as [[rc| |]|] eqn:W; try reflexivity. exfalso.
      assert (valid_record items p = true) by (apply (ok_input input); eauto). congruence. }
  destruct (s_uid s + c_N cf <? located) eqn:B.
  - apply Nat.ltb_lt in B. rewrite <- (IS (s_uid s)), <- (IS (s_uid s + c_N cf)) by lia. destruct (valid_record items p); cbn [andb negb]; reflexivity.
  - cbn [andb negb]. rewrite !andb_true_r. rewrite <- (IS (s_uid s)) by lia. reflexivity.
Qed.

Lemma end_facts : forall cancel w c, whole u cancel input = WEnd w c ->
  Forall2 product_for (x_out w) (map fst (filter snd (w_done (s_out (x_s w))))) /\
  q_count (s_q (x_s w)) <= length (laid u input) /\ (c = false -> q_count (s_q (x_s w)) = length (laid u input)) /\
  (c = false -> numbers (map fst (w_done (s_out (x_s w)))) = seq 0 (q_count (s_q (x_s w)))) /\
  forall s b, In (s, b) (w_done (s_out (x_s w))) -> bursts_of s = records_for u input (q_count (s_q (x_s w))) (s_counter s) /\
    (b = true <-> c_looks cf / 2 <= length (s_stack s)).
Proof.
  intros cancel w c E. destruct (d_sight _ _ ST) as (vis & lo & hi & M & SEE & SG & CM).
  pose proof (whole_sim u input vis lo hi M (d_focus _ _ ST) (d_fuel _ _ ST) SG SEE CM start_ok (d_gap _ _ ST) cancel) as (SE & _ & QN & _).
  rewrite E in SE, QN. cbn [wfinal] in QN. cbn [same_end] in SE.
  destruct (run cf (og u input vis) cancel items) as [s1 c1|e s1|s1] eqn:R; try contradiction. destruct SE as (<- & <-).
  pose proof (whole_products u input cancel) as WP. rewrite E in WP. cbn [wfinal] in WP.
  destruct (out_all cf (og u input vis) cancel items) as (K & w0 & HO & HD & HW). rewrite R in K, HD, HW. cbn [final] in K, HD, HW.
  pose proof (count_next cf (og u input vis) cancel items) as CN. rewrite R in CN. cbn [final] in CN. cbv zeta in CN.
  assert (QL : q_count (s_q (x_s w)) <= length (laid u input)).
  { rewrite CN, QN. destruct (L_rest u input (d_fuel _ _ ST) (i_n (s_in (x_s w)))) as (l & -> & _). rewrite app_length. lia. }
  assert (DF : forall s b, In (s, b) (w_done (s_out (x_s w))) -> bursts_of s = records_for u input (q_count (s_q (x_s w))) (s_counter s) /\
    (b = true <-> c_looks cf / 2 <= length (s_stack s))).
  { intros s b I. assert (J : In (s, b) (w_done (s_out (final (run cf (og u input vis) cancel items))))) by (rewrite R; exact I).
    split; [|exact (decided_iff cf (og u input vis) cancel items s b J)].
    pose proof (C136_stack cf M _ _ lo hi cancel items s b SG (og_as u input vis) CM start_ok (d_gap _ _ ST) J) as X. rewrite R in X. cbn [final] in X.
    assert (IK : In s (decided (s_out (x_s w)) ++ q_surfs (s_q (x_s w)))) by (apply in_or_app; left; apply (in_map fst) in I; exact I).
    rewrite (k_cnt _ _ _ _ _ K s IK). rewrite X. apply records_kept; [exact SEE|exact QL|].
    pose proof (k_uid _ _ _ _ _ K) as KU. apply (in_map s_uid) in IK. rewrite KU in IK. apply in_seq in IK. rewrite CN. lia. }
  split.
  { destruct HW as [(HW & _)|(s & rest & Q & HW & _)].
    - rewrite HW, (oi_l1b _ _ HO) in WP. unfold kept in WP. rewrite <- HD in WP. exact WP.
    - exfalso. pose proof (run_ok cf (og u input vis) items cancel) as H. rewrite R in H. cbn in H.
      assert (H' : II0 cf (og u input vis) items (s_in (x_s w)) (s_q (x_s w)) (s_out (x_s w)) (s_mon (x_s w))).
      { destruct c; destruct H as (H & _); exact H. }
      pose proof (oi_l1b _ _ (ii_O _ _ _ _ _ _ _ H')) as O1. unfold kept in O1. rewrite HD in O1. fold (kept w0) in O1. rewrite <- (oi_l1b _ _ HO), HW in O1.
      apply (f_equal (@length _)) in O1. rewrite app_length in O1. cbn in O1. lia. }
  split; [exact QL|]. split.
  { intros ->. pose proof (proj1 (C136_every_surface cf M _ _ lo hi cancel items _ SG (og_as u input vis) CM start_ok (d_gap _ _ ST) R)) as RK.
    rewrite CN, QN. f_equal. exact (L_all u input _ RK). }
  split; [|exact DF]. intros ->. exact (proj2 (end_drained cf _ cancel items _ R)).
Qed.

Lemma surfaces_laid : forall cancel p, In p (x_out (wfinal (whole u cancel input))) ->
  exists r x, nth_error (laid u input) (pr_number p) = Some (r, x) /\ pr_surf p = Some x.
Proof.
  intros cancel p I. destruct (d_sight _ _ ST) as (vis & lo & hi & M & SEE & SG & CM).
  pose proof (whole_sim u input vis lo hi M (d_focus _ _ ST) (d_fuel _ _ ST) SG SEE CM start_ok (d_gap _ _ ST) cancel) as (_ & SH & _).
  rewrite Forall_forall in SH. exact (SH p I).
Qed.

Lemma stack_records : forall cancel w c p, whole u cancel input = WEnd w c -> In p (x_out w) ->
  records_in p = records_for u input (q_count (s_q (x_s w))) (pr_number p) /\ q_count (s_q (x_s w)) <= length (laid u input).
Proof.
  intros cancel w c p E I. destruct (end_facts cancel w c E) as (F & QL & _ & _ & DF). split; [|exact QL].
  destruct (Forall2_find _ _ _ _ _ p F I) as (s & J & PF). apply in_map_iff in J as ([s' b] & <- & J). cbn [fst] in PF.
  apply filter_In in J as (J & _). rewrite (product_records _ _ PF), (proj1 PF). exact (proj1 (DF _ b J)).
Qed.

Definition enough_for (s : nat) : bool := c_looks cf / 2 <=? length (records_for u input (length (laid u input)) s).
Lemma output_numbers : forall cancel w, whole u cancel input = WEnd w false ->
  map pr_number (x_out w) = filter enough_for (seq 0 (length (laid u input))).
Proof.
  intros cancel w E. destruct (end_facts cancel w false E) as (F & _ & QL & NU & DF). specialize (QL eq_refl). specialize (NU eq_refl).
  transitivity (map s_counter (map fst (filter snd (w_done (s_out (x_s w)))))).
  { clear - F. induction F as [|p s ps ss H F IH]; [reflexivity|]. cbn [map]. rewrite IH, (proj1 H). reflexivity. }
  rewrite QL in NU. rewrite <- NU. apply filter_numbers. intros s b I. destruct (DF s b I) as (D1 & D2). unfold enough_for.
  rewrite <- QL, <- D1. unfold bursts_of. rewrite map_length. destruct b.
  - symmetry. apply Nat.leb_le. apply D2. reflexivity.
  - symmetry. apply Nat.leb_gt. destruct (Nat.le_gt_cases (c_looks cf / 2) (length (s_stack s))) as [L|L]; [apply D2 in L; discriminate|exact L].
Qed.
End Steady.
(** The product of surface [s], if there is one, lies where surface [s] was laid. *)
Theorem C137_surfaces : forall u input cancel p, steady u input -> In p (x_out (wfinal (whole u cancel input))) ->
  exists r x, nth_error (laid u input) (pr_number p) = Some (r, x) /\ pr_surf p = Some x.
Proof. intros u input cancel p ST. exact (surfaces_laid u input ST cancel p). Qed.
Print Assumptions C137_surfaces.

(** Its stack holds the records that see that surface, but for those that see, of
    the surfaces located, the one [N] further, also when the run is cancelled. *)
Theorem C137_stack : forall u input cancel w c p, steady u input -> whole u cancel input = WEnd w c -> In p (x_out w) ->
  records_in p = records_for u input (q_count (s_q (x_s w))) (pr_number p) /\ q_count (s_q (x_s w)) <= length (laid u input).
Proof. intros u input cancel w c p ST. exact (stack_records u input ST cancel w c p). Qed.
Print Assumptions C137_stack.

(** When the run ends by itself the products are those of the surfaces with
    enough such records, in order. *)
Theorem C137_output : forall u input cancel w, steady u input -> whole u cancel input = WEnd w false ->
  let n := length (laid u input) in
  map (fun p => (pr_number p, records_in p)) (x_out w) =
  map (fun s => (s, records_for u input n s))
    (filter (fun s => c_looks (u_cf u) / 2 <=? length (records_for u input n s)) (seq 0 n)).
Proof.
  intros u input cancel w ST E n. pose proof (output_numbers u input ST cancel w E) as N. unfold enough_for in N. unfold n. rewrite <- N, map_map. apply map_ext_in. intros p I. f_equal.
  rewrite (proj1 (stack_records u input ST cancel w false p E I)). destruct (end_facts u input ST cancel w false E) as (_ & _ & QL & _). rewrite (QL eq_refl). reflexivity.
Qed.
Print Assumptions C137_output.

(** A record is missing from the stack of a surface it sees only if it also sees
    the one [N] further. *)
Theorem C137_seen : forall u input located s p, In p (records_for u input located s) <->
  in_sight u input s p = true /\ (s + c_N (u_cf u) < located -> in_sight u input (s + c_N (u_cf u)) p = false).
Proof.
  intros u input located s p. unfold records_for. rewrite filter_In, in_seq, andb_true_iff, negb_true_iff, andb_false_iff, Nat.ltb_ge.
  split.
  - intros (_ & A & B). split; [exact A|]. intros L. destruct B as [B|B]; [lia|exact B].
  - intros (A & B). split.
    + split; [lia|]. unfold in_sight in A. destruct (nth_error (laid u input) s) as [[r x]|]; [|discriminate].
      cbn. apply nth_error_Some. destruct (nth_error input p); [discriminate|discriminate].
    + split; [exact A|]. destruct (Nat.lt_ge_cases (s + c_N (u_cf u)) located) as [L|L]; auto.
Qed.
Print Assumptions C137_seen.

(** Such a run ends by itself when no step fails and there are [c_min] surfaces at
    least. *)
Theorem C137_ends : forall u input, steady u input -> 2 <= c_looks (u_cf u) -> c_approx (u_cf u) = false ->
  (forall x, u_az_fail u x = false /\ u_corr_fail u x = false /\ u_w1_fail u x = false /\ u_w2_fail u x = false) ->
  (forall r, In (WValid r) input -> lowest u (prepared u r) <> None) -> ~ In WFail input ->
  c_min (u_cf u) <= length (laid u input) ->
  exists w, whole u no_cancel input = WEnd w false.
Proof.
  intros u input ST LK AP NFL LOW NR LEN. destruct (d_sight _ _ ST) as (vis & lo & hi & M & SEE & SG & CM).
  destruct (whole_sim u input vis lo hi M (d_focus _ _ ST) (d_fuel _ _ ST) SG SEE CM (start_ok u input ST) (d_gap _ _ ST) no_cancel) as (SE & _ & QN & EA).
  set (o := og u input vis) in *.
  assert (NF : no_failures o).
  { split; [|split; [|split]]; intros x; destruct (NFL x) as (N1 & N2 & N3 & N4); cbn [o og o_az_fail o_corr_fail o_w1_fail o_w2_fail oracle0 oracle_at]; auto.
    rewrite N1. cbn [orb]. destruct (data u input x) as [b|] eqn:D; [|reflexivity]. unfold data, record_of in D.
    destruct (nth_error input x) as [[r| |]|] eqn:N; try discriminate. injection D as <-. apply nth_error_In in N. specialize (LOW r N).
    destruct (lowest u (prepared u r)); [reflexivity|congruence]. }
  assert (RF : ~ In ReadFail (map erase input)).
  { intros I. apply in_map_iff in I as ([r| |] & E & I); try discriminate. contradiction. }
  destruct (C10_causes_partial (u_cf u) o no_cancel (map erase input) ltac:(lia) LK NF RF) as [(s & c & E)|[(s & E & E1 & E2)|[(s & p & E & _)|(s & a & _ & AP' & _)]]].
  - rewrite E in SE. destruct (whole u no_cancel input) as [w c'|e w|w] eqn:W; try contradiction. destruct SE as (_ & ->).
    destruct c; [|eauto]. exfalso. unfold run, run_from in E. revert E. generalize 0 at 2 as k, (init [] [] 0 (map erase input)) as s0, (enough [] (map erase input)) as f.
    intros k s0 f. revert k s0. induction f as [|f IH]; intros k s0; cbn [loop]; [discriminate|].
    destruct (body (u_cf u) o 0 s0); try discriminate. unfold no_cancel at 1. apply IH.
  - exfalso. rewrite E in SE. destruct (whole u no_cancel input) as [w c'|e w|w] eqn:W; try contradiction. destruct SE as (<- & ->).
    specialize (EA w eq_refl). cbn [wfinal] in QN.
    pose proof (run_ok (u_cf u) o (map erase input) no_cancel) as OK. rewrite E in OK. cbn in OK.
    pose proof (ir_K _ _ _ _ _ OK) as K.
    pose proof (k_uid _ _ _ _ _ K) as KU. unfold decided in KU. rewrite EA in KU. cbn [map app] in KU. apply (f_equal (@length nat)) in KU.
    rewrite map_length, seq_length in KU.
    assert (RK : rank (map erase input) (i_n (s_in (x_s w))) = valid_count (map erase input)).
    { apply (rank_end (u_cf u) (map erase input) M CM (start_ok u input ST)); [eapply ChainMain.ir_n; exact OK|]. rewrite <- E1. symmetry. eapply ChainMain.ir_rest; exact OK. }
    rewrite <- KU, (L_all u input _ RK) in QN. lia.
  - exfalso. exact (proj1 (run_h (u_cf u) o _ (map erase input) lo hi M SG (og_as u input vis) CM (start_ok u input ST) (d_gap _ _ ST) no_cancel) s E).
  - congruence.
Qed.
Print Assumptions C137_ends.

