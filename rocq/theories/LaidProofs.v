(** Proofs for LaidSpec. *)
From Coq Require Import List ZArith QArith Reals Bool Lia Arith.
From Verif Require Import Common BeamModel BeamSpec BeamProofs GeoModel ChainModel ChainSpec ChainAux ChainProofs ChainInv ChainMain ChainFacts
  HeldSpec FullSpec HoleSpec HoleProofs ManySpec ManyProofs WholeModel WholeSpec WholeChain WholeProofs LaidSpec.
From Verif Require SurfModel.
Import ListNotations.
Local Open Scope nat_scope.

Arguments Nat.ltb : simpl never.
Arguments Nat.leb : simpl never.
Arguments Nat.div : simpl never.

(** * The surfaces laid *)
Section Lay.
Variable g : SurfModel.settings.

Lemma lay_rank : forall bs x prev n r z y, In (z, y) (lay g x prev n r bs) -> r <= z.
Proof.
  induction bs as [|b bs IH]; intros x prev n r z y I; cbn in I; [destruct I|].
  destruct (SurfModel.find_new_location _ _ _ _); [destruct I as [E|I]; [injection E as <- <-; lia|]|]; apply IH in I; lia.
Qed.
Lemma lay_uid : forall bs x prev n r, map (fun e => SurfModel.s_uid (snd e)) (lay g x prev n r bs) = seq n (length (lay g x prev n r bs)).
Proof.
  induction bs as [|b bs IH]; intros x prev n r; cbn; [reflexivity|].
  destruct (SurfModel.find_new_location _ _ _ _) as [l|]; [|apply IH]. cbn. f_equal. apply IH.
Qed.
(** the surface and the burst to go on with *)
Definition last_of (x : SurfModel.surface) (l : list (nat * SurfModel.surface)) : SurfModel.surface :=
  last (map snd l) x.
Lemma last_cons : forall A (l : list A) x y, last (y :: l) x = last l y.
Proof. induction l as [|z l IH]; intros x y; [reflexivity|]. change (last (y :: z :: l) x) with (last (z :: l) x). rewrite (IH x z), (IH y z). reflexivity. Qed.
Lemma lay_app : forall bs bs' x prev n r,
  lay g x prev n r (bs ++ bs') = lay g x prev n r bs ++
    lay g (last_of x (lay g x prev n r bs)) (last bs prev) (n + length (lay g x prev n r bs)) (r + length bs) bs'.
Proof.
  induction bs as [|b bs IH]; intros bs' x prev n r.
  - cbn. rewrite !Nat.add_0_r. reflexivity.
  - cbn [app lay length]. rewrite last_cons. destruct (SurfModel.find_new_location _ _ _ _) as [l|].
    + rewrite IH. cbn [app length]. f_equal. f_equal. unfold last_of. cbn [map]. rewrite last_cons. f_equal; lia.
    + rewrite IH. f_equal. f_equal. lia.
Qed.
End Lay.

Section AllOf.
Variable u : setup.
Notation L := (lay_all u).
Lemma L_uid : forall bs, map (fun e => SurfModel.s_uid (snd e)) (L bs) = seq 0 (length (L bs)).
Proof.
  intros [|b bs]; [reflexivity|]. cbn [lay_all]. destruct (SurfModel.first_location _ _ _ _) as [l|]; [|reflexivity].
  cbn [map length seq snd]. f_equal. apply lay_uid.
Qed.
Lemma L_snoc : forall bs b x prev, (exists l, L bs = l ++ [x]) -> (exists l, bs = l ++ [prev]) ->
  L (bs ++ [b]) = L bs ++ match SurfModel.find_new_location (SurfModel.g_k (u_g u)) (snd x) prev b with
                          | None => []
                          | Some l => [(length bs, SurfModel.new_surface (u_g u) (length (L bs)) l)]
                          end.
Proof.
  intros bs b x prev (l & E) (bl & EB). destruct bs as [|b0 bs]; [destruct bl; discriminate|].
  cbn [app lay_all] in *. destruct (SurfModel.first_location _ _ _ _) as [l0|]; [|destruct l; discriminate].
  rewrite lay_app. cbn [app length]. f_equal. f_equal. cbn [lay].
  assert (P : last bs b0 = prev).
  { rewrite <- (last_cons _ bs prev b0), EB. apply last_snoc. }
  assert (X : last_of (SurfModel.new_surface (u_g u) 0 (Some l0)) (lay (u_g u) (SurfModel.new_surface (u_g u) 0 (Some l0)) b0 1 1 bs) = snd x).
  { unfold last_of. rewrite <- (last_cons _ _ (snd x)). change (SurfModel.new_surface (u_g u) 0 (Some l0) :: map snd ?l) with (map snd ((0, SurfModel.new_surface (u_g u) 0 (Some l0)) :: l)).
    rewrite E, map_app. cbn [map]. apply last_snoc. }
  rewrite P, X. destruct (SurfModel.find_new_location _ _ _ _); reflexivity.
Qed.
Lemma L_app : forall bs bs', bs <> [] -> L bs <> [] -> exists l, L (bs ++ bs') = L bs ++ l /\ forall z y, In (z, y) l -> length bs <= z.
Proof.
  intros [|b bs] bs' NE NL; [congruence|]. cbn [app lay_all] in *. destruct (SurfModel.first_location _ _ _ _) as [l0|]; [|congruence].
  rewrite lay_app. eexists. split; [cbn [app]; reflexivity|]. intros z y I. apply lay_rank in I. cbn [length]. lia.
Qed.
End AllOf.

(** * Visibility asked for queued surfaces only *)
Section Ext.
Variable cf : cfg.
Variables o d : oracle.
Hypothesis SF : same_fails o d.
Lemma beam_scan_in : forall (S A : Type) N (v v' : S -> bool) (b : S -> A) (c : S -> nat) w l prev acc seen,
  (forall s, In s l -> v s = v' s) -> beam_scan N v b c w l prev acc seen = beam_scan N v' b c w l prev acc seen.
Proof.
  intros S A N v v' b c w. induction l as [|s l IH]; intros prev acc seen E; cbn; [reflexivity|].
  rewrite <- (E s (or_introl eq_refl)). assert (E' : forall s, In s l -> v s = v' s) by (intros; apply E; now right).
  destruct (v s); [apply IH; exact E'|]. destruct prev; [reflexivity|apply IH; exact E'].
Qed.
Lemma burst_loop_in : forall wuid todo visited q,
  (forall p s, In p todo -> In s (map s_uid (q_surfs q)) -> o_vis o s (p_uid p) = o_vis d s (p_uid p)) ->
  burst_loop cf o wuid visited todo q = burst_loop cf d wuid visited todo q.
Proof.
  intros wuid. induction todo as [|p todo IH]; intros visited q E; cbn [burst_loop]; [reflexivity|].
  destruct (p_done p). { apply IH. intros p' s I. apply E. now right. }
  assert (B : beam_step cf o wuid p q = beam_step cf d wuid p q).
  { unfold beam_step, beam_angles.
    rewrite (beam_scan_in _ _ _ (fun s => o_vis o (s_uid s) (p_uid p)) (fun s => o_vis d (s_uid s) (p_uid p))); [reflexivity|].
    intros s I. apply E; [now left|]. now apply in_map. }
  rewrite B. destruct (beam_step cf d wuid p q) as [[[seen t] surfs'] wseen] eqn:BS.
  assert (KS : map skey surfs' = map skey (q_surfs q)) by (unfold beam_step in BS; inversion BS; subst; apply pair_loop_key).
  assert (KU : map s_uid surfs' = map s_uid (q_surfs q)).
  { apply (f_equal (map (fun k => fst (fst k)))) in KS. rewrite !map_map in KS. exact KS. }
  rewrite (azimuth_fails_ext cf d o) by (destruct SF as (A & A2 & A3 & A4); repeat split; intros; symmetry; auto).
  destruct (azimuth_fails cf d p seen t); [reflexivity|]. destruct wseen; [|reflexivity].
  apply IH. cbn [q_surfs]. intros p' s I J. apply E; [now right|]. rewrite <- KU. exact J.
Qed.
Lemma surface_phase_in : forall q w,
  (forall p s, In p (q_packs q) -> In s (map s_uid (q_surfs q)) -> o_vis o s (p_uid p) = o_vis d s (p_uid p)) ->
  surface_phase cf o q w = surface_phase cf d q w.
Proof.
  intros q w E. unfold surface_phase. destruct (q_surfs q) as [|s0 ss] eqn:Q; [reflexivity|].
  rewrite (burst_loop_in (s_uid s0) (q_packs q) [] q) by (rewrite Q; exact E).
  destruct SF as (_ & S1 & S2 & S3).
  destruct (burst_loop cf d (s_uid s0) [] (q_packs q) q) as [[e|] q1]; [reflexivity|]. destruct (q_surfs q1) as [|s1 rest]; [reflexivity|].
  rewrite S1, S2, S3. reflexivity.
Qed.
Lemma body_in : forall s, read_phase cf o 0 s = read_phase cf d 0 s ->
  (forall p x, In p (q_packs (read_que (read_phase cf d 0 s))) -> In x (map s_uid (q_surfs (read_que (read_phase cf d 0 s)))) ->
     o_vis o x (p_uid p) = o_vis d x (p_uid p)) ->
  body cf o 0 s = body cf d 0 s.
Proof.
  intros s R V. unfold body. rewrite R. destruct (read_phase cf d 0 s) as [i q m|i q m|e i q m]; cbn [read_que] in V; try reflexivity.
  rewrite (surface_phase_in q (s_out s) V). reflexivity.
Qed.
End Ext.

(** The number of records read does not change after reading. *)
Definition read_n (r : read_res) : nat := match r with RGo i _ _ => i_n i | RContinue i _ _ => i_n i | RRaise _ i _ _ => i_n i end.
Lemma body_n : forall cf o s, i_n (s_in (step_st (body cf o 0 s))) = read_n (read_phase cf o 0 s).
Proof.
  intros cf o s. unfold body. destruct (read_phase cf o 0 s) as [i q m|i q m|e i q m]; try reflexivity. cbn [read_n].
  destruct (i_sp i || (c_min cf <=? length (q_surfs q)) || i_gap i).
  - destruct (surface_phase cf o q (s_out s)) as [[[e|] q1] w1]; [reflexivity|]. unfold end_phase. destruct (q_surfs q1); [|reflexivity]. cbn. destruct (i_gap i); reflexivity.
  - unfold end_phase. destruct (q_surfs q); [|reflexivity]. destruct (i_gap i); reflexivity.
Qed.

(** * The run and the surfaces laid *)
Section Laid.
Variables (u : setup) (input : list witem).
Notation cf := (u_cf u).
Notation items := (map erase input).
Notation s0 := (init [] [] 0 items).
Notation bs := (bursts_in u input).
Notation rk := (rank items).
Variable vis : nat -> nat -> bool.
Variables (lo hi : nat -> nat) (M : nat).
Notation o' := (pass_oracle u input vis).
Hypothesis NF : SurfModel.g_focus (u_g u) = false.
Hypothesis FE : fuel_enough u input.
Hypothesis REG : sighted (c_N cf) M o' lo hi.
Hypothesis SEE : seen_as u input vis.
Hypothesis HCN : M + 2 + holes items <= c_min cf.
Hypothesis FIRST : forall it l, items = it :: l -> it <> Nothing.
Hypothesis GAP : gapless cf items.

Definition og : oracle :=
  mk_oracle (fun s p => o_new o' s (rk p)) (fun s p => o_vis o' s (rk p))
    (o_az_fail (oracle0 u input)) (u_corr_fail u) (u_w1_fail u) (u_w2_fail u).
Lemma og_as : counted_as items og o'.
Proof. split; reflexivity. Qed.
Lemma og_fails : has_fails u input og.
Proof. intros t t1. repeat split. Qed.

(** the bursts of the first records *)
Definition upto (n : nat) : list SurfModel.burst := bursts_in u (firstn n input).
Definition L (n : nat) : list (nat * SurfModel.surface) := lay_all u (upto n).
Lemma upto_S : forall n, upto (S n) = upto n ++ match nth_error input n with Some (WValid r) => [prepared u r] | _ => [] end.
Proof.
  intros n. unfold upto, bursts_in. destruct (nth_error input n) as [i|] eqn:N.
  - assert (E : firstn (S n) input = firstn n input ++ [i]).
    { clear - N. revert n N. induction input as [|x l IH]; intros [|n] N; cbn in *; try discriminate; [now injection N as ->|]. change (x :: firstn (S n) l = x :: (firstn n l ++ [i])). f_equal. now apply IH. }
    rewrite E, flat_map_app. cbn [flat_map]. rewrite app_nil_r. reflexivity.
  - apply nth_error_None in N. rewrite !firstn_all2 by (clear HCN; lia). now rewrite app_nil_r.
Qed.
Lemma ok_input : forall p, valid_record items p = true <-> exists r, nth_error input p = Some (WValid r).
Proof.
  intros p. unfold valid_record. rewrite nth_error_map. destruct (nth_error input p) as [[r| |]|]; cbn; split; intros H; try discriminate; try (destruct H; discriminate); eauto.
Qed.
Lemma upto_length : forall n, length (upto n) = rk n.
Proof.
  induction n as [|n IH]; [reflexivity|]. rewrite upto_S, app_length, IH, rk_S. f_equal.
  destruct (valid_record items n) eqn:V.
  - apply ok_input in V as (r & ->). reflexivity.
  - destruct (nth_error input n) as [[r| |]|] eqn:N; try reflexivity. exfalso. assert (valid_record items n = true) by (apply ok_input; eauto). congruence.
Qed.
Lemma upto_all : upto (length input) = bs.
Proof. unfold upto. now rewrite firstn_all. Qed.
Lemma upto_rest : forall n, exists l, bs = upto n ++ l.
Proof.
  intros n. exists (bursts_in u (skipn n input)). unfold upto, bursts_in. rewrite <- flat_map_app, firstn_skipn. reflexivity.
Qed.
Lemma bs_nth : forall p r, nth_error input p = Some (WValid r) -> nth_error bs (rk p) = Some (prepared u r).
Proof.
  intros p r N. destruct (upto_rest (S p)) as (l & ->). rewrite upto_S, N, <- app_assoc. rewrite nth_error_app2 by (rewrite upto_length; clear HCN; lia).
  rewrite upto_length, Nat.sub_diag. reflexivity.
Qed.
Lemma bs_count : length bs = valid_count items.
Proof. rewrite <- upto_all, upto_length. unfold valid_count. now rewrite map_length. Qed.
(** there is a first surface as soon as there is a burst *)
Lemma L_first : forall n, upto n <> [] -> L n <> [].
Proof.
  intros n H. unfold L. destruct (upto n) as [|b l] eqn:E; [congruence|]. cbn [lay_all].
  assert (I : In b (upto n)) by (rewrite E; now left). unfold upto, bursts_in in I. apply in_flat_map in I as (i & I1 & I2).
  destruct i as [r| |]; [|destruct I2|destruct I2]. destruct I2 as [<-|[]].
  assert (J : In (WValid r) input) by (rewrite <- (firstn_skipn n input); apply in_or_app; now left).
  destruct (FE r J) as (F1 & F2). unfold SurfModel.first_location.
  change (SurfModel.b_lla (prepared u r)) with (SurfModel.b_lla (w_geo r)).
  destruct (normalize _ _ (vx _)) as [lat|]; [|congruence]. destruct (normalize _ _ (vy _)) as [lon|]; [|congruence]. discriminate.
Qed.
Lemma L_rest : forall n, exists l, laid u input = L n ++ l /\ (forall z y, In (z, y) l -> rk n <= z).
Proof.
  intros n. unfold laid. destruct (upto n) as [|b l0] eqn:E.
  - exists (lay_all u bs). unfold L. rewrite E. split; [reflexivity|]. intros z y _. rewrite <- upto_length, E. cbn. clear HCN; lia.
  - destruct (upto_rest n) as (l & ->). destruct (L_app u (upto n) l) as (l' & A & B).
    + rewrite E. discriminate.
    + apply L_first. rewrite E. discriminate.
    + exists l'. split; [exact A|]. rewrite <- upto_length. exact B.
Qed.
Lemma L_all : forall n, rk n = valid_count items -> L n = laid u input.
Proof.
  intros n H. unfold L, laid. destruct (upto_rest n) as (l & E). rewrite E.
  assert (length l = 0). { apply (f_equal (@length _)) in E. rewrite app_length, upto_length, bs_count in E. clear HCN; lia. }
  destruct l; [now rewrite app_nil_r|discriminate].
Qed.

(** what the geometry of the queues is *)
Record TR (t : SurfModel.st) (D n : nat) : Prop := mk_TR {
  tr_surfs : SurfModel.t_surfs t = skipn D (map snd (L n));
  tr_next : SurfModel.t_next t = length (L n);
  tr_last : upto n = [] -> SurfModel.t_last t = SurfModel.loc0 /\ SurfModel.t_bursts t = [];
  tr_prev : upto n <> [] -> exists b l l', SurfModel.t_bursts t = l ++ [b] /\ upto n = l' ++ [b] }.

Lemma TR_more : forall t D n, TR t D n -> upto (S n) = upto n -> TR t D (S n).
Proof.
  intros t D n [T1 T2 T3 T4] E. assert (EL : L (S n) = L n) by (unfold L; now rewrite E).
  constructor; rewrite ?E, ?EL; assumption.
Qed.
Lemma L_len : forall n x l, L n = l ++ [x] -> SurfModel.s_uid (snd x) = length l.
Proof.
  intros n x l E. pose proof (L_uid u (upto n)) as U. fold (L n) in U. rewrite E, map_app, app_length in U. cbn [map length] in U.
  rewrite Nat.add_1_r, seq_S in U. apply app_inj_tail in U as (_ & U). exact U.
Qed.

(** One burst arrives. *)
Lemma arrive : forall t D n r t1 res, TR t D n -> nth_error input n = Some (WValid r) -> (upto n <> [] -> D < length (L n)) -> (upto n = [] -> D = 0) ->
  SurfModel.step_burst (u_g u) (u_fuel u) false (prepared u r) t = (t1, res) ->
  TR t1 D (S n) /\ (upto n <> [] -> forall x l, L n = l ++ [x] -> answer res = o_new o' (SurfModel.s_uid (snd x)) (rk n)).
Proof.
  intros t D n r t1 res [T1 T2 T3 T4] N DL D0 ST.
  assert (US : upto (S n) = upto n ++ [prepared u r]) by (rewrite upto_S, N; reflexivity).
  assert (NE : upto (S n) <> []) by (rewrite US; destruct (upto n); discriminate).
  assert (FO : forall fo ss d, SurfModel.focus (u_g u) fo ss d = (fo, ss)) by (intros; unfold SurfModel.focus; rewrite NF; reflexivity).
  unfold SurfModel.step_burst in ST. cbv beta zeta in ST.
  destruct (upto n) as [|b0 l0] eqn:E.
  - (* the first burst *)
    specialize (D0 eq_refl). subst D. destruct (T3 eq_refl) as (T5 & T6). assert (LN : L n = []) by (unfold L; rewrite E; reflexivity).
    rewrite LN in T1, T2. cbn [map skipn length] in T1, T2. rewrite T1 in ST. cbn [SurfModel.last1 rev hd_error] in ST. rewrite T5 in ST.
    pose proof (L_first (S n) NE) as LF. unfold L in LF. rewrite US in LF. cbn [app lay_all] in LF.
    assert (LE : L (S n) = lay_all u [prepared u r]) by (unfold L; rewrite US; reflexivity). cbn [lay_all lay] in LE.
    change (SurfModel.last1 (@nil SurfModel.surface)) with (@None SurfModel.surface) in ST.
    destruct (SurfModel.first_location _ _ _ _) as [l|]; [|congruence]. rewrite FO in ST. injection ST as <- <-. split; [|congruence].
    rewrite T2. constructor; cbn [SurfModel.t_surfs SurfModel.t_next SurfModel.t_last SurfModel.t_bursts]; rewrite ?LE.
    + reflexivity.
    + reflexivity.
    + congruence.
    + intros _. rewrite T6, US. exists (prepared u r), [], []. split; reflexivity.
  - destruct T4 as (pv & lb & lb' & T5 & T6); [discriminate|]. rewrite <- E in *. assert (NU : upto n <> []) by (rewrite E; discriminate).
    assert (NL : L n <> []) by (apply L_first; exact NU). specialize (DL NU).
    destruct (exists_last NL) as (ll & x & LX). pose proof (L_len n x ll LX) as UX.
    assert (LS : SurfModel.last1 (SurfModel.t_surfs t) = Some (snd x)).
    { rewrite T1, LX, map_app. cbn [map]. rewrite LX, app_length in DL. cbn [length] in DL.
      rewrite skipn_app. replace (D - length (map snd ll)) with 0 by (rewrite map_length; lia). cbn [skipn]. apply last1_snoc. }
    rewrite LS in ST. rewrite T5, <- app_assoc in ST. cbn [app] in ST.
    assert (L2 : SurfModel.last2 (lb ++ [pv; prepared u r]) = Some (pv, prepared u r)).
    { unfold SurfModel.last2. rewrite rev_app_distr. reflexivity. }
    rewrite L2 in ST.
    assert (SN : L (S n) = L n ++ match SurfModel.find_new_location (SurfModel.g_k (u_g u)) (snd x) pv (prepared u r) with
                          | None => []
                          | Some l => [(length (upto n), SurfModel.new_surface (u_g u) (length (L n)) l)]
                          end).
    { unfold L. rewrite US. apply L_snoc; [exists ll; exact LX|exists lb'; exact T6]. }
    assert (PV : exists b l l', lb ++ [pv; prepared u r] = l ++ [b] /\ upto (S n) = l' ++ [b]).
    { rewrite US. exists (prepared u r), (lb ++ [pv]), (upto n). rewrite <- app_assoc. split; reflexivity. }
    destruct (L_rest (S n)) as (rest & LR & RR).
    assert (LEN : length (L n) = S (length ll)) by (rewrite LX, app_length; cbn [length]; lia).
    assert (AN : forall ans, (ans = true <-> SurfModel.find_new_location (SurfModel.g_k (u_g u)) (snd x) pv (prepared u r) <> None) ->
       forall x l, L n = l ++ [x] -> ans = o_new o' (SurfModel.s_uid (snd x)) (rk n)).
    { intros ans A y l LY. rewrite LX in LY. apply app_inj_tail in LY as (_ & <-). rewrite UX. cbn [pass_oracle o_new].
      rewrite LR, SN, <- app_assoc. rewrite nth_error_app2 by (rewrite LEN; apply le_n).
      rewrite LEN, Nat.sub_diag.
      destruct (SurfModel.find_new_location _ _ _ _) as [lc|].
      - cbn [app nth_error]. rewrite upto_length, Nat.eqb_refl. apply A. discriminate.
      - cbn [app]. destruct ans; [exfalso; apply A; reflexivity|]. destruct rest as [|[z y] rest]; [reflexivity|]. cbn [nth_error].
        specialize (RR z y (or_introl eq_refl)). rewrite <- upto_length, US, app_length, upto_length in RR. cbn in RR. symmetry. apply Nat.eqb_neq. lia. }
    destruct (SurfModel.find_new_location _ _ _ _) as [lc|] eqn:FN; rewrite ?FO in ST; injection ST as <- <-.
    + split; [|intros _; apply AN; split; [discriminate|reflexivity]]. constructor; cbn [SurfModel.t_surfs SurfModel.t_next SurfModel.t_last SurfModel.t_bursts].
      * rewrite T1, SN, map_app. cbn [map snd]. rewrite skipn_app. replace (D - length (map snd (L n))) with 0 by (rewrite map_length; lia). rewrite T2. reflexivity.
      * rewrite T2, SN, app_length. cbn. lia.
      * congruence.
      * intros _. exact PV.
    + split; [|intros _; apply AN; split; [discriminate|congruence]]. rewrite app_nil_r in SN. constructor; cbn [SurfModel.t_surfs SurfModel.t_next SurfModel.t_last SurfModel.t_bursts].
      * rewrite SN. exact T1.
      * rewrite SN. exact T2.
      * congruence.
      * intros _. exact PV.
Qed.

(** What holds at the beginning of every iteration. *)
Definition shows (p : product) : Prop :=
  exists r x, nth_error (laid u input) (pr_number p) = Some (r, x) /\ pr_surf p = Some x.
Record SIM (k : nat) (w : wst) : Prop := mk_SIM {
  sm_far : so_far u input og k w;
  sm_fi : FIh cf og o' items lo hi (x_s w);
  sm_par : par u input (x_t w) (s_q (x_s w));
  sm_tr : TR (x_t w) (length (w_done (s_out (x_s w)))) (i_n (s_in (x_s w)));
  sm_out : Forall shows (x_out w) }.

Lemma last_last1 : forall A (l : list A) x, SurfModel.last1 (x :: l) = Some (last l x).
Proof.
  intros A l x. destruct (exists_last (l := x :: l)) as (l' & z & E); [discriminate|]. rewrite E, last1_snoc.
  rewrite <- (last_cons _ l x x), E, last_snoc. reflexivity.
Qed.
Lemma reading : forall k w t1, SIM k w -> geo_read u input w = (t1, true) ->
  read_phase cf (oracle_at u input (x_t w) t1) 0 (x_s w) = read_phase cf og 0 (x_s w) /\
  TR t1 (length (w_done (s_out (x_s w)))) (read_n (read_phase cf og 0 (x_s w))).
Proof.
  intros k w t1 SM G. destruct SM as [FAR FI P T OUT].
  destruct (geo_par u input og k w t1 t1 FAR P G) as (_ & _ & _ & RE). rewrite RE. clear RE.
  set (d := oracle_at u input (x_t w) (x_t w)) in *. set (D := length (w_done (s_out (x_s w)))) in *.
  unfold geo_read in G. fold d in G.
  destruct FI as [(II & _) GP RS HQ _ _ _ _ _ SF]. pose proof (ii_rest _ _ _ _ _ _ _ II) as IR.
  destruct (x_s w) as [i q ow m] eqn:XS. cbn [s_in s_q s_out s_mon] in *.
  unfold read_phase in G |- *. cbn [s_in s_q s_out s_mon] in *. rewrite GP, RS in *.
  assert (STAY : forall z, read_que z = q -> arrived (mk_st i q ow m) z = None).
  { intros z E. unfold arrived. rewrite E. cbn [s_q]. destruct (Nat.eqb_spec (length (q_packs q)) (S (length (q_packs q)))); [lia|reflexivity]. }
  destruct (i_rest i) as [|it rest] eqn:ER.
  - assert (t1 = x_t w) as ->.
    { destruct (i_sp i); rewrite STAY in G by reflexivity; now injection G as <-. }
    destruct (i_sp i); (split; [reflexivity|exact T]).
  - assert (IT : nth_error items (i_n i) = Some it) by (apply (skipn_cons_nth (i_n i) items it rest); symmetry; exact IR).
    rewrite nth_error_map in IT. destruct (nth_error input (i_n i)) as [wi|] eqn:NI; [|discriminate]. cbn in IT. injection IT as IT.
    destruct wi as [r| |]; cbn in IT; subst it.
    + unfold handle_packet in G |- *. cbn [i_cur i_pt i_rest i_n i_gap i_resume i_sp p_uid p_time m_work m_sub m_cals] in G |- *.
      assert (PT : i_pt i = last_valid (firstn (i_n i) items)) by (apply (ii_pt _ _ _ _ _ _ _ II); now rewrite GP, RS).
      assert (NG : match i_pt i with None => true | Some t0 => lt_q (w_time r - t0) (c_gap cf) end = true).
      { destruct (i_pt i) as [t0|] eqn:EPT; [|reflexivity]. apply lt_q_spec.
        destruct (Qlt_le_dec (w_time r - t0) (c_gap cf)) as [LL|LL]; [exact LL|]. exfalso. apply (GAP (i_n i)).
        exists (w_time r), t0. split; [rewrite nth_error_map, NI; reflexivity|]. split; [now rewrite <- PT|]. now apply Qle_not_lt. }
      rewrite NG in *. rewrite ?RS in *.
      set (p := mk_packet (0 + i_n i) (i_n i) (w_time r) false) in *.
      assert (A : SurfModel.step_burst (u_g u) (u_fuel u) false (prepared u r) (x_t w) = (t1, snd (SurfModel.step_burst (u_g u) (u_fuel u) false (prepared u r) (x_t w)))).
      { match type of G with match arrived _ ?z with _ => _ end = _ => assert (AR : arrived (mk_st i q ow m) z = Some (i_n i)) end.
        { unfold arrived. match goal with |- context [read_que ?z] => assert (RQ : q_packs (read_que z) = q_packs q ++ [p]) end.
          { pose proof (locate_packs d false p q) as LP. destruct (locate d false p q) as [[[|]|] q1]; exact LP. }
          rewrite RQ, last1_snoc, app_length. cbn [s_q length option_map]. rewrite Nat.add_1_r, Nat.eqb_refl. reflexivity. }
        rewrite AR in G. unfold data, record_of in G. rewrite NI in G. cbn [option_map] in G.
        destruct (SurfModel.step_burst _ _ _ _ _) as [t' rr]. cbn [snd]. now injection G as <- _. }
      assert (FN : found u input (x_t w) (i_n i) = answer (snd (SurfModel.step_burst (u_g u) (u_fuel u) false (prepared u r) (x_t w)))).
      { unfold found, data, record_of. rewrite NI. reflexivity. }
      destruct P as (P1 & P2 & P3).
      assert (UQ : upto (i_n i) <> [] -> q_surfs q <> []).
      { intros H. apply SF. intros Z. apply H. unfold upto. rewrite Z. reflexivity. }
      assert (QU : q_surfs q <> [] -> upto (i_n i) <> []).
      { intros H E. apply H. pose proof (tr_surfs _ _ _ T) as TS. unfold L in TS. rewrite E in TS. cbn [lay_all map] in TS.
        rewrite skipn_nil in TS. rewrite TS in P1. cbn in P1. destruct (q_surfs q); [reflexivity|discriminate]. }
      destruct (arrive (x_t w) D (i_n i) r t1 (snd (SurfModel.step_burst (u_g u) (u_fuel u) false (prepared u r) (x_t w))) T NI) as (AR1 & AR2); [| |exact A|].
      { intros H. apply UQ in H. destruct (Nat.lt_ge_cases D (length (L (i_n i)))) as [LL|LL]; [exact LL|]. exfalso. apply H.
        rewrite (tr_surfs _ _ _ T), skipn_all2 in P1 by (rewrite map_length; lia). destruct (q_surfs q); [reflexivity|discriminate]. }
      { intros E. pose proof (k_uid _ _ _ _ _ (ii_K _ _ _ _ _ _ _ II)) as KU. pose proof (tr_next _ _ _ T) as TN. rewrite P3 in TN. unfold L in TN. rewrite E in TN. cbn in TN.
        rewrite TN in KU. cbn [seq] in KU. apply map_eq_nil in KU. apply app_eq_nil in KU as (KU & _). unfold D. unfold decided in KU. apply map_eq_nil in KU. rewrite KU. reflexivity. }
      assert (LO : locate d false p q = locate og false p q).
      { unfold locate. destruct (q_surfs q) as [|x l] eqn:EQ; [reflexivity|]. destruct (q_packs q ++ [p]) as [|k1 [|k2 kr]]; [reflexivity|reflexivity|].
        assert (ON : o_new d (s_uid (last l x)) (p_uid p) = o_new og (s_uid (last l x)) (p_uid p)).
        { cbn [p p_uid plus]. cbn [d oracle_at o_new]. rewrite FN. cbn [og o_new].
          assert (NU : upto (i_n i) <> []) by (apply QU; discriminate).
          destruct (exists_last (L_first (i_n i) NU)) as (ll & z & LZ).
          rewrite (AR2 NU z ll LZ). f_equal.
          pose proof (tr_surfs _ _ _ T) as TS.
          assert (L1 : SurfModel.last1 (map SurfModel.s_uid (SurfModel.t_surfs (x_t w))) = Some (s_uid (last l x))).
          { rewrite P1. cbn [map]. rewrite last_last1. f_equal. clear. revert x. induction l as [|y l IH]; intros x; [reflexivity|]. cbn [map]. rewrite !last_cons. apply IH. }
          rewrite last1_map in L1. destruct (SurfModel.last1 (SurfModel.t_surfs (x_t w))) as [y|] eqn:LY; [|discriminate]. cbn in L1. injection L1 as <-.
          rewrite TS, LZ, map_app in LY. cbn [map] in LY.
          assert (DL : D <= length (map snd ll)).
          { destruct (Nat.le_gt_cases D (length (map snd ll))) as [H|H]; [exact H|]. exfalso.
            rewrite skipn_all2 in LY by (rewrite app_length; cbn [length]; lia). discriminate. }
          rewrite skipn_app in LY. replace (D - length (map snd ll)) with 0 in LY by lia. cbn [skipn] in LY. rewrite last1_snoc in LY. now injection LY as <-. }
        rewrite ON. reflexivity. }
      rewrite LO. split; [reflexivity|]. destruct (locate og false p q) as [[[|]|] q1]; exact AR1.
    + rewrite STAY in G by reflexivity. injection G as <-. split; [reflexivity|]. cbn [read_n handle_packet i_cur i_n]. apply TR_more; [exact T|]. rewrite upto_S, NI, app_nil_r. reflexivity.
    + rewrite STAY in G by reflexivity. injection G as <-. split; [reflexivity|]. cbn [read_n i_n]. apply TR_more; [exact T|]. rewrite upto_S, NI, app_nil_r. reflexivity.
Qed.

Lemma TR_by_uid : forall t D n x, TR t D n -> In x (map SurfModel.s_uid (SurfModel.t_surfs t)) ->
  exists e r, by_uid (SurfModel.t_surfs t) x = Some e /\ nth_error (laid u input) x = Some (r, e).
Proof.
  intros t D n x T I. destruct (by_uid_exists _ _ I) as (e & E). exists e. pose proof (by_uid_in _ _ _ E) as (J & U).
  rewrite (tr_surfs _ _ _ T) in J.
  assert (K : In e (map snd (L n))) by (rewrite <- (firstn_skipn D (map snd (L n))); apply in_or_app; now right).
  apply In_nth_error in K as (j & K). rewrite nth_error_map in K. destruct (nth_error (L n) j) as [[r e']|] eqn:N; [|discriminate]. cbn in K. injection K as ->.
  exists r. split; [exact E|]. pose proof (L_uid u (upto n)) as LU. fold (L n) in LU.
  pose proof (map_nth_error (fun e => SurfModel.s_uid (snd e)) j (L n) N) as MN. rewrite LU in MN. cbn [snd] in MN.
  assert (JL : j < length (L n)) by (apply nth_error_Some; congruence).
  assert (SJ : nth_error (seq 0 (length (L n))) j = Some j).
  { rewrite (nth_error_nth' _ 0) by (rewrite seq_length; exact JL). rewrite seq_nth by exact JL. reflexivity. }
  rewrite SJ in MN. injection MN as MN. rewrite U in MN. subst j.
  destruct (L_rest n) as (l & LR & _). rewrite LR, nth_error_app1 by exact JL. exact N.
Qed.

Lemma seeing : forall t D n q p x, TR t D n -> par u input t q -> In p (q_packs q) -> In x (map s_uid (q_surfs q)) ->
  forall t0, o_vis (oracle_at u input t0 t) x (p_uid p) = o_vis og x (p_uid p).
Proof.
  intros t D n q p x T (P1 & P2 & P3) I J t0. rewrite <- P1 in J. destruct (TR_by_uid t D n x T J) as (e & r & E & LE).
  assert (DB : exists b, data u input (p_uid p) = Some b).
  { apply (in_map (fun p => data u input (p_uid p))) in I. rewrite <- P2 in I. apply in_map_iff in I as (b & B & _). eauto. }
  destruct DB as (b & DB). cbn [oracle_at o_vis]. rewrite DB, E. cbn [og o_vis pass_oracle].
  unfold data, record_of in DB. destruct (nth_error input (p_uid p)) as [[rc| |]|] eqn:N; try discriminate. cbn in DB. injection DB as <-.
  symmetry. exact (SEE x _ r e _ LE (bs_nth _ _ N)).
Qed.
Lemma skipn_tl : forall A (l : list A) n, tl (skipn n l) = skipn (S n) l.
Proof. intros A. induction l as [|x l IH]; intros [|n]; try reflexivity. cbn [skipn]. rewrite IH. reflexivity. Qed.

Lemma step_sim : forall k w r w', SIM k w -> wbody u input w = Some (r, w') ->
  body cf og 0 (x_s w) = r /\ x_s w' = step_st r /\ Forall shows (x_out w') /\
  q_next (s_q (x_s w')) = length (L (i_n (s_in (x_s w')))) /\
  match r with BCont _ => SIM (S k) w' | _ => True end.
Proof.
  intros k w r w' SM B. pose proof SM as [FAR FI P T OUT].
  pose proof (wbody_par u input og k w r w' FAR P B) as P'.
  unfold wbody in B. destruct (geo_read u input w) as [t1 ok] eqn:G. destruct ok; [|discriminate]. injection B as B1 B2.
  destruct (reading k w t1 SM G) as (RD & T1). destruct (geo_par u input og k w t1 t1 FAR P G) as (_ & _ & P1 & _).
  set (d := oracle_at u input (x_t w) t1) in *. rewrite RD in P1.
  assert (BE : body cf d 0 (x_s w) = body cf og 0 (x_s w)).
  { apply body_in; [apply og_fails|exact RD|]. intros p x I J. eapply seeing; [exact T1|exact P1|exact I|exact J]. }
  assert (BO : body cf og 0 (x_s w) = r) by (rewrite <- BE; exact B1).
  assert (XS : x_s w' = step_st r) by (rewrite <- B2; unfold advance; cbn [x_s]; rewrite B1; reflexivity).
  split; [exact BO|]. split; [exact XS|].
  pose proof (h_inv _ _ _ _ _ _ _ FI) as IV.
  destruct (step_KI u input og (x_s w) r IV BO) as (KI' & WR).
  pose proof (body_n cf og (x_s w)) as BN. rewrite BO, <- XS in BN. rewrite <- BN in T1.
  pose proof (body_shape u og (x_s w) r BO) as SH.
  pose proof (body_writes u og (x_s w) r BO) as (new & NW & NI).
  rewrite <- XS in *.
  (* the products *)
  assert (OUT' : Forall shows (x_out w')).
  { rewrite <- B2. unfold advance. cbn [x_out]. rewrite B1, <- XS, NW, skipn_app, skipn_all, Nat.sub_diag. cbn [skipn app].
    apply Forall_app. split; [exact OUT|]. apply Forall_forall. intros p I. apply in_map_iff in I as (s & <- & I).
    unfold shows. cbn [product_of pr_number pr_surf].
    assert (IW : In s (w_l1b (s_out (x_s w')))) by (rewrite NW; apply in_or_app; now right).
    rewrite (k_cnt _ _ _ _ _ KI' s (WR s IW)).
    specialize (NI s I). destruct P1 as (Q1 & _). rewrite <- Q1 in NI. destruct (TR_by_uid _ _ _ _ T1 NI) as (e & rr & E1 & E2). exists rr, e. auto. }
  split; [exact OUT'|].
  assert (TN : SurfModel.t_next (x_t w') = SurfModel.t_next t1).
  { rewrite <- B2. unfold advance. cbn [x_t SurfModel.run_op SurfModel.t_next]. destruct (_ <? _); reflexivity. }
  split. { destruct P' as (_ & _ & P3). rewrite <- P3, TN. exact (tr_next _ _ _ T1). }
  destruct r as [s'|s'|e s']; try exact I. cbn [step_st] in XS.
  pose proof (body_h cf og o' items lo hi M REG og_as HCN FIRST GAP (x_s w) FI) as FI'. rewrite BO in FI'. cbn [hole_ok] in FI'.
  constructor.
  - destruct FAR as (F1 & F2). split; [exact F1|]. rewrite XS. eapply steps_snoc; [exact F2|exact BO].
  - rewrite XS. exact FI'.
  - exact P'.
  - destruct SH as (_ & _ & SH). destruct T1 as [A1 A2 A3 A4].
    assert (TB : SurfModel.t_bursts (x_t w') = skipn (length (SurfModel.t_bursts t1) - length (q_packs (s_q (x_s w')))) (SurfModel.t_bursts t1)).
    { rewrite <- B2. unfold advance. cbn [x_t SurfModel.run_op SurfModel.t_bursts x_s]. rewrite B1. destruct (_ <? _); reflexivity. }
    assert (TL : SurfModel.t_last (x_t w') = SurfModel.t_last t1).
    { rewrite <- B2. unfold advance. cbn [x_t SurfModel.run_op SurfModel.t_last]. destruct (_ <? _); reflexivity. }
    constructor.
    + rewrite <- B2. unfold advance. cbn [x_t x_s SurfModel.run_op SurfModel.t_surfs]. rewrite B1. cbn [step_st]. rewrite <- XS.
      destruct SH as [(S1 & _)|(S1 & _)]; rewrite S1.
      * rewrite Nat.ltb_irrefl. exact A1.
      * replace (_ <? _) with true by (symmetry; apply Nat.ltb_lt; lia). cbn [SurfModel.t_surfs]. rewrite A1. apply skipn_tl.
    + rewrite TN. exact A2.
    + intros E. destruct (A3 E) as (E1 & E2). rewrite TL, TB, E2. split; [exact E1|apply skipn_nil].
    + intros NE. destruct (A4 NE) as (b & l & l' & E1 & E2). rewrite TB, E1.
      assert (LQ : 0 < length (q_packs (s_q (x_s w')))).
      { pose proof (h_q _ _ _ _ _ _ _ FI') as (PP & f & _ & _ & Q3 & Q4 & _). rewrite <- XS in Q3, Q4.
        apply (f_equal (@length nat)) in Q3. rewrite map_length, seq_length in Q3.
        assert (0 < rk (i_n (s_in (x_s w')))) by (rewrite <- upto_length; destruct (upto (i_n (s_in (x_s w')))); [congruence|cbn; lia]). lia. }
      exists b, (skipn (length (l ++ [b]) - length (q_packs (s_q (x_s w')))) l), l'. split; [|exact E2].
      rewrite skipn_app. replace (length (l ++ [b]) - length (q_packs (s_q (x_s w'))) - length l) with 0 by (rewrite app_length; cbn [length]; lia). reflexivity.
  - exact OUT'.
Qed.

Lemma sim_0 : SIM 0 (wst0 input).
Proof.
  constructor.
  - split; [exact og_fails|reflexivity].
  - apply (init_h cf og o' items lo hi M HCN FIRST).
  - repeat split.
  - constructor; try reflexivity; [split; reflexivity|]. intros H. exfalso. apply H. reflexivity.
  - constructor.
Qed.

(** Surface processing has not begun when there are too few surfaces. *)
Lemma read_insufficient : forall s i q m, read_phase cf og 0 s = RRaise EInsufficient i q m -> i_sp (s_in s) = false.
Proof.
  intros s i q m H. destruct s as [[r n c pt g rs sp] q0 w m0]. unfold read_phase in H. cbn [s_in s_q s_mon i_rest i_sp i_resume i_n i_cur i_pt i_gap] in *.
  destruct sp; [exfalso|reflexivity]. revert H.
  unfold handle_packet. repeat match goal with |- context [match ?x with _ => _ end] => destruct x; cbn; try discriminate end.
Qed.
Lemma surface_sufficient : forall o q w q1 w1, surface_phase cf o q w <> (Some EInsufficient, q1, w1).
Proof.
  intros o q w q1 w1 H. revert H. unfold surface_phase. destruct (q_surfs q) as [|x r]; [discriminate|].
  destruct (burst_loop cf o (s_uid x) [] (q_packs q) q) as [[e|] q2] eqn:B.
  - intros H. injection H as -> _ _. revert B. generalize (@nil packet) as v, (q_packs q) as ps. intros v ps. revert v q.
    induction ps as [|p ps IH]; intros v q; cbn [burst_loop]; [discriminate|].
    destruct (p_done p); [apply IH|]. destruct (beam_step cf o (s_uid x) p q) as [[[seen t] surfs'] wseen]. cbv zeta.
    destruct (azimuth_fails _ _ _ _ _); [discriminate|]. destruct wseen; [apply IH|discriminate].
  - repeat match goal with |- context [match ?x with _ => _ end] => destruct x; cbn; try discriminate end.
Qed.
Lemma early : forall s s', body cf og 0 s = BRaise EInsufficient s' -> i_sp (s_in s) = false /\ s_out s' = s_out s.
Proof.
  intros s s' H. unfold body in H. destruct (read_phase cf og 0 s) as [i q m|i q m|e i q m] eqn:R.
  - exfalso. destruct (i_sp i || (c_min cf <=? length (q_surfs q)) || i_gap i).
    + destruct (surface_phase cf og q (s_out s)) as [[[e|] q1] w1] eqn:S.
      * injection H as -> _. exact (surface_sufficient _ _ _ _ _ S).
      * unfold end_phase in H. destruct (q_surfs q1); [destruct (i_gap i)|]; discriminate.
    + unfold end_phase in H. destruct (q_surfs q); [destruct (i_gap i)|]; discriminate.
  - discriminate.
  - injection H as -> <-. split; [exact (read_insufficient _ _ _ _ R)|reflexivity].
Qed.

(** The run with the geometry is the run of the pass. *)
Lemma wloop_sim : forall cancel f k w, SIM k w -> (forall w', wloop u input cancel f k w <> WFuel w') ->
  same_end (wloop u input cancel f k w) (loop cf og 0 cancel f k (x_s w)) /\
  Forall shows (x_out (wfinal (wloop u input cancel f k w))) /\
  q_next (s_q (x_s (wfinal (wloop u input cancel f k w)))) = length (L (i_n (s_in (x_s (wfinal (wloop u input cancel f k w)))))) /\
  (forall w', wloop u input cancel f k w = WRaise EInsufficient w' -> w_done (s_out (x_s w')) = []).
Proof.
  intros cancel. induction f as [|f IH]; intros k w SM NFU; cbn [wloop loop] in *; [exfalso; exact (NFU w eq_refl)|].
  destruct (wbody u input w) as [[r w']|] eqn:B; [|exfalso; exact (NFU w eq_refl)].
  destruct (step_sim k w r w' SM B) as (S1 & S2 & S3 & S4 & S5). rewrite S1.
  destruct r as [s'|s'|e s']; cbn [step_st] in S2.
  - destruct (cancel k).
    + cbn [same_end wfinal]. repeat split; auto. discriminate.
    + rewrite <- S2. apply IH; assumption.
  - cbn [same_end wfinal]. repeat split; auto. discriminate.
  - cbn [same_end wfinal]. repeat split; auto. intros w1 E. injection E as -> <-. destruct (early _ _ S1) as (E1 & E2).
    pose proof (h_sp0 _ _ _ _ _ _ _ (sm_fi _ _ SM) E1) as D. rewrite S2, E2. unfold decided in D. destruct (w_done _); [reflexivity|discriminate].
Qed.
Lemma whole_sim : forall cancel, same_end (whole u cancel input) (run cf og cancel items) /\
  Forall shows (x_out (wfinal (whole u cancel input))) /\
  q_next (s_q (x_s (wfinal (whole u cancel input)))) = length (L (i_n (s_in (x_s (wfinal (whole u cancel input)))))) /\
  (forall w, whole u cancel input = WRaise EInsufficient w -> w_done (s_out (x_s w)) = []).
Proof.
  intros cancel. unfold run, run_from, whole. change (init [] [] 0 items) with (x_s (wst0 input)). apply wloop_sim; [exact sim_0|].
  intros w'. apply (whole_ends u input cancel w' FE).
Qed.
End Laid.
