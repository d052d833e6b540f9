(** The geometry and the whole run on other times. *)
From Coq Require Import List ZArith QArith Qreals Reals Bool Lia Lra.
From Verif Require Import Common Cplx GeoModel BeamModel ChainModel ChainProofs WholeModel WholeSpec WholeChain WholeProofs WholeSim ClockSpec ClockChain.
From Verif Require SurfModel DopModel GcorrModel PointModel LinModel RotSpec.
Import ListNotations.
Import RotSpec.
Local Open Scope nat_scope.

Lemma pair_eta : forall {A B} (x : A * B), x = (fst x, snd x).
Proof. intros A B [a b]. reflexivity. Qed.

Section Clock.
Variable T : R -> R -> Prop.
Hypothesis TM : forall a x x' y y', T x x' -> T y y' -> T (SurfModel.mix a x y) (SurfModel.mix a x' y').
Variables (u : setup) (input input' : list witem).
Hypothesis RI : Forall2 (retimed_item T) input input'.
Hypothesis J : joined (c_gap (u_cf u)) None (map erase input') = joined (c_gap (u_cf u)) None (map erase input).

Definition retimed_burst (b b' : SurfModel.burst) : Prop :=
  T (SurfModel.b_time b) (SurfModel.b_time b') /\ same_place b b' /\ SurfModel.b_sat b' = SurfModel.b_sat b /\ SurfModel.b_surf b' = SurfModel.b_surf b.
Definition retimed_state (t t' : SurfModel.st) : Prop :=
  SurfModel.t_found t' = SurfModel.t_found t /\ Forall2 (retimed_surface T) (SurfModel.t_surfs t) (SurfModel.t_surfs t') /\
  Forall2 retimed_burst (SurfModel.t_bursts t) (SurfModel.t_bursts t') /\ SurfModel.t_next t' = SurfModel.t_next t.

(** * Geometry *)
Lemma F2_rev : forall {A B} (r : A -> B -> Prop) l l', Forall2 r l l' -> Forall2 r (rev l) (rev l').
Proof. intros A B r l l' F. induction F; cbn; [constructor|]. apply Forall2_app; [assumption|]. constructor; [assumption|constructor]. Qed.
Lemma F2_skipn : forall {A B} (r : A -> B -> Prop) n l l', Forall2 r l l' -> Forall2 r (skipn n l) (skipn n l').
Proof. intros A B r n. induction n; intros l l' F; [exact F|]. destruct F; cbn; [constructor|auto]. Qed.
Lemma F2_length : forall {A B} (r : A -> B -> Prop) l l', Forall2 r l l' -> length l' = length l.
Proof. intros A B r l l' F. induction F; cbn; congruence. Qed.

Lemma records_retimed : forall p, both (fun r r' => T (Q2R (w_time r)) (Q2R (w_time r')) /\ same_place (w_geo r) (w_geo r') /\ w_echo r' = w_echo r)
  (record_of input p) (record_of input' p).
Proof.
  unfold record_of. clear - RI. induction RI as [|i i' l l' H F IH]; intros [|p]; cbn [nth_error]; [exact I|exact I| |apply IH; exact F].
  destruct i as [r| |], i' as [r'| |]; try contradiction; exact H.
Qed.
Lemma prepared_retimed : forall r r', T (Q2R (w_time r)) (Q2R (w_time r')) -> same_place (w_geo r) (w_geo r') -> retimed_burst (prepared u r) (prepared u r').
Proof.
  intros r r' H (E1 & E2 & E3 & E4 & E5 & E6 & E7). unfold retimed_burst, same_place, prepared, SurfModel.locate_burst.
  cbn [SurfModel.b_time SurfModel.b_lla SurfModel.b_wd SurfModel.b_sat SurfModel.b_surf SurfModel.b_vel SurfModel.b_rate SurfModel.b_roll SurfModel.b_pitch SurfModel.b_yaw].
  rewrite E1, E2, E3, E4, E5, E6, E7. repeat (split; [assumption||reflexivity|]). split; [|split]; try reflexivity. repeat split.
Qed.
Lemma data_retimed : forall p, both retimed_burst (data u input p) (data u input' p).
Proof.
  intros p. unfold data. pose proof (records_retimed p) as R. destruct (record_of input p) as [r|], (record_of input' p) as [r'|]; try contradiction; [|exact I].
  destruct R as (R1 & R2 & _). apply prepared_retimed; assumption.
Qed.
Lemma between_retimed : forall k a p p' c c', retimed_burst p p' -> retimed_burst c c' ->
  retimed_loc T (SurfModel.between k a p c) (SurfModel.between k a p' c').
Proof.
  intros k a p p' c c' (T1 & (E1 & E2 & E3 & E4 & E5 & E6 & E7) & E8 & E9) (T1' & (G1 & G2 & G3 & G4 & G5 & G6 & G7) & G8 & G9).
  unfold retimed_loc, SurfModel.between.
  cbn [SurfModel.l_time SurfModel.l_surf SurfModel.l_surf_lla SurfModel.l_sat SurfModel.l_sat_lla SurfModel.l_vel SurfModel.l_rate SurfModel.l_roll SurfModel.l_pitch SurfModel.l_yaw SurfModel.l_wd].
  rewrite E3, E4, E5, E6, E7, E8, E9, G3, G4, G5, G6, G7, G8, G9. split; [apply TM; assumption|]. repeat (split; [reflexivity|]). reflexivity.
Qed.
Lemma first_retimed : forall k f o o' b b', retimed_burst b b' ->
  both (retimed_loc T) (SurfModel.first_location k f o b) (SurfModel.first_location k f o' b').
Proof.
  intros k f o o' b b' (T1 & (E1 & E2 & E3 & E4 & E5 & E6 & E7) & E8 & E9). unfold SurfModel.first_location. rewrite E1, E2, E3, E4, E5, E6, E7, E8.
  destruct (normalize f (k_pi k) (vx (SurfModel.b_lla b))) as [la|]; [|exact I]. destruct (normalize f (k_pi k) (vy (SurfModel.b_lla b))) as [lo|]; [|exact I].
  cbn [both]. unfold retimed_loc.
  cbn [SurfModel.l_time SurfModel.l_surf SurfModel.l_surf_lla SurfModel.l_sat SurfModel.l_sat_lla SurfModel.l_vel SurfModel.l_rate SurfModel.l_roll SurfModel.l_pitch SurfModel.l_yaw SurfModel.l_wd].
  split; [exact T1|]. repeat (split; [reflexivity|]). reflexivity.
Qed.
Lemma angle_to_retimed : forall s s' b b', retimed_surface T s s' -> retimed_burst b b' -> SurfModel.angle_to s' b' = SurfModel.angle_to s b.
Proof.
  intros s s' b b' (_ & L & D & _) (_ & _ & _ & E). unfold SurfModel.angle_to. rewrite D, E.
  destruct (SurfModel.s_loc s) as [l|], (SurfModel.s_loc s') as [l'|]; try contradiction; [|reflexivity]. destruct L as (_ & _ & _ & -> & _). reflexivity.
Qed.
Lemma find_retimed : forall k s s' p p' c c', retimed_surface T s s' -> retimed_burst p p' -> retimed_burst c c' ->
  both (both (retimed_loc T)) (SurfModel.find_new_location k s p c) (SurfModel.find_new_location k s' p' c').
Proof.
  intros k s s' p p' c c' S P C. unfold SurfModel.find_new_location. rewrite (angle_to_retimed s s' c c' S C), (angle_to_retimed s s' p p' S P).
  pose proof S as (_ & _ & _ & R & _). rewrite R. destruct (SurfModel.flt _ _); [exact I|]. cbn [both].
  destruct (SurfModel.weight _ _ _) as [a|]; [|exact I]. cbn [both]. apply between_retimed; assumption.
Qed.
Lemma new_retimed : forall g n l l', both (retimed_loc T) l l' -> retimed_surface T (SurfModel.new_surface g n l) (SurfModel.new_surface g n l').
Proof.
  intros g n l l' L. unfold retimed_surface, SurfModel.new_surface. cbn [SurfModel.s_uid SurfModel.s_loc SurfModel.s_dir SurfModel.s_res SurfModel.s_dist SurfModel.s_focused].
  split; [reflexivity|]. split; [exact L|]. destruct l as [l|], l' as [l'|]; try contradiction; [|repeat split].
  destruct L as (_ & L1 & _ & L3 & _ & L5 & _). unfold SurfModel.target_distance. cbn [option_map]. rewrite L1, L3, L5. repeat split.
Qed.
Lemma focus_surface_retimed : forall k tg s s' q q', retimed_surface T s s' -> retimed_surface T q q' ->
  retimed_surface T (SurfModel.focus_surface k tg s q) (SurfModel.focus_surface k tg s' q').
Proof.
  intros k tg s s' q q' (S1 & S2 & S3 & S4 & S5 & S6) (_ & Q2 & _). unfold retimed_surface, SurfModel.focus_surface.
  cbn [SurfModel.s_uid SurfModel.s_loc SurfModel.s_dir SurfModel.s_res SurfModel.s_dist SurfModel.s_focused].
  rewrite S1, S3, S4, S5. split; [reflexivity|]. split; [|repeat split].
  destruct (SurfModel.s_loc s) as [l|], (SurfModel.s_loc s') as [l'|]; try contradiction; [|exact I].
  destruct (SurfModel.s_loc q) as [m|], (SurfModel.s_loc q') as [m'|]; try contradiction; [|exact I].
  destruct S2 as (T1 & L1 & L2 & L3 & L4 & L5 & L6 & L7 & L8 & L9 & L10). destruct Q2 as (_ & M1 & _). rewrite L1, M1.
  destruct (SurfModel.focus_point tg (SurfModel.l_surf l) (SurfModel.l_surf m)) as [v|]; [|exact I]. cbn [both]. unfold retimed_loc.
  cbn [SurfModel.l_time SurfModel.l_surf SurfModel.l_surf_lla SurfModel.l_sat SurfModel.l_sat_lla SurfModel.l_vel SurfModel.l_rate SurfModel.l_roll SurfModel.l_pitch SurfModel.l_yaw SurfModel.l_wd].
  rewrite L4. split; [exact T1|]. repeat (split; [assumption||reflexivity|]). reflexivity.
Qed.
Lemma focus_retimed : forall g fo ss ss' d, Forall2 (retimed_surface T) ss ss' ->
  fst (SurfModel.focus g fo ss' d) = fst (SurfModel.focus g fo ss d) /\
  Forall2 (retimed_surface T) (snd (SurfModel.focus g fo ss d)) (snd (SurfModel.focus g fo ss' d)).
Proof.
  intros g fo ss ss' d F. unfold SurfModel.focus. destruct (SurfModel.g_focus g && negb fo); [|split; [reflexivity|exact F]].
  pose proof (F2_rev _ _ _ F) as R. destruct R as [|s s' r r' S R]; [split; [reflexivity|exact F]|].
  destruct R as [|q q' r r' Q R]; [split; [reflexivity|exact F]|].
  pose proof S as (_ & _ & _ & _ & S5 & _). rewrite S5. destruct (SurfModel.flt _ _); [|split; [reflexivity|exact F]].
  split; [reflexivity|]. cbn [snd]. apply F2_rev. constructor; [apply focus_surface_retimed; assumption|]. constructor; assumption.
Qed.
Lemma step_retimed : forall g n f b b' t t', retimed_state t t' -> retimed_burst b b' ->
  retimed_state (fst (SurfModel.step_burst g n f b t)) (fst (SurfModel.step_burst g n f b' t')) /\
  snd (SurfModel.step_burst g n f b' t') = snd (SurfModel.step_burst g n f b t).
Proof.
  intros g n f b b' t t' (T1 & T2 & T3 & T4) B. unfold SurfModel.step_burst.
  assert (BS : Forall2 retimed_burst (SurfModel.t_bursts t ++ [b]) (SurfModel.t_bursts t' ++ [b']))
    by (apply Forall2_app; [exact T3|constructor; [exact B|constructor]]).
  assert (CR : forall l l' m m', both (retimed_loc T) l l' -> retimed_state
    (let '(fo, ss) := SurfModel.focus g (SurfModel.t_found t) (SurfModel.t_surfs t) (SurfModel.s_dist (SurfModel.new_surface g (SurfModel.t_next t) l)) in
     {| SurfModel.t_found := fo; SurfModel.t_last := m; SurfModel.t_surfs := ss ++ [SurfModel.new_surface g (SurfModel.t_next t) l];
        SurfModel.t_bursts := SurfModel.t_bursts t ++ [b]; SurfModel.t_next := S (SurfModel.t_next t) |})
    (let '(fo, ss) := SurfModel.focus g (SurfModel.t_found t') (SurfModel.t_surfs t') (SurfModel.s_dist (SurfModel.new_surface g (SurfModel.t_next t') l')) in
     {| SurfModel.t_found := fo; SurfModel.t_last := m'; SurfModel.t_surfs := ss ++ [SurfModel.new_surface g (SurfModel.t_next t') l'];
        SurfModel.t_bursts := SurfModel.t_bursts t' ++ [b']; SurfModel.t_next := S (SurfModel.t_next t') |})).
  { intros l l' m m' L. rewrite T1, T4. pose proof (new_retimed g (SurfModel.t_next t) l l' L) as NS. pose proof NS as (_ & _ & _ & _ & N5 & _). rewrite N5.
    destruct (focus_retimed g (SurfModel.t_found t) _ _ (SurfModel.s_dist (SurfModel.new_surface g (SurfModel.t_next t) l)) T2) as (F1 & F2).
    rewrite (pair_eta (SurfModel.focus g (SurfModel.t_found t) (SurfModel.t_surfs t) _)), (pair_eta (SurfModel.focus g (SurfModel.t_found t) (SurfModel.t_surfs t') _)).
    rewrite F1. unfold retimed_state. cbn [SurfModel.t_found SurfModel.t_surfs SurfModel.t_bursts SurfModel.t_next].
    split; [reflexivity|]. split; [|split; [exact BS|reflexivity]]. apply Forall2_app; [exact F2|]. constructor; [exact NS|constructor]. }
  assert (KP : retimed_state {| SurfModel.t_found := SurfModel.t_found t; SurfModel.t_last := SurfModel.t_last t; SurfModel.t_surfs := SurfModel.t_surfs t;
                 SurfModel.t_bursts := SurfModel.t_bursts t ++ [b]; SurfModel.t_next := SurfModel.t_next t |}
     {| SurfModel.t_found := SurfModel.t_found t'; SurfModel.t_last := SurfModel.t_last t'; SurfModel.t_surfs := SurfModel.t_surfs t';
                 SurfModel.t_bursts := SurfModel.t_bursts t' ++ [b']; SurfModel.t_next := SurfModel.t_next t' |}).
  { unfold retimed_state. cbn [SurfModel.t_found SurfModel.t_surfs SurfModel.t_bursts SurfModel.t_next]. repeat (split; [assumption|]). assumption. }
  assert (FI : both (retimed_loc T) (SurfModel.first_location (SurfModel.g_k g) n (SurfModel.t_last t) b) (SurfModel.first_location (SurfModel.g_k g) n (SurfModel.t_last t') b'))
    by (apply first_retimed; exact B).
  assert (LS : both (retimed_surface T) (if f then None else SurfModel.last1 (SurfModel.t_surfs t)) (if f then None else SurfModel.last1 (SurfModel.t_surfs t'))).
  { destruct f; [exact I|]. unfold SurfModel.last1. pose proof (F2_rev _ _ _ T2) as R. destruct R; [exact I|assumption]. }
  destruct (if f then None else SurfModel.last1 (SurfModel.t_surfs t)) as [s|], (if f then None else SurfModel.last1 (SurfModel.t_surfs t')) as [s'|]; try contradiction.
  - assert (L2 : both (fun x y => retimed_burst (fst x) (fst y) /\ retimed_burst (snd x) (snd y)) (SurfModel.last2 (SurfModel.t_bursts t ++ [b])) (SurfModel.last2 (SurfModel.t_bursts t' ++ [b']))).
    { unfold SurfModel.last2. pose proof (F2_rev _ _ _ BS) as R. destruct R as [|? ? ? ? R1 R]; [exact I|]. destruct R as [|? ? ? ? R2 R]; [exact I|]. cbn. auto. }
    destruct (SurfModel.last2 (SurfModel.t_bursts t ++ [b])) as [[p c]|], (SurfModel.last2 (SurfModel.t_bursts t' ++ [b'])) as [[p' c']|]; try contradiction;
      [|split; [exact KP|reflexivity]].
    cbn in L2. destruct L2 as (P & C). pose proof (find_retimed (SurfModel.g_k g) s s' p p' c c' LS P C) as FN.
    destruct (SurfModel.find_new_location (SurfModel.g_k g) s p c) as [l|], (SurfModel.find_new_location (SurfModel.g_k g) s' p' c') as [l'|]; try contradiction;
      [|split; [exact KP|reflexivity]].
    cbn [fst snd]. split; [|reflexivity]. apply CR. exact FN.
  - destruct (SurfModel.first_location (SurfModel.g_k g) n (SurfModel.t_last t) b) as [l|], (SurfModel.first_location (SurfModel.g_k g) n (SurfModel.t_last t') b') as [l'|]; try contradiction;
      [|split; [exact KP|reflexivity]].
    cbn [fst snd]. split; [|reflexivity]. apply CR. exact FI.
Qed.
Lemma drop_retimed : forall g n o t t', retimed_state t t' -> match o with SurfModel.Burst _ _ => False | _ => True end ->
  retimed_state (SurfModel.run_op g n o t) (SurfModel.run_op g n o t').
Proof.
  intros g n o t t' (T1 & T2 & T3 & T4) O. destruct o as [f b| |k]; [contradiction| |]; cbn [SurfModel.run_op]; unfold retimed_state;
    cbn [SurfModel.t_found SurfModel.t_surfs SurfModel.t_bursts SurfModel.t_next].
  - split; [assumption|]. split; [|split; assumption]. destruct T2; [constructor|assumption].
  - split; [assumption|]. split; [assumption|]. split; [apply F2_skipn; assumption|assumption].
Qed.

(** * Beams *)
Lemma lowest_retimed : forall b b', retimed_burst b b' -> lowest u b' = lowest u b.
Proof. intros b b' (_ & (_ & _ & E & _) & _). unfold lowest. rewrite E. reflexivity. Qed.
Lemma dop_retimed : forall b b', retimed_burst b b' -> dop u b' = dop u b.
Proof. intros b b' (_ & (E1 & _ & E & _) & _). unfold dop. rewrite E1, E. reflexivity. Qed.
Lemma angle_retimed : forall b b' s s', retimed_burst b b' -> retimed_surface T s s' -> angle b' s' = angle b s.
Proof.
  intros b b' s s' (_ & (_ & _ & E & _) & E8 & _) (_ & L & _). unfold angle.
  destruct (SurfModel.s_loc s) as [l|], (SurfModel.s_loc s') as [l'|]; try contradiction; [|reflexivity].
  destruct L as (_ & L1 & _). rewrite E, E8, L1. reflexivity.
Qed.
Lemma sees_retimed : forall b b' s s', retimed_burst b b' -> retimed_surface T s s' -> sees u b' s' = sees u b s.
Proof.
  intros b b' s s' B S. unfold sees. rewrite (lowest_retimed _ _ B), (angle_retimed _ _ _ _ B S), (dop_retimed _ _ B). reflexivity.
Qed.
Lemma by_uid_retimed : forall ss ss' n, Forall2 (retimed_surface T) ss ss' -> both (retimed_surface T) (by_uid ss n) (by_uid ss' n).
Proof. apply by_uid_rel. intros s s' H. exact (proj1 H). Qed.
Lemma fails_retimed : forall t t1 t' t1', same_fails (oracle_at u input t t1) (oracle_at u input' t' t1').
Proof.
  intros t t1 t' t1'. apply (fails_rel u u input input' retimed_burst).
  - repeat split.
  - exact data_retimed.
  - exact lowest_retimed.
Qed.
Lemma vis_retimed : forall t t1 t' t1' p, retimed_state t1 t1' -> agree_vis (oracle_at u input t t1) (oracle_at u input' t' t1') p.
Proof.
  intros t t1 t' t1' p (_ & R & _) s. cbn. pose proof (data_retimed p) as D. pose proof (by_uid_retimed _ _ s R) as B.
  destruct (data u input p) as [b|], (data u input' p) as [b'|]; try contradiction; [|reflexivity].
  destruct (by_uid (SurfModel.t_surfs t1) s) as [x|], (by_uid (SurfModel.t_surfs t1') s) as [x'|]; try contradiction; [|reflexivity].
  symmetry. apply sees_retimed; assumption.
Qed.
Lemma stored_retimed : forall t1 t1' a, retimed_state t1 t1' -> stored u input' t1' a = stored u input t1 a.
Proof.
  intros t1 t1' a (_ & R & _). unfold stored. f_equal. apply map_ext. intros c. pose proof (data_retimed (a_uid a)) as D. pose proof (by_uid_retimed _ _ c R) as B.
  destruct (data u input (a_uid a)) as [b|], (data u input' (a_uid a)) as [b'|]; try contradiction; [|reflexivity].
  destruct (by_uid (SurfModel.t_surfs t1) c) as [x|], (by_uid (SurfModel.t_surfs t1') c) as [x'|]; try contradiction; [|reflexivity].
  apply angle_retimed; assumption.
Qed.
Lemma picked_retimed : forall angles l, picked u input' angles l = picked u input angles l.
Proof.
  intros angles l. unfold picked. f_equal. f_equal. apply map_ext. intros e. unfold look. pose proof (data_retimed (e_uid e)) as D.
  destruct (data u input (e_uid e)) as [b|], (data u input' (e_uid e)) as [b'|]; try contradiction; [|reflexivity].
  rewrite (dop_retimed _ _ D). reflexivity.
Qed.
Lemma erased : Forall2 same_item (map erase input) (map erase input').
Proof. clear - RI. induction RI as [|i i' l l' H F IH]; cbn; constructor; auto. destruct i, i'; cbn in *; try contradiction; exact Logic.I. Qed.
Lemma gap_joined : forall gap l l', Forall2 same_item l l' -> forall b b' p, joined gap b' l' = joined gap b l ->
  after_gap gap b' l' p = after_gap gap b l p.
Proof.
  intros gap l l' F. induction F as [|i i' l l' H F IH]; intros b b' p E; [reflexivity|].
  destruct i as [t| |], i' as [t'| |]; try contradiction; cbn [joined after_gap] in *.
  - injection E as E1 E2. destruct p as [|p]; [|exact (IH _ _ p E2)]. destruct b, b'; first [rewrite E1; reflexivity|rewrite <- E1; reflexivity|reflexivity].
  - destruct p as [|p]; [reflexivity|exact (IH _ _ p E)].
  - reflexivity.
Qed.
Lemma gap_retimed : forall p, after_gap (c_gap (u_cf u)) None (map erase input') p = after_gap (c_gap (u_cf u)) None (map erase input) p.
Proof. intros p. exact (gap_joined _ _ _ erased None None p J). Qed.
Lemma echo_retimed : forall p w, echo_of u input' p w = echo_of u input p w.
Proof. intros p w. unfold echo_of. rewrite gap_retimed. reflexivity. Qed.
Lemma view_retimed : forall angles e, view u input' angles e = view u input angles e.
Proof.
  intros angles e. unfold view. pose proof (records_retimed (e_uid e)) as R.
  destruct (record_of input (e_uid e)) as [r|], (record_of input' (e_uid e)) as [r'|]; try contradiction; [|reflexivity].
  destruct R as (R1 & R2 & R3). destruct (prepared_retimed r r' R1 R2) as (_ & (_ & E2 & E3 & _) & E8 & _).
  cbv zeta. rewrite echo_retimed, R3, E2, E3, E8. reflexivity.
Qed.
Lemma product_retimed : forall t t' angles s, retimed_state t t' ->
  retimed_product T (product_of u input t angles s) (product_of u input' t' angles s).
Proof.
  intros t t' angles s (_ & S & _). unfold retimed_product, product_of. cbn [pr_number pr_surf pr_stack pr_bursts pr_looks].
  pose proof (by_uid_retimed _ _ (s_uid s) S) as B. rewrite picked_retimed, (map_ext _ _ (view_retimed angles)).
  split; [reflexivity|]. split; [exact B|]. split; [reflexivity|]. split; [reflexivity|].
  destruct (by_uid (SurfModel.t_surfs t) (s_uid s)) as [x|], (by_uid (SurfModel.t_surfs t') (s_uid s)) as [x'|]; try contradiction; [|reflexivity].
  destruct (all_some _); [|reflexivity]. destruct B as (_ & L & _).
  destruct (SurfModel.s_loc x) as [g|], (SurfModel.s_loc x') as [g'|]; try contradiction; [|reflexivity].
  destruct L as (_ & L1 & _ & _ & _ & _ & _ & _ & _ & _ & L2). unfold ground. rewrite L1, L2. reflexivity.
Qed.

(** * The run *)
Notation gap := (c_gap (u_cf u)).
Definition crel (w w' : wst) : Prop :=
  same_st gap (x_s w) (x_s w') /\ retimed_state (x_t w) (x_t w') /\ x_angles w' = x_angles w /\ Forall2 (retimed_product T) (x_out w) (x_out w').

Lemma geo_retimed : forall w w', crel w w' ->
  same_read gap (read_phase (u_cf u) (oracle_at u input (x_t w) (x_t w)) 0 (x_s w)) (read_phase (u_cf u) (oracle_at u input' (x_t w') (x_t w')) 0 (x_s w')) /\
  retimed_state (fst (geo_read u input w)) (fst (geo_read u input' w')) /\ snd (geo_read u input' w') = snd (geo_read u input w) /\
  (forall p, found u input (x_t w) p = found u input' (x_t w') p).
Proof.
  intros w w' (XS & XT & XA & XO).
  set (d := oracle_at u input (x_t w) (x_t w)). set (d' := oracle_at u input' (x_t w') (x_t w')).
  assert (FD : forall p, found u input (x_t w) p = found u input' (x_t w') p).
  { intros p. unfold found. pose proof (data_retimed p) as D. destruct (data u input p) as [b|], (data u input' p) as [b'|]; try contradiction; [|reflexivity].
    rewrite (proj2 (step_retimed (u_g u) (u_fuel u) false b b' _ _ XT D)). reflexivity. }
  assert (E : read_phase (u_cf u) d' 0 (x_s w') = read_phase (u_cf u) d 0 (x_s w')).
  { apply (read_ext (u_cf u) d d' 0 (x_s w') _ eq_refl). intros p A R x. cbn. apply FD. }
  split; [rewrite E; apply read_same; exact XS|].
  assert (A : arrived (x_s w') (read_phase (u_cf u) d' 0 (x_s w')) = arrived (x_s w) (read_phase (u_cf u) d 0 (x_s w))) by (rewrite E; apply arrived_same; exact XS).
  unfold geo_read. fold d d'. rewrite A. pose proof XS as ((_ & _ & _ & _ & _ & RS & _) & _). rewrite RS.
  destruct (arrived (x_s w) (read_phase (u_cf u) d 0 (x_s w))) as [p|]; [|split; [exact XT|split; [reflexivity|exact FD]]].
  pose proof (data_retimed p) as D.
  destruct (data u input p) as [b|], (data u input' p) as [b'|]; try contradiction; [|split; [exact XT|split; [reflexivity|exact FD]]].
  destruct (step_retimed (u_g u) (u_fuel u) (i_resume (s_in (x_s w))) b b' _ _ XT D) as (S1 & S2).
  destruct (SurfModel.step_burst (u_g u) (u_fuel u) (i_resume (s_in (x_s w))) b (x_t w)) as [t1 r].
  destruct (SurfModel.step_burst (u_g u) (u_fuel u) (i_resume (s_in (x_s w))) b' (x_t w')) as [t1' r'].
  cbn [fst snd] in *. subst r'. split; [exact S1|]. split; [reflexivity|exact FD].
Qed.
Definition out_rel (r r' : step_res * wst) : Prop :=
  match fst r, fst r' with
  | BCont _, BCont _ => crel (snd r) (snd r')
  | BEnd _, BEnd _ => Forall2 (retimed_product T) (x_out (snd r)) (x_out (snd r'))
  | BRaise e _, BRaise e' _ => e' = e /\ Forall2 (retimed_product T) (x_out (snd r)) (x_out (snd r'))
  | _, _ => False
  end.
Lemma wbody_retimed : forall w w', crel w w' ->
  match wbody u input w, wbody u input' w' with
  | None, None => True
  | Some r, Some r' => out_rel r r'
  | _, _ => False
  end.
Proof.
  intros w w' R. destruct (geo_retimed w w' R) as (E & TT & S & FD). unfold wbody.
  destruct (geo_read u input w) as [t1 ok]. destruct (geo_read u input' w') as [t1' ok']. cbn [fst snd] in *. subst ok'.
  destruct ok; [|exact I]. destruct R as (XS & XT & XA & XO).
  set (o := oracle_at u input (x_t w) t1). set (o' := oracle_at u input' (x_t w') t1').
  assert (B : body (u_cf u) o' 0 (x_s w') = body (u_cf u) o 0 (x_s w')).
  { destruct (body_ext (u_cf u) o 0 (x_s w') _ eq_refl) as (new & _ & _ & _ & EXT). apply EXT.
    - apply fails_retimed.
    - intros a _. apply vis_retimed. exact TT.
    - intros p A RS x. cbn. apply FD. }
  rewrite B. pose proof (body_same (u_cf u) o _ _ XS) as BS.
  set (r := body (u_cf u) o 0 (x_s w)) in *. set (r' := body (u_cf u) o 0 (x_s w')) in *.
  assert (W : weak_st (step_st r) (step_st r')).
  { destruct r as [s|s|e s], r' as [s'|s'|e' s']; try contradiction; cbn in BS |- *.
    - destruct BS as (_ & _ & Q & O & _). split; assumption.
    - exact BS.
    - exact (proj2 BS). }
  assert (ADV : retimed_state (x_t (advance u input w t1 (step_st r))) (x_t (advance u input' w' t1' (step_st r'))) /\
    x_angles (advance u input' w' t1' (step_st r')) = x_angles (advance u input w t1 (step_st r)) /\
    Forall2 (retimed_product T) (x_out (advance u input w t1 (step_st r))) (x_out (advance u input' w' t1' (step_st r')))).
  { destruct W as ((Q1 & Q2 & Q3 & Q4 & Q5 & Q6 & Q7) & O). pose proof XS as (_ & _ & (_ & _ & _ & _ & _ & _ & Z7) & ZO & _).
    unfold advance. cbn [x_t x_angles x_out]. rewrite O, ZO, Q7, Z7, XA.
    rewrite (map_ext (stored u input' t1') (stored u input t1)) by (intros a; apply stored_retimed; exact TT).
    rewrite (F2_length _ _ _ Q2). pose proof TT as (_ & _ & TB & _). rewrite (F2_length _ _ _ TB).
    split; [|split; [reflexivity|]].
    - apply drop_retimed; [|exact I]. destruct (_ <? _); [|exact TT]. apply drop_retimed; [exact TT|exact I].
    - apply Forall2_app; [exact XO|]. apply Forall2_maps. intros s. apply product_retimed. exact TT. }
  unfold out_rel. cbn [fst snd]. destruct r as [s|s|e s] eqn:ER, r' as [s'|s'|e' s'] eqn:ER'; try contradiction; cbn [same_step] in BS.
  - destruct ADV as (A1 & A2 & A3). split; [exact BS|]. split; [exact A1|split; [exact A2|exact A3]].
  - exact (proj2 (proj2 ADV)).
  - split; [exact (proj1 BS)|exact (proj2 (proj2 ADV))].
Qed.
Lemma wloop_retimed : forall cancel f k w w', crel w w' ->
  same_results T (wloop u input cancel f k w) (wloop u input' cancel f k w').
Proof.
  intros cancel. induction f as [|f IH]; intros k w w' R; cbn [wloop]; [exact (proj2 (proj2 (proj2 R)))|].
  pose proof (wbody_retimed w w' R) as B.
  destruct (wbody u input w) as [[r w1]|], (wbody u input' w') as [[r' w1']|]; try contradiction; [|exact (proj2 (proj2 (proj2 R)))].
  unfold out_rel in B. cbn [fst snd] in B. destruct r as [s|s|e s], r' as [s'|s'|e' s']; try contradiction.
  - destruct (cancel k); [split; [reflexivity|exact (proj2 (proj2 (proj2 B)))]|apply IH; exact B].
  - split; [reflexivity|exact B].
  - exact B.
Qed.
Lemma enough_same : forall l l', Forall2 same_item l l' -> enough [] l' = enough [] l.
Proof. intros l l' F. unfold enough. rewrite (F2_length _ _ _ F). reflexivity. Qed.
Lemma whole_retimed : forall cancel,
  same_results T (whole u cancel input) (whole u cancel input').
Proof.
  intros cancel. unfold whole. rewrite (enough_same _ _ erased). apply wloop_retimed. unfold crel, wst0. cbn [x_s x_t x_angles x_out].
  split; [|split; [|split; [reflexivity|constructor]]].
  - unfold same_st, same_inp, same_times, same_que, before, pending; cbn. split; [|split; [|split; [|split; reflexivity]]].
    + split; [exact erased|]. repeat split.
    + split; [exact J|]. split; discriminate.
    + repeat split; constructor.
  - unfold retimed_state; cbn. repeat split; constructor.
Qed.
End Clock.

(** * Shifts *)
Lemma joined_shift : forall gap d l l' b b',
  Forall2 (fun i i' => match i, i' with Valid t, Valid t' => (t' == t + d)%Q | Nothing, Nothing => True | ReadFail, ReadFail => True | _, _ => False end) l l' ->
  match b, b' with Some t, Some t' => (t' == t + d)%Q | None, None => True | _, _ => False end ->
  joined gap b' l' = joined gap b l.
Proof.
  intros gap d l l' b b' F. revert b b'. induction F as [|i i' l l' H F IH]; intros b b' B; [reflexivity|].
  destruct i as [t| |], i' as [t'| |]; try contradiction; cbn [joined]; [|apply IH; exact B|reflexivity].
  f_equal; [|apply IH; exact H]. destruct b as [x|], b' as [x'|]; try contradiction; [|reflexivity].
  unfold lt_q. f_equal. apply Bool.eq_true_iff_eq. rewrite !Qle_bool_iff. rewrite B, H.
  assert (E : (t + d - (x + d) == t - x)%Q) by ring. rewrite E. reflexivity.
Qed.
