(** Two runs whose geometry corresponds. *)
From Coq Require Import List ZArith QArith Reals Bool Lia.
From Verif Require Import Common Cplx GeoModel BeamModel ChainModel ChainProofs WholeModel WholeSpec WholeChain WholeProofs.
From Verif Require SurfModel DopModel RotSpec.
Import ListNotations.
Local Open Scope nat_scope.
Import RotSpec.

Section Sim.
Variables (u u' : setup) (input input' : list witem).
Variables (Rt : SurfModel.st -> SurfModel.st -> Prop) (Rb : SurfModel.burst -> SurfModel.burst -> Prop)
  (Rs : SurfModel.surface -> SurfModel.surface -> Prop) (Rp : product -> product -> Prop) (Good : SurfModel.st -> Prop).
Hypothesis HC : u_cf u' = u_cf u.
Hypothesis HF : u_az_fail u' = u_az_fail u /\ u_corr_fail u' = u_corr_fail u /\ u_w1_fail u' = u_w1_fail u /\ u_w2_fail u' = u_w2_fail u.
Hypothesis HE : map erase input' = map erase input.
Hypothesis HD : forall p, both Rb (data u input p) (data u' input' p).
Hypothesis HL : forall b b', Rb b b' -> lowest u' b' = lowest u b.
Hypothesis HA : forall b b' s s', Rb b b' -> Rs s s' -> angle b' s' = angle b s.
Hypothesis HV : forall b b' s s', Rb b b' -> Rs s s' -> sees u' b' s' = sees u b s.
Hypothesis HU : forall s s', Rs s s' -> SurfModel.s_uid s' = SurfModel.s_uid s.
Hypothesis HS : forall t t', Rt t t' -> Forall2 Rs (SurfModel.t_surfs t) (SurfModel.t_surfs t').
Hypothesis HB : forall t t', Rt t t' -> length (SurfModel.t_bursts t') = length (SurfModel.t_bursts t).
Hypothesis HO : forall o t t', Rt t t' -> match o with SurfModel.Burst _ _ => False | _ => True end ->
  Rt (SurfModel.run_op (u_g u) (u_fuel u) o t) (SurfModel.run_op (u_g u') (u_fuel u') o t').
Hypothesis HT : forall f p b b' t t', Rt t t' -> data u input p = Some b -> data u' input' p = Some b' ->
  Good (fst (SurfModel.step_burst (u_g u) (u_fuel u) f b t)) ->
  Rt (fst (SurfModel.step_burst (u_g u) (u_fuel u) f b t)) (fst (SurfModel.step_burst (u_g u') (u_fuel u') f b' t')) /\
  snd (SurfModel.step_burst (u_g u') (u_fuel u') f b' t') = snd (SurfModel.step_burst (u_g u) (u_fuel u) f b t).
Hypothesis HP : forall t t' angles s, Rt t t' -> Rp (product_of u input t angles s) (product_of u' input' t' angles s).

Definition rel : wst -> wst -> Prop := same_run Rt Rp.

Lemma by_uid_rel : forall ss ss' n, Forall2 Rs ss ss' -> both Rs (by_uid ss n) (by_uid ss' n).
Proof.
  intros ss ss' n F. unfold by_uid. induction F as [|s s' ss ss' H F IH]; cbn; [exact I|].
  rewrite (HU s s' H). destruct (Nat.eqb _ n); [exact H|exact IH].
Qed.
Lemma both_none : forall {A B} (R : A -> B -> Prop) x y, both R x y -> (x = None <-> y = None).
Proof. intros A B R [x|] [y|]; cbn; intros H; split; intros E; try discriminate; try contradiction; reflexivity. Qed.

Lemma fails_rel : forall t t1 t' t1', same_fails (oracle_at u input t t1) (oracle_at u' input' t' t1').
Proof.
  intros t t1 t' t1'. destruct HF as (F1 & F2 & F3 & F4). unfold same_fails, oracle_at; cbn. rewrite F1, F2, F3, F4.
  repeat split. intros p. f_equal. pose proof (HD p) as D. destruct (data u input p) as [b|], (data u' input' p) as [b'|]; try contradiction; [|reflexivity].
  rewrite (HL b b' D). reflexivity.
Qed.
Lemma vis_rel : forall t t1 t' t1' p, Rt t1 t1' -> agree_vis (oracle_at u input t t1) (oracle_at u' input' t' t1') p.
Proof.
  intros t t1 t' t1' p R s. cbn. pose proof (HD p) as D. pose proof (by_uid_rel _ _ s (HS _ _ R)) as B.
  destruct (data u input p) as [b|], (data u' input' p) as [b'|]; try contradiction; [|reflexivity].
  destruct (by_uid (SurfModel.t_surfs t1) s) as [x|], (by_uid (SurfModel.t_surfs t1') s) as [x'|]; try contradiction; [|reflexivity].
  symmetry. apply HV; assumption.
Qed.

Lemma geo_rel : forall w w', rel w w' -> Good (fst (geo_read u input w)) ->
  read_phase (u_cf u') (oracle_at u' input' (x_t w') (x_t w')) 0 (x_s w') = read_phase (u_cf u) (oracle_at u input (x_t w) (x_t w)) 0 (x_s w) /\
  Rt (fst (geo_read u input w)) (fst (geo_read u' input' w')) /\ snd (geo_read u' input' w') = snd (geo_read u input w) /\
  (forall p, arrived (x_s w) (read_phase (u_cf u) (oracle_at u input (x_t w) (x_t w)) 0 (x_s w)) = Some p -> i_resume (s_in (x_s w)) = false ->
     found u input (x_t w) p = found u' input' (x_t w') p).
Proof.
  intros w w' (XS & XT & XA & XO) G.
  set (d := oracle_at u input (x_t w) (x_t w)) in *. set (d' := oracle_at u' input' (x_t w') (x_t w')).
  assert (FD : forall p, arrived (x_s w) (read_phase (u_cf u) d 0 (x_s w)) = Some p -> i_resume (s_in (x_s w)) = false ->
     found u input (x_t w) p = found u' input' (x_t w') p).
  { intros p A R. unfold found. pose proof (HD p) as D. unfold geo_read in G. fold d in G. rewrite A in G.
    destruct (data u input p) as [b|] eqn:E, (data u' input' p) as [b'|] eqn:E'; try contradiction; [|reflexivity].
    rewrite R in G. destruct (HT false p b b' (x_t w) (x_t w') XT E E') as (_ & S).
    - destruct (SurfModel.step_burst _ _ _ _ _) as [t1 r]. exact G.
    - rewrite S. reflexivity. }
  assert (E : read_phase (u_cf u') d' 0 (x_s w') = read_phase (u_cf u) d 0 (x_s w)).
  { rewrite HC, XS. apply (read_ext (u_cf u) d d' 0 (x_s w) _ eq_refl). intros p A R x. cbn. apply FD; assumption. }
  split; [exact E|]. unfold geo_read in *. fold d in G |- *. fold d'. rewrite E, XS.
  destruct (arrived (x_s w) (read_phase (u_cf u) d 0 (x_s w))) as [p|]; [|split; [exact XT|split; [reflexivity|exact FD]]].
  pose proof (HD p) as D.
  destruct (data u input p) as [b|] eqn:E1, (data u' input' p) as [b'|] eqn:E2; try contradiction;
    [|split; [exact XT|split; [reflexivity|exact FD]]].
  pose proof (HT (i_resume (s_in (x_s w))) p b b' (x_t w) (x_t w') XT E1 E2) as T.
  destruct (SurfModel.step_burst (u_g u) (u_fuel u) (i_resume (s_in (x_s w))) b (x_t w)) as [t1 r] eqn:S1.
  destruct (SurfModel.step_burst (u_g u') (u_fuel u') (i_resume (s_in (x_s w))) b' (x_t w')) as [t1' r'] eqn:S2.
  cbn [fst snd] in *. destruct (T G) as (T1 & ->). split; [exact T1|]. split; [reflexivity|exact FD].
Qed.

Lemma stored_rel : forall t1 t1' a, Rt t1 t1' -> stored u' input' t1' a = stored u input t1 a.
Proof.
  intros t1 t1' a R. unfold stored. f_equal. apply map_ext. intros c.
  pose proof (HD (a_uid a)) as D. pose proof (by_uid_rel _ _ c (HS _ _ R)) as B.
  destruct (data u input (a_uid a)) as [b|], (data u' input' (a_uid a)) as [b'|]; try contradiction; [|reflexivity].
  destruct (by_uid (SurfModel.t_surfs t1) c) as [x|], (by_uid (SurfModel.t_surfs t1') c) as [x'|]; try contradiction; [|reflexivity].
  apply HA; assumption.
Qed.
Lemma Forall2_maps : forall {A B C} (R : B -> C -> Prop) (f : A -> B) (g : A -> C) l, (forall a, R (f a) (g a)) -> Forall2 R (map f l) (map g l).
Proof. intros A B C R f g l H. induction l; cbn; constructor; auto. Qed.
Lemma advance_rel : forall w w' t1 t1' s', rel w w' -> Rt t1 t1' -> rel (advance u input w t1 s') (advance u' input' w' t1' s').
Proof.
  intros w w' t1 t1' s' (XS & XT & XA & XO) R. unfold rel, same_run, advance. cbn [x_s x_t x_angles x_out]. rewrite XS, XA.
  assert (ST : forall l, map (stored u' input' t1') l = map (stored u input t1) l).
  { intros l. apply map_ext. intros a. apply stored_rel. exact R. }
  rewrite ST. split; [reflexivity|]. split; [|split; [reflexivity|]].
  - rewrite (HB _ _ R). apply HO; [|exact I]. destruct (_ <? _); [|exact R]. apply HO; [exact R|exact I].
  - apply Forall2_app; [exact XO|]. apply Forall2_maps. intros s. apply HP. exact R.
Qed.
Lemma wbody_rel : forall w w', rel w w' -> Good (fst (geo_read u input w)) ->
  match wbody u input w, wbody u' input' w' with
  | None, None => True
  | Some (r, w1), Some (r', w1') => r' = r /\ rel w1 w1'
  | _, _ => False
  end.
Proof.
  intros w w' R G. pose proof (geo_rel w w' R G) as (E & T & S & FD). unfold wbody.
  destruct (geo_read u input w) as [t1 ok]. destruct (geo_read u' input' w') as [t1' ok']. cbn [fst snd] in *. subst ok'.
  destruct ok; [|exact I].
  assert (B : body (u_cf u') (oracle_at u' input' (x_t w') t1') 0 (x_s w') = body (u_cf u) (oracle_at u input (x_t w) t1) 0 (x_s w)).
  { destruct R as (XS & XT & XA & XO). rewrite HC, XS.
    destruct (body_ext (u_cf u) (oracle_at u input (x_t w) t1) 0 (x_s w) _ eq_refl) as (new & _ & _ & _ & EXT). apply EXT.
    - apply fails_rel.
    - intros a _. apply vis_rel. exact T.
    - intros p A RS x. cbn. apply FD; [|exact RS]. rewrite <- A. reflexivity. }
  rewrite B. split; [reflexivity|]. apply advance_rel; assumption.
Qed.
Lemma wloop_rel : forall cancel f k w w' , rel w w' -> state_after u input k = Some w ->
  (forall n w, state_after u input n = Some w -> Good (fst (geo_read u input w))) ->
  like rel (wloop u input cancel f k w) (wloop u' input' cancel f k w').
Proof.
  intros cancel. induction f as [|f IH]; intros k w w' R S G; cbn [wloop]; [exact R|].
  pose proof (wbody_rel w w' R (G _ _ S)) as B.
  destruct (wbody u input w) as [[r w1]|] eqn:W, (wbody u' input' w') as [[r' w1']|] eqn:W'; try contradiction; [|exact R].
  destruct B as (-> & R1). destruct r as [s'|s'|e s'].
  - destruct (cancel k); [split; [exact R1|reflexivity]|]. apply IH; [exact R1| |exact G].
    cbn [state_after]. rewrite S, W. reflexivity.
  - split; [exact R1|reflexivity].
  - split; [exact R1|reflexivity].
Qed.
Lemma whole_rel : forall cancel, Rt SurfModel.st0 SurfModel.st0 ->
  (forall n w, state_after u input n = Some w -> Good (fst (geo_read u input w))) ->
  like rel (whole u cancel input) (whole u' cancel input').
Proof.
  intros cancel R0 G. unfold whole. rewrite HE. apply wloop_rel; [|reflexivity|exact G].
  unfold rel, same_run, wst0. cbn [x_s x_t x_angles x_out]. rewrite HE. repeat split; [exact R0|constructor].
Qed.
End Sim.
