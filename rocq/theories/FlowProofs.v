(** Proofs about the attributes of surfaces and bursts. *)
From Coq Require Import List String Bool Permutation.
From Verif Require Import SchModel PktModel FlowModel FlowSpec.
Import ListNotations.
Local Open Scope string_scope.
Local Open Scope list_scope.
Local Arguments String.eqb : simpl never.
Local Arguments exec {V} d readonly f bs t x : simpl never.

Lemma mem_In : forall k l, mem k l = true <-> In k l.
Proof.
  intros k l. unfold mem. rewrite existsb_exists. split.
  - intros (x & Hx & E). apply String.eqb_eq in E. subst. exact Hx.
  - intros H. exists k. split; [exact H|]. apply String.eqb_refl.
Qed.
Lemma mem_not : forall k l, mem k l = false <-> ~ In k l.
Proof. intros k l. rewrite <- mem_In. destruct (mem k l); split; intros H; try discriminate; try tauto; congruence. Qed.

Section V.
Variable V : Type.
Implicit Types s a : store V.

Lemma put_same : forall k (v : V) s, put k v s k = Some v.
Proof. intros. unfold put. rewrite String.eqb_refl. reflexivity. Qed.
Lemma put_has : forall k (v : V) s x, has (put k v s) x <-> x = k \/ has s x.
Proof.
  intros k v s x. unfold has, put. destruct (String.eqb_spec x k) as [E|E].
  - subst. split; intros; [left; reflexivity|exists v; reflexivity].
  - split; [intros (w & H); right; exists w; exact H|].
    intros [H|(w & H)]; [contradiction|exists w; exact H].
Qed.
Lemma put_all_has : forall (f : string -> V) ks s x, has (put_all f ks s) x <-> In x ks \/ has s x.
Proof.
  intros f ks. induction ks as [|k r IH]; intros s x; simpl; [tauto|].
  rewrite IH, put_has. intuition (subst; auto).
Qed.
Lemma has_none : forall s k, s k = None <-> ~ has s k.
Proof.
  intros s k. unfold has. destruct (s k) eqn:E; split; intros H; try discriminate; try reflexivity.
  - exfalso. apply H. exists v. reflexivity.
  - intros (w & W). discriminate.
Qed.

Lemma read_all_ok : forall s ks, succeeds (read_all s ks) <-> has_all s ks.
Proof.
  intros s ks. induction ks as [|k r IH]; simpl.
  - split; [intros _ k []|intros _; exists []; reflexivity].
  - split.
    + intros (l & H). destruct (s k) eqn:E; [|discriminate].
      destruct (read_all s r) eqn:R; [|discriminate].
      intros x [<-|Hx]; [exists v; exact E|]. apply IH; [eexists; reflexivity|exact Hx].
    + intros H. destruct (H k (or_introl eq_refl)) as (v & E). rewrite E.
      destruct IH as [_ IH]. destruct IH as (l & L); [intros x Hx; apply H; right; exact Hx|].
      rewrite L. eexists. reflexivity.
Qed.
Lemma read_each_ok : forall (bs : list (store V)) ks,
  succeeds (read_each bs ks) <-> forall b, In b bs -> has_all b ks.
Proof.
  intros bs ks. induction bs as [|b r IH]; simpl.
  - split; [intros _ b []|intros _; exists []; reflexivity].
  - split.
    + intros (l & H). destruct (read_all b ks) eqn:R; [|discriminate]. simpl in H.
      destruct (read_each r ks) eqn:E; [|discriminate].
      intros x [<-|Hx]; [apply read_all_ok; eexists; exact R|].
      apply IH; [eexists; reflexivity|exact Hx].
    + intros H. destruct (proj2 (read_all_ok b ks) (H b (or_introl eq_refl))) as (v & R). rewrite R. simpl.
      destruct IH as [_ IH]. destruct IH as (l & L); [intros x Hx; apply H; right; exact Hx|].
      rewrite L. eexists. reflexivity.
Qed.

Lemma copy_all_ok : forall ro a l s,
  succeeds (copy_all ro a l s) <-> (forall k x, In (k, x) l -> has a x /\ mem k ro = false).
Proof.
  intros ro a l. induction l as [|[k x] r IH]; intros s; simpl.
  - split; [intros _ k x []|intros _; exists s; reflexivity].
  - split.
    + intros (s' & H). destruct (a x) eqn:E; [|discriminate]. unfold assign in H.
      destruct (mem k ro) eqn:M; [discriminate|]. simpl in H.
      intros k' x' [Q|Hx]; [injection Q as <- <-; split; [exists v; exact E|exact M]|].
      eapply IH; [eexists; exact H|exact Hx].
    + intros H. destruct (H k x (or_introl eq_refl)) as ((v & E) & M). rewrite E.
      unfold assign. rewrite M. simpl. apply IH. intros k' x' Hx. apply H. right. exact Hx.
Qed.
Lemma copy_all_has : forall ro a l s s', copy_all ro a l s = Ok s' ->
  forall k, has s' k <-> In k (map fst l) \/ has s k.
Proof.
  intros ro a l. induction l as [|[k x] r IH]; intros s s' H y; simpl in *.
  - injection H as <-. tauto.
  - destruct (a x) eqn:E; [|discriminate]. unfold assign in H.
    destruct (mem k ro) eqn:M; [discriminate|]. simpl in H.
    rewrite (IH _ _ H), put_has. intuition (subst; auto).
Qed.

(** Which attributes a step leaves. *)
Definition results (t : step) (extra : list string) : list string := t_always t ++ extra.
Definition avail (d : string -> list string) (ro : list string) (extra : string -> list string) (t : step)
    (l : list string) : option (list string) :=
  if forallb (fun k => mem k l) (derived_all d (t_own t)) &&
     forallb (fun kx => mem (snd kx) (results t (extra (t_alg t))) && negb (mem (fst kx) ro)) (t_copy t)
  then Some (map fst (t_copy t) ++ l) else None.
Fixpoint avails (d : string -> list string) (ro : list string) (extra : string -> list string) (ts : list step)
    (l : list string) : option (list string) :=
  match ts with
  | [] => Some l
  | t :: r => match avail d ro extra t l with None => None | Some l' => avails d ro extra r l' end
  end.

(** [extra]: the results an object has already *)
Definition objs (extra : string -> list string) (o : objects V) : Prop := forall n, has_all (o n) (extra n).
Definition bursts_ok (bs : list (store V)) (ts : list step) : Prop :=
  forall b t, In b bs -> In t ts -> has_all b (derived_all burst_derived (t_stack t)).

Lemma exec_avail : forall d ro f bs t extra o s l l',
  objs extra o -> bursts_ok bs [t] -> has_all s l -> avail d ro extra t l = Some l' ->
  exists o' s', exec d ro f bs t (o, s) = Ok (o', s') /\ objs extra o' /\ has_all s' l'.
Proof.
  intros d ro f bs t extra o s l l' Ho Hb Hs Ha. unfold avail in Ha.
  destruct (forallb _ (derived_all d (t_own t))) eqn:E1; [|discriminate].
  destruct (forallb _ (t_copy t)) eqn:E2; [|discriminate]. injection Ha as <-.
  rewrite forallb_forall in E1, E2. unfold exec.
  destruct (proj2 (read_all_ok s (derived_all d (t_own t)))) as (own & R1).
  { intros k Hk. apply Hs, mem_In, E1, Hk. }
  rewrite R1. simpl.
  destruct (proj2 (read_each_ok bs (derived_all burst_derived (t_stack t)))) as (st & R2).
  { intros b Hin. apply (Hb b t Hin). left. reflexivity. }
  rewrite R2. simpl.
  set (g := f (t_alg t) own st).
  set (a0 := put_all g (t_always t) (o (t_alg t))).
  set (a1 := match bs with [] => a0 | _ => put_all g (t_stacked t) a0 end).
  assert (A0 : forall k, In k (t_always t) \/ has (o (t_alg t)) k -> has a1 k).
  { intros k Hk. assert (H0 : has a0 k) by (apply put_all_has; exact Hk).
    unfold a1. destruct bs; [exact H0|]. apply put_all_has. right. exact H0. }
  destruct (proj2 (copy_all_ok ro a1 (t_copy t) s)) as (s' & R3).
  { intros k x Hin. specialize (E2 _ Hin). simpl in E2. apply andb_prop in E2. destruct E2 as [M1 M2].
    split; [|apply negb_true_iff; exact M2]. apply A0. apply mem_In in M1. unfold results in M1.
    apply in_app_or in M1. destruct M1 as [M1|M1]; [left; exact M1|right; apply Ho; exact M1]. }
  rewrite R3. simpl. eexists. exists s'. split; [reflexivity|]. split.
  - intros n k Hk. destruct (String.eqb_spec n (t_alg t)) as [->|N]; [|apply Ho; exact Hk].
    apply A0. right. apply Ho. exact Hk.
  - intros k Hk. apply (copy_all_has _ _ _ _ _ R3). apply in_app_or in Hk. destruct Hk as [Hk|Hk]; [left; exact Hk|].
    right. apply Hs. exact Hk.
Qed.
Lemma execs_avails : forall d ro f bs extra ts o s l l',
  objs extra o -> bursts_ok bs ts -> has_all s l -> avails d ro extra ts l = Some l' ->
  exists o' s', execs d ro f bs ts (o, s) = Ok (o', s') /\ objs extra o' /\ has_all s' l'.
Proof.
  intros d ro f bs extra ts. induction ts as [|t r IH]; intros o s l l' Ho Hb Hs Ha; simpl in *.
  - injection Ha as <-. exists o, s. auto.
  - destruct (avail d ro extra t l) as [l1|] eqn:E; [|discriminate].
    destruct (exec_avail d ro f bs t extra o s l l1) as (o1 & s1 & R & Ho1 & Hs1); auto.
    { intros b t' Hin [<-|[]]. apply Hb; [exact Hin|left; reflexivity]. }
    rewrite R. simpl. apply (IH o1 s1 l1 l'); auto.
    intros b t' Hin Ht. apply Hb; [exact Hin|right; exact Ht].
Qed.

(** A step that lacks something it reads stops the chain. *)
Lemma exec_lacks : forall d ro f bs t o s l,
  has_exactly s l -> forallb (fun k => mem k l) (derived_all d (t_own t)) = false ->
  ~ succeeds (exec d ro f bs t (o, s)).
Proof.
  intros d ro f bs t o s l Hs E ((o' & s') & H). unfold exec in H.
  destruct (read_all s (derived_all d (t_own t))) eqn:R; [|discriminate].
  assert (X : forallb (fun k => mem k l) (derived_all d (t_own t)) = true); [|congruence].
  apply forallb_forall. intros k Hk. apply mem_In, Hs.
  assert (S : succeeds (read_all s (derived_all d (t_own t)))) by (eexists; exact R).
  rewrite read_all_ok in S. apply S. exact Hk.
Qed.
Lemma exec_exactly : forall d ro f bs t o s l o' s',
  has_exactly s l -> exec d ro f bs t (o, s) = Ok (o', s') -> has_exactly s' (map fst (t_copy t) ++ l).
Proof.
  intros d ro f bs t o s l o' s' Hs H. unfold exec in H.
  destruct (read_all s (derived_all d (t_own t))) eqn:R1; [|discriminate]. simpl in H.
  destruct (read_each bs (derived_all burst_derived (t_stack t))) eqn:R2; [|discriminate]. simpl in H.
  destruct (copy_all _ _ _ _) eqn:R3 in H; [|discriminate]. simpl in H. injection H as _ <-.
  intros k. specialize (Hs k). rewrite (copy_all_has _ _ _ _ _ R3), in_app_iff. tauto.
Qed.
Fixpoint lacks (d : string -> list string) (ts : list step) (l : list string) : bool :=
  match ts with
  | [] => false
  | t :: r => negb (forallb (fun k => mem k l) (derived_all d (t_own t))) || lacks d r (map fst (t_copy t) ++ l)
  end.
Lemma execs_lacks : forall d ro f bs ts o s l,
  has_exactly s l -> lacks d ts l = true -> ~ succeeds (execs d ro f bs ts (o, s)).
Proof.
  intros d ro f bs ts. induction ts as [|t r IH]; intros o s l Hs E; simpl in *; [discriminate|].
  intros ((o' & s') & H). destruct (exec d ro f bs t (o, s)) as [[o1 s1]|] eqn:X; [|discriminate]. simpl in H.
  apply orb_prop in E. destruct E as [E|E].
  - apply negb_true_iff in E. apply (exec_lacks d ro f bs t o s l Hs E). eexists. exact X.
  - apply (IH o1 s1 _ (exec_exactly _ _ _ _ _ _ _ _ _ _ Hs X) E). eexists. exact H.
Qed.

(** * No trace of what the objects did before *)

Lemma read_all_same : forall s s' ks, same_store s s' -> read_all s ks = read_all s' ks.
Proof. intros s s' ks H. induction ks as [|k r IH]; simpl; [reflexivity|]. rewrite H, IH. reflexivity. Qed.
Lemma copy_all_same : forall ro a a' l s s', same_store s s' ->
  (forall k x, In (k, x) l -> a x = a' x) ->
  match copy_all ro a l s, copy_all ro a' l s' with
  | Ok r, Ok r' => same_store r r'
  | Err e, Err e' => e = e'
  | _, _ => False
  end.
Proof.
  intros ro a a' l. induction l as [|[k x] r IH]; intros s s' Hs Ha; simpl; [exact Hs|].
  rewrite <- (Ha k x (or_introl eq_refl)). destruct (a x); [|reflexivity].
  unfold assign. destruct (mem k ro); [reflexivity|]. simpl. apply IH.
  - intros y. unfold put. rewrite Hs. reflexivity.
  - intros k' x' Hin. apply (Ha k' x'). right. exact Hin.
Qed.
Lemma put_all_get : forall (g : string -> V) ks a x, In x ks -> put_all g ks a x = Some (g x).
Proof.
  intros g ks. induction ks as [|k r IH]; intros a x; simpl; [intros []|].
  intros Hx. destruct (in_dec string_dec x r) as [I|N]; [apply IH, I|].
  destruct Hx as [<-|Hx]; [|contradiction].
  assert (G : forall ks (s : store V), ~ In k ks -> put_all g ks s k = s k).
  { clear. induction ks as [|y q IH]; intros s N; simpl; [reflexivity|]. rewrite IH.
    - unfold put. destruct (String.eqb_spec k y); [subst; exfalso; apply N; left; reflexivity|reflexivity].
    - intros I. apply N. right. exact I. }
  rewrite G by exact N. apply put_same.
Qed.
Lemma put_all_other : forall (g : string -> V) ks a x, ~ In x ks -> put_all g ks a x = a x.
Proof.
  intros g ks. induction ks as [|y q IH]; intros s x N; simpl; [reflexivity|]. rewrite IH.
  - unfold put. destruct (String.eqb_spec x y); [subst; exfalso; apply N; left; reflexivity|reflexivity].
  - intros I. apply N. right. exact I.
Qed.

Definition whole (t : step) : bool :=
  forallb (fun kx => mem (snd kx) (t_always t) || mem (snd kx) (t_stacked t)) (t_copy t).
Lemma exec_same : forall d ro f bs t o o' s s', bs <> [] -> whole t = true -> same_store s s' ->
  agree (exec d ro f bs t (o, s)) (exec d ro f bs t (o', s')).
Proof.
  intros d ro f bs t o o' s s' Hb Hw Hs. unfold exec. rewrite (read_all_same s s' _ Hs).
  destruct (read_all s' _) as [own|]; simpl; [|reflexivity].
  destruct (read_each bs _) as [st|]; simpl; [|reflexivity].
  destruct bs as [|b bs']; [contradiction|].
  set (g := f (t_alg t) own st).
  pose proof (copy_all_same ro (put_all g (t_stacked t) (put_all g (t_always t) (o (t_alg t))))
                (put_all g (t_stacked t) (put_all g (t_always t) (o' (t_alg t)))) (t_copy t) s s' Hs) as C.
  destruct (copy_all ro _ (t_copy t) s); destruct (copy_all ro _ (t_copy t) s'); simpl;
    apply C; clear C; intros k x Hin; unfold whole in Hw; rewrite forallb_forall in Hw; specialize (Hw _ Hin);
    simpl in Hw; (destruct (in_dec string_dec x (t_stacked t)) as [I|N];
      [rewrite !put_all_get by exact I; reflexivity|rewrite !(put_all_other g (t_stacked t)) by exact N]);
    apply orb_prop in Hw; (destruct Hw as [Hw|Hw]; apply mem_In in Hw; [|contradiction]);
    rewrite !put_all_get by exact Hw; reflexivity.
Qed.
Lemma execs_same : forall d ro f bs ts o o' s s', bs <> [] -> forallb whole ts = true -> same_store s s' ->
  agree (execs d ro f bs ts (o, s)) (execs d ro f bs ts (o', s')).
Proof.
  intros d ro f bs ts. induction ts as [|t r IH]; intros o o' s s' Hb Hw Hs; [exact Hs|].
  simpl in Hw. apply andb_prop in Hw. destruct Hw as [W1 W2].
  pose proof (exec_same d ro f bs t o o' s s' Hb W1 Hs) as E. cbn [execs].
  destruct (exec d ro f bs t (o, s)) as [[o1 s1]|e1]; destruct (exec d ro f bs t (o', s')) as [[o2 s2]|e2];
    simpl in E |- *; try contradiction; [|exact E].
  apply IH; auto.
Qed.

(** with an empty stack *)
Lemma copy_all_but : forall x ro a a' l s s', same_but x s s' ->
  (forall k y, In (k, y) l -> has a y /\ has a' y /\ (k <> x -> a y = a' y)) ->
  match copy_all ro a l s, copy_all ro a' l s' with
  | Ok r, Ok r' => same_but x r r'
  | Err e, Err e' => e = e'
  | _, _ => False
  end.
Proof.
  intros x ro a a' l. induction l as [|[k y] r IH]; intros s s' Hs Ha; simpl; [exact Hs|].
  destruct (Ha k y (or_introl eq_refl)) as ((v & E) & (v' & E') & Q). rewrite E, E'.
  unfold assign. destruct (mem k ro); [reflexivity|]. simpl. apply IH.
  - intros z Nz. unfold put. destruct (String.eqb_spec z k) as [->|N]; [|apply Hs, Nz].
    specialize (Q Nz). congruence.
  - intros k' y' Hin. apply Ha. right. exact Hin.
Qed.

(** * Orders *)

Fixpoint inserts {A} (x : A) (l : list A) : list (list A) :=
  match l with
  | [] => [[x]]
  | y :: r => (x :: l) :: map (cons y) (inserts x r)
  end.
Fixpoint perms {A} (l : list A) : list (list A) :=
  match l with [] => [[]] | x :: r => flat_map (inserts x) (perms r) end.
Lemma inserts_split : forall A (x : A) l1 l2, In (l1 ++ x :: l2) (inserts x (l1 ++ l2)).
Proof.
  intros A x l1. induction l1 as [|y r IH]; intros l2; simpl.
  - destruct l2; simpl; left; reflexivity.
  - right. apply in_map. apply IH.
Qed.
Lemma perms_complete : forall A (l l' : list A), Permutation l l' -> In l' (perms l).
Proof.
  intros A l. induction l as [|x r IH]; intros l' P; simpl.
  - apply Permutation_nil in P. subst. left. reflexivity.
  - destruct (in_split x l') as (l1 & l2 & ->).
    { eapply Permutation_in; [exact P|left; reflexivity]. }
    apply in_flat_map. exists (l1 ++ l2). split; [|apply inserts_split].
    apply IH. eapply Permutation_cons_inv. etransitivity; [exact P|]. symmetry. apply Permutation_middle.
Qed.
End V.
Arguments perms {A}.

Definition by_name (n : string) : step :=
  match find (fun t => String.eqb (t_alg t) n) surface_steps with Some t => t | None => s_gather end.
Lemma by_name_of : forall ts, incl ts surface_steps -> ts = map by_name (map t_alg ts).
Proof.
  intros ts. induction ts as [|t r IH]; intros H; [reflexivity|]. simpl. f_equal.
  - specialize (H t (or_introl eq_refl)). unfold surface_steps in H. simpl in H.
    repeat (destruct H as [<-|H]; [reflexivity|]). contradiction.
  - apply IH. intros x Hx. apply H. right. exact Hx.
Qed.

(** The attributes of a surface that has just been located. *)
Definition created_keys (focus : bool) : list string :=
  location_entries focus ++
  ["surface_type"; "stack_all_beams_indices"; "stack_all_beams_indices_abs"; "stack_all_bursts"; "surf_sat_vector";
   "angular_azimuth_beam_resolution"].
Definition gather_extra (n : string) : list string :=
  if String.eqb n "stack_gathering" then ["closest_burst_index"] else [].

Definition order_names : list (list string) :=
  map (map t_alg) good_orders.
Definition names_in (n : list string) : bool :=
  existsb (fun m => if list_eq_dec string_dec n m then true else false) order_names.
Definition runs (focus : bool) (n : list string) : bool :=
  match avails surface_derived surface_readonly gather_extra (map by_name n) (created_keys focus) with
  | Some _ => true | None => false end.
Lemma orders_checked : forall focus,
  forallb (fun n => if names_in n then runs focus n else lacks surface_derived (map by_name n) (created_keys focus))
    (perms (map t_alg surface_steps)) = true.
Proof. intros [|]; vm_compute; reflexivity. Qed.
