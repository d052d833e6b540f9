(** Proofs about parameter declarations and the tool configuration. *)
From Coq Require Import String List Bool Arith Lia.
From Verif Require Import Common Dict ParamModel ParamSpec.
Import ListNotations.

Section Params.
Context {V : Type}.
Implicit Types c b : pycls V.

Lemma pycls_ind' : forall P : pycls V -> Prop,
  (forall i l bs, Forall P bs -> P (Cls i l bs)) -> forall c, P c.
Proof.
  intros P H. fix IH 1. intros [i l bs]. apply H.
  induction bs as [|b r IHr]; constructor; [apply IH|exact IHr].
Qed.

(** ** Own dictionaries *)
Lemma own_fold : forall (l : list (decl V)) d,
  is_dict d -> (forall k p, In (k, p) d -> d_name p = k) ->
  let d' := fold_left (fun d p => dset (d_name p) p d) l d in
  is_dict d' /\ (forall k p, In (k, p) d' -> d_name p = k) /\
  forall k, dget k d' = match topmost l k with Some p => Some p | None => dget k d end.
Proof.
  induction l as [|p l IH]; intros d Hd Hn; cbn [fold_left topmost].
  - auto.
  - destruct (IH (dset (d_name p) p d)) as (H1 & H2 & H3).
    + apply is_dict_dset. exact Hd.
    + intros k q Hq. apply dget_in in Hq; [|apply is_dict_dset; exact Hd].
      rewrite dget_dset in Hq. destruct (k =? d_name p)%string eqn:E.
      * inversion Hq; subst. apply String.eqb_eq in E. auto.
      * apply Hn. apply dget_some_in. exact Hq.
    + split; [exact H1|]. split; [exact H2|]. intro k. rewrite H3, dget_dset.
      destruct (topmost l k); [reflexivity|]. rewrite String.eqb_sym.
      destruct (d_name p =? k)%string; reflexivity.
Qed.

Lemma own_spec : forall c d, own c = Some d ->
  is_dict d /\ (forall k p, In (k, p) d -> d_name p = k) /\
  forall k, dget k d = topmost (c_decls c) k.
Proof.
  intros c d H. unfold own in H. destruct (c_decls c) as [|p l] eqn:E; [discriminate|].
  inversion H; subst. destruct (own_fold (p :: l) []) as (H1 & H2 & H3).
  - constructor.
  - intros k q [].
  - repeat split; auto. intro k. rewrite H3. cbn [dget]. destruct (topmost (p :: l) k); reflexivity.
Qed.

Lemma own_none : forall c, own c = None -> c_decls c = [].
Proof. intros c. unfold own. destruct (c_decls c); [auto|discriminate]. Qed.

Lemma topmost_in : forall (l : list (decl V)) k p, topmost l k = Some p -> In p l /\ d_name p = k.
Proof.
  induction l as [|q l IH]; cbn; intros k p H; [discriminate|].
  destruct (topmost l k) as [q'|] eqn:E.
  - inversion H; subst. destruct (IH k p E). auto.
  - destruct (d_name q =? k)%string eqn:Eq; [|discriminate]. inversion H; subst.
    apply String.eqb_eq in Eq. auto.
Qed.

Lemma topmost_some : forall (l : list (decl V)) p, In p l -> topmost l (d_name p) <> None.
Proof.
  induction l as [|q l IH]; cbn; intros p H; [contradiction|].
  destruct (topmost l (d_name p)) eqn:E; [discriminate|].
  destruct H as [->|H]; [rewrite String.eqb_refl; discriminate|].
  exfalso. apply (IH p H). exact E.
Qed.

(** ** Resolution order *)
Lemma memc_false : forall c l, ~ In (c_id c) (map c_id l) -> memc c l = false.
Proof.
  intros c l H. unfold memc. destruct (existsb _ l) eqn:E; [|reflexivity].
  apply existsb_exists in E. destruct E as (x & Hx & Ex). apply Nat.eqb_eq in Ex.
  exfalso. apply H. rewrite <- Ex. apply in_map. exact Hx.
Qed.

Lemma merge_one : forall (m : list (pycls V)) fuel, NoDup (map c_id m) -> length m < fuel ->
  merge fuel [m] = Some m.
Proof.
  induction m as [|x m IH]; intros [|f] Hn Hf; try (cbn in Hf; lia); [reflexivity|].
  inversion Hn as [|? ? Hx Hm]; subst.
  cbn [merge filter nonempty]. unfold candidate. cbn [flat_map app find existsb tl].
  rewrite memc_false by exact Hx. cbn [orb negb map drop_head]. rewrite Nat.eqb_refl.
  rewrite IH; [reflexivity|exact Hm|cbn in Hf; lia].
Qed.

Lemma merge_nil : forall f (ls : list (list (pycls V))),
  merge f (ls ++ [[]]) = merge f ls.
Proof.
  intros [|f] ls; [reflexivity|]. cbn [merge]. rewrite filter_app. cbn [filter nonempty].
  rewrite app_nil_r. reflexivity.
Qed.

Lemma chain_head : forall c, exists r, chain c = c :: r.
Proof. intros [i l [|b bs]]; cbn; eauto. Qed.

Lemma mro_single : forall c, hierarchy c -> mro c = Some (chain c).
Proof.
  induction c as [i l bs IH] using pycls_ind'. intros [Hs Hn].
  destruct bs as [|b [|b2 bs]]; [reflexivity| |contradiction].
  inversion IH as [|? ? Hb _]; subst.
  assert (Hh : hierarchy b).
  { split; [exact Hs|]. cbn in Hn. inversion Hn; assumption. }
  specialize (Hb Hh). cbn [mro]. rewrite Hb. cbn [app].
  destruct (chain_head b) as [r Hr]. cbn [chain]. rewrite Hr.
  set (f := length (concat [b :: r; [b]])).
  assert (Hf : f = S (S (length r))).
  { unfold f. cbn. rewrite app_length. cbn. lia. }
  destruct Hh as [_ Hnb]. rewrite Hr in Hnb. cbn in Hnb. inversion Hnb as [|? ? Hx Hm]; subst.
  cbn [merge filter nonempty]. unfold candidate. cbn [flat_map app find existsb tl].
  rewrite memc_false by exact Hx. cbn [memc existsb orb negb map drop_head].
  rewrite !Nat.eqb_refl. change [r; []] with ([r] ++ [[]]). rewrite merge_nil.
  rewrite merge_one; [reflexivity|exact Hm|lia].
Qed.

Lemma hierarchy_base : forall i l b, hierarchy (Cls i l [b]) -> hierarchy b.
Proof.
  intros i l b [Hs Hn]. split; [exact Hs|]. cbn in Hn. inversion Hn; assumption.
Qed.

Lemma attr_single : forall i l b, hierarchy (Cls i l [b]) ->
  attr (Cls i l [b]) = match own (Cls i l [b]) with Some d => Some d | None => attr b end.
Proof.
  intros i l b H. unfold attr. rewrite (mro_single _ H), (mro_single _ (hierarchy_base _ _ _ H)).
  cbn [chain first_own]. reflexivity.
Qed.

Lemma attr_root : forall i (l : list (decl V)), attr (Cls i l []) = own (Cls i l []).
Proof. intros. unfold attr. cbn. destruct (own (Cls i l [])); reflexivity. Qed.

Lemma get_parameter_nearest : forall c name, hierarchy c -> get_parameter c name = nearest c name.
Proof.
  induction c as [i l bs IH] using pycls_ind'. intros name H.
  destruct bs as [|b [|b2 bs]]; [| |destruct H; contradiction].
  - cbn [get_parameter nearest c_decls]. rewrite attr_root.
    destruct (own (Cls i l [])) as [d|] eqn:E.
    + destruct (own_spec _ _ E) as (_ & _ & G). rewrite G. cbn [c_decls].
      destruct (topmost l name); reflexivity.
    + apply own_none in E. cbn in E. subst. reflexivity.
  - inversion IH as [|? ? Hb _]; subst.
    pose proof (hierarchy_base _ _ _ H) as Hh. specialize (Hb name Hh).
    cbn [get_parameter nearest c_decls]. rewrite attr_single by exact H.
    destruct (own (Cls i l [b])) as [d|] eqn:E.
    + destruct (own_spec _ _ E) as (_ & _ & G). rewrite G. cbn [c_decls].
      destruct (topmost l name); [reflexivity|]. rewrite Hb. destruct (nearest b name); reflexivity.
    + apply own_none in E. cbn in E. subst. cbn [topmost]. rewrite <- Hb.
      destruct b as [j k bb]. cbn [get_parameter].
      destruct (attr (Cls j k bb)) as [d|] eqn:Ea.
      * destruct (dget name d); [reflexivity|].
        match goal with |- context [match ?x with Some p => Some p | None => None end] => destruct x end;
        reflexivity.
      * match goal with |- context [match ?x with Some p => Some p | None => None end] => destruct x end;
        reflexivity.
Qed.

(** ** Collection *)
Definition named (d : dict (decl V)) : Prop := forall k p, In (k, p) d -> d_name p = k.

Lemma first_own_in : forall (m : list (pycls V)) d, first_own m = Some d ->
  exists c, In c m /\ own c = Some d.
Proof.
  induction m as [|c m IH]; cbn; intros d H; [discriminate|].
  destruct (own c) as [e|] eqn:E; [inversion H; subst; eauto|].
  destruct (IH d H) as (x & Hx & Ex). eauto.
Qed.

Lemma attr_ok : forall c d, attr c = Some d -> is_dict d /\ named d.
Proof.
  intros c d H. unfold attr in H. destruct (mro c) as [m|]; [|discriminate].
  destruct (first_own_in m d H) as (x & _ & E). destruct (own_spec _ _ E) as (A & B & _). auto.
Qed.

Lemma named_dset : forall k p (d : dict (decl V)), d_name p = k -> is_dict d -> named d -> named (dset k p d).
Proof.
  intros k p d Hp Hd Hn k' q Hq. apply dget_in in Hq; [|apply is_dict_dset; exact Hd].
  rewrite dget_dset in Hq. destruct (k' =? k)%string eqn:E.
  - inversion Hq; subst. apply String.eqb_eq in E. auto.
  - apply Hn. apply dget_some_in. exact Hq.
Qed.

Lemma named_dupdate : forall e (d : dict (decl V)), named e -> is_dict d -> named d -> named (dupdate d e).
Proof.
  induction e as [|[k p] e IH]; intros d He Hd Hn; cbn [dupdate]; [exact Hn|].
  apply IH.
  - intros k' q Hq. apply He. cbn. auto.
  - apply is_dict_dset. exact Hd.
  - apply named_dset; auto. apply He. cbn. auto.
Qed.

Fixpoint collects (l : list (pycls V)) (acc : dict (decl V)) : dict (decl V) :=
  match l with [] => acc | b :: r => collects r (collect b acc) end.

Lemma collect_eq : forall i l bs acc,
  collect (Cls i l bs) acc =
  match attr (Cls i l bs) with Some d => dupdate (collects bs acc) d | None => collects bs acc end.
Proof. reflexivity. Qed.

Lemma collect_ok : forall c acc, is_dict acc -> named acc ->
  is_dict (collect c acc) /\ named (collect c acc).
Proof.
  induction c as [i l bs IH] using pycls_ind'. intros acc H1 H2. rewrite collect_eq.
  assert (H : is_dict (collects bs acc) /\ named (collects bs acc)).
  { revert acc H1 H2. induction IH as [|b bs Hb _ IHs]; intros acc H1 H2; cbn [collects]; auto.
    destruct (Hb acc H1 H2) as [A B]. apply IHs; auto. }
  destruct H as [A B]. destruct (attr (Cls i l bs)) as [d|] eqn:E; [|auto].
  destruct (attr_ok _ _ E) as [C D]. split.
  - apply is_dict_dupdate. exact A.
  - apply named_dupdate; auto.
Qed.

Lemma collect_nearest : forall c acc k, hierarchy c ->
  dget k (collect c acc) = match nearest c k with Some p => Some p | None => dget k acc end.
Proof.
  induction c as [i l bs IH] using pycls_ind'. intros acc k H. rewrite collect_eq.
  destruct bs as [|b [|b2 bs]]; [| |destruct H; contradiction].
  - rewrite attr_root. cbn [collects nearest c_decls].
    destruct (own (Cls i l [])) as [d|] eqn:E.
    + destruct (own_spec _ _ E) as (D & _ & G). rewrite dget_dupdate by exact D. rewrite G.
      cbn [c_decls]. destruct (topmost l k); reflexivity.
    + apply own_none in E. cbn in E. subst. reflexivity.
  - inversion IH as [|? ? Hb _]; subst.
    pose proof (hierarchy_base _ _ _ H) as Hh. specialize (Hb acc k Hh).
    rewrite attr_single by exact H. cbn [collects nearest c_decls].
    destruct (own (Cls i l [b])) as [d|] eqn:E.
    + destruct (own_spec _ _ E) as (D & _ & G). rewrite dget_dupdate by exact D. rewrite G.
      cbn [c_decls]. destruct (topmost l k); [reflexivity|]. exact Hb.
    + apply own_none in E. cbn in E. subst. cbn [topmost].
      destruct (attr b) as [d|] eqn:Ea; [|exact Hb].
      destruct (attr_ok _ _ Ea) as [D _]. rewrite dget_dupdate by exact D.
      destruct (dget k d) as [p|] eqn:Eg; [|exact Hb].
      assert (Hp : get_parameter b k = Some p).
      { destruct b as [j m bb]. cbn [get_parameter]. rewrite Ea, Eg. reflexivity. }
      rewrite get_parameter_nearest in Hp by exact Hh. rewrite Hp. reflexivity.
Qed.

(** ** General hierarchies *)
Inductive within : pycls V -> pycls V -> Prop :=
| WSelf : forall c, within c c
| WBase : forall x i l bs b, In b bs -> within x b -> within x (Cls i l bs).

Lemma drop_head_in : forall h (l : list (pycls V)) x, In x (drop_head h l) -> In x l.
Proof.
  intros h [|y r] x; cbn; auto. destruct (c_id y =? c_id h); cbn; auto.
Qed.

Lemma merge_in : forall f (ls : list (list (pycls V))) m x, merge f ls = Some m -> In x m ->
  exists l, In l ls /\ In x l.
Proof.
  induction f as [|f IH]; intros ls m x H Hx; [discriminate|].
  cbn [merge] in H.
  destruct (filter nonempty ls) as [|l0 ls0] eqn:E.
  { inversion H; subst. contradiction. }
  destruct (candidate (l0 :: ls0)) as [h|] eqn:Ec; [|discriminate].
  destruct (merge f (map (drop_head h) (l0 :: ls0))) as [m'|] eqn:Em; [|discriminate].
  cbn in H. inversion H; subst.
  assert (Hsub : forall l, In l (l0 :: ls0) -> In l ls).
  { intros l Hl. rewrite <- E in Hl. apply filter_In in Hl. tauto. }
  destruct Hx as [->|Hx].
  - unfold candidate in Ec. apply find_some in Ec. destruct Ec as [Ec _].
    apply in_flat_map in Ec. destruct Ec as (l & Hl & Hxl). exists l.
    split; [apply Hsub; exact Hl|]. destruct l; [contradiction|]. destruct Hxl as [->|[]]. left. reflexivity.
  - destruct (IH _ _ _ Em Hx) as (l & Hl & Hxl). apply in_map_iff in Hl.
    destruct Hl as (l1 & <- & Hl1). exists l1. split; [apply Hsub; exact Hl1|].
    eapply drop_head_in. exact Hxl.
Qed.

Fixpoint mros (l : list (pycls V)) : option (list (list (pycls V))) :=
  match l with
  | [] => Some []
  | b :: r => match mro b, mros r with
              | Some m, Some ms => Some (m :: ms)
              | _, _ => None
              end
  end.

Lemma mro_eq : forall i l bs, mro (Cls i l bs) =
  match mros bs with
  | None => None
  | Some ms => option_map (cons (Cls i l bs)) (merge (S (length (concat (ms ++ [bs])))) (ms ++ [bs]))
  end.
Proof. reflexivity. Qed.

Lemma mro_within : forall c m x, mro c = Some m -> In x m -> within x c.
Proof.
  induction c as [i l bs IH] using pycls_ind'. intros m x H Hx. rewrite mro_eq in H.
  destruct (mros bs) as [ms|] eqn:E; [|discriminate].
  destruct (merge (S (length (concat (ms ++ [bs])))) (ms ++ [bs])) as [r|] eqn:Em; [|discriminate].
  cbn [option_map] in H. inversion H; subst. destruct Hx as [<-|Hx]; [constructor|].
  destruct (merge_in _ _ _ _ Em Hx) as (y & Hy & Hxy). apply in_app_or in Hy.
  destruct Hy as [Hy|[<-|[]]].
  - assert (Hb : exists b, In b bs /\ mro b = Some y).
    { clear -E Hy. revert ms E Hy. induction bs as [|b bs IHb]; cbn [mros]; intros ms E Hy.
      - inversion E; subst. contradiction.
      - destruct (mro b) as [m|] eqn:Em; [|discriminate].
        destruct (mros bs) as [ms'|]; [|discriminate]. inversion E; subst.
        destruct Hy as [<-|Hy]; [exists b; cbn; auto|].
        destruct (IHb ms' eq_refl Hy) as (b' & H1 & H2). exists b'. cbn. auto. }
    destruct Hb as (b & Hb & Hm). rewrite Forall_forall in IH.
    apply WBase with b; auto. eapply IH; eauto.
  - apply WBase with x; auto. constructor.
Qed.

Lemma within_declared : forall x c name, within x c -> declared x name -> declared c name.
Proof. intros x c name H. induction H; intro Hd; [exact Hd|]. eapply Base; eauto. Qed.

Lemma attr_declared : forall c d k p, attr c = Some d -> dget k d = Some p -> declared c k.
Proof.
  intros c d k p H Hg. unfold attr in H. destruct (mro c) as [m|] eqn:E; [|discriminate].
  destruct (first_own_in m d H) as (x & Hx & Ho).
  apply (within_declared x c k); [eapply mro_within; eauto|].
  destruct (own_spec _ _ Ho) as (_ & _ & G). rewrite G in Hg.
  destruct (topmost_in _ _ _ Hg) as [Hp <-]. destruct x as [i l bs]. constructor. exact Hp.
Qed.

Lemma attr_own : forall c d, creatable c -> own c = Some d -> attr c = Some d.
Proof.
  intros [i l bs] d Hc Ho. unfold attr, creatable in *. rewrite mro_eq in *.
  destruct (mros bs) as [ms|]; [|congruence].
  destruct (merge (S (length (concat (ms ++ [bs])))) (ms ++ [bs])); [|cbn in Hc; congruence].
  cbn [option_map first_own]. rewrite Ho. reflexivity.
Qed.

Lemma creatable_base : forall i l bs b, creatable (Cls i l bs) -> In b bs -> creatable b.
Proof.
  intros i l bs b Hc Hb. unfold creatable in *. rewrite mro_eq in Hc.
  destruct (mros bs) as [ms|] eqn:E; [|congruence]. clear Hc.
  revert ms E. induction bs as [|x bs IH]; [contradiction|]. cbn [mros]. intros ms E.
  destruct (mro x) as [m|] eqn:Ex; [|discriminate].
  destruct (mros bs) as [ms'|] eqn:E'; [|discriminate].
  destruct Hb as [<-|Hb]; [congruence|]. eapply IH; eauto.
Qed.

Lemma own_here : forall i l bs (p : decl V), In p l -> exists d, own (Cls i l bs) = Some d /\ dget (d_name p) d <> None.
Proof.
  intros i l bs p Hp. destruct (own (Cls i l bs)) as [d|] eqn:E.
  - exists d. split; [reflexivity|]. destruct (own_spec _ _ E) as (_ & _ & G). rewrite G.
    apply topmost_some. exact Hp.
  - apply own_none in E. cbn in E. subst. contradiction.
Qed.

Lemma get_parameter_found : forall c name, creatable c ->
  (get_parameter c name <> None <-> declared c name).
Proof.
  induction c as [i l bs IH] using pycls_ind'. intros name Hc. cbn [get_parameter]. split.
  - destruct (match attr (Cls i l bs) with Some d => dget name d | None => None end) as [p|] eqn:E.
    + intros _. destruct (attr (Cls i l bs)) as [d|] eqn:Ea; [|discriminate].
      eapply attr_declared; eauto.
    + clear E. intro H.
      assert (Hb : exists b, In b bs /\ get_parameter b name <> None).
      { clear IH Hc. induction bs as [|b bs IHb]; [congruence|].
        destruct (get_parameter b name) as [p|] eqn:E.
        - exists b. split; [left; reflexivity|congruence].
        - destruct (IHb H) as (b' & H1 & H2). exists b'. split; [right; exact H1|exact H2]. }
      destruct Hb as (b & Hb & Hp). rewrite Forall_forall in IH.
      eapply Base; eauto. apply (IH b Hb); auto. eapply creatable_base; eauto.
  - intro H. destruct (match attr (Cls i l bs) with Some d => dget name d | None => None end) as [p|] eqn:E;
      [congruence|]. inversion H as [i' l' bs' p Hp|i' l' bs' b nm Hb Hd]; subst.
    + destruct (own_here i l bs p Hp) as (d & Ho & Hg). rewrite (attr_own _ _ Hc Ho) in E. congruence.
    + clear H E.
      assert (Hg : get_parameter b name <> None).
      { rewrite Forall_forall in IH. apply (IH b Hb); auto. eapply creatable_base; eauto. }
      clear IH Hc. induction bs as [|x bs IHb]; [contradiction|].
      destruct (get_parameter x name) as [p|] eqn:E; [congruence|].
      destruct Hb as [->|Hb]; [congruence|]. auto.
Qed.

Lemma collect_found : forall c acc name, creatable c ->
  (dget name (collect c acc) <> None <-> declared c name \/ dget name acc <> None).
Proof.
  induction c as [i l bs IH] using pycls_ind'. intros acc name Hc. rewrite collect_eq.
  assert (Hs : dget name (collects bs acc) <> None <->
               (exists b, In b bs /\ declared b name) \/ dget name acc <> None).
  { assert (Hcb : forall b, In b bs -> creatable b) by (intros; eapply creatable_base; eauto).
    clear Hc. revert acc. induction IH as [|b bs Hb _ IHs]; intro acc; cbn [collects].
    - split; [auto|]. intros [(b & [] & _)|H]; exact H.
    - rewrite IHs by (intros; apply Hcb; cbn; auto). rewrite Hb by (apply Hcb; cbn; auto). split.
      + intros [(x & H1 & H2)|[H|H]]; [left; exists x; cbn; auto|left; exists b; cbn; auto|auto].
      + intros [(x & [->|H1] & H2)|H]; [auto|left; eauto|auto]. }
  destruct (attr (Cls i l bs)) as [d|] eqn:Ea.
  - destruct (attr_ok _ _ Ea) as [D _]. rewrite dget_dupdate by exact D.
    destruct (dget name d) as [p|] eqn:Eg.
    + split; [|congruence]. intros _. left. eapply attr_declared; eauto.
    + rewrite Hs. split.
      * intros [(b & H1 & H2)|H]; [left; eapply Base; eauto|auto].
      * intros [H|H]; [|auto]. inversion H as [i' l' bs' p Hp|i' l' bs' b nm Hb Hd]; subst; [|left; eauto].
        destruct (own_here i l bs p Hp) as (d' & Ho & Hg).
        rewrite (attr_own _ _ Hc Ho) in Ea. inversion Ea; subst. congruence.
  - rewrite Hs. split.
    + intros [(b & H1 & H2)|H]; [left; eapply Base; eauto|auto].
    + intros [H|H]; [|auto]. inversion H as [i' l' bs' p Hp|i' l' bs' b nm Hb Hd]; subst; [|left; eauto].
      destruct (own_here i l bs p Hp) as (d' & Ho & Hg).
      rewrite (attr_own _ _ Hc Ho) in Ea. discriminate.
Qed.

(** ** Values *)
Definition value_for (cnf : string -> option V) (p : decl V) : V :=
  match cnf (d_name p) with Some v => v | None => d_default p end.

Lemma fold_values : forall cnf (ds : dict (decl V)) attrs k, is_dict ds -> named ds ->
  dget k (fold_left (fun attrs p =>
      let attrs := match d_value_set p with Some v => dset (d_name p) v attrs | None => attrs end in
      dset (d_name p) (match cnf (d_name p) with Some v => v | None => d_default p end) attrs)
    (map snd ds) attrs)
  = match dget k ds with Some p => Some (value_for cnf p) | None => dget k attrs end.
Proof.
  intros cnf ds. induction ds as [|[k0 p] ds IH]; intros attrs k Hd Hn; [reflexivity|].
  cbn [map snd fold_left dget]. inversion Hd as [|? ? Hx Hr]; subst.
  rewrite IH; [|exact Hr|intros k' q Hq; apply Hn; cbn; auto].
  assert (Hp : d_name p = k0) by (apply Hn; cbn; auto). cbv zeta. rewrite Hp.
  destruct (k =? k0)%string eqn:E.
  - apply String.eqb_eq in E. subst k.
    replace (dget k0 ds) with (@None (decl V)) by (symmetry; apply dget_none; exact Hx).
    rewrite dget_dset_same. unfold value_for. rewrite Hp. reflexivity.
  - apply String.eqb_neq in E. destruct (dget k ds); [reflexivity|].
    rewrite dget_dset_other by exact E. destruct (d_value_set p); [|reflexivity].
    rewrite dget_dset_other by exact E. reflexivity.
Qed.

Lemma values_dget : forall cnf c k,
  dget k (collect_values cnf c) = option_map (value_for cnf) (dget k (get_parameters c)).
Proof.
  intros cnf c k. unfold collect_values, get_parameters.
  destruct (collect_ok c []) as [A B]; [constructor|intros ? ? []|].
  rewrite fold_values by assumption. destruct (dget k (collect c [])); reflexivity.
Qed.
End Params.

(** * Tool configuration *)
Section Tool.
Context {V : Type}.

Lemma get_value_loaded : forall fs name default (d : dict V), name <> ""%string ->
  get_value fs name default (Some d)
  = (Some d, Value (match dget name d with Some v => v | None => default end)).
Proof.
  intros fs name default d H. unfold get_value.
  destruct (name =? "")%string eqn:E; [apply String.eqb_eq in E; contradiction|]. reflexivity.
Qed.

Definition loaded (fs : @fsys V) (d : dict V) : Prop :=
  forall name, dget name d = match said (local_file fs) name with
                             | Some v => Some v
                             | None => said (user_now fs) name
                             end.

Lemma get_config_fresh : forall fs : @fsys V,
  dict_file (local_file fs) -> exits (user_now fs) = false -> exits (local_file fs) = false ->
  exists d, get_config fs None = (Some d, Some d) /\ loaded fs d.
Proof.
  intros fs Hl Hu Hx. unfold get_config. fold (user_now fs).
  assert (E : exists d0, (match user_now fs with
            | File (Loads d) => Some d
            | File Exits => None
            | _ => Some []
            end) = Some d0 /\ forall name, dget name d0 = said (user_now fs) name).
  { destruct (user_now fs) as [| |[d| |]]; try discriminate; eexists; split; reflexivity. }
  destruct E as (d0 & -> & H0).
  destruct (local_file fs) as [| |[l| |]] eqn:El; try discriminate; cbn [dict_file] in Hl.
  1,2,4: exists d0; split; [reflexivity|]; intro name; rewrite El; cbn [said]; apply H0.
  exists (dupdate d0 l). split; [reflexivity|]. intro name. rewrite El. cbn [said].
  rewrite dget_dupdate by exact Hl. rewrite H0. destruct (dget name l); reflexivity.
Qed.

Lemma queries_loaded : forall (l : list (@fsys V * string * V)) d n fs name default,
  nth_error l n = Some (fs, name, default) ->
  nth_error (queries l (Some d)) n =
  Some (if (name =? "")%string then NameError
        else Value (match dget name d with Some v => v | None => default end)).
Proof.
  induction l as [|[[f a] b] l IH]; intros d [|n] fs name default H; try discriminate; cbn in H |- *.
  - inversion H; subst. unfold get_value. destruct (name =? "")%string; reflexivity.
  - unfold get_value. destruct (a =? "")%string; cbn; apply (IH _ _ fs); exact H.
Qed.

Lemma queries_fresh : forall (l : list (@fsys V * string * V)) fs0 n fs name default,
  first_files l = Some fs0 ->
  dict_file (local_file fs0) -> exits (user_now fs0) = false -> exits (local_file fs0) = false ->
  nth_error l n = Some (fs, name, default) ->
  nth_error (queries l None) n =
  Some (if (name =? "")%string then NameError else Value (configured fs0 name default)).
Proof.
  intros l fs0 n fs name default Hf H1 H2 H3. revert n.
  induction l as [|[[f a] b] l IH]; intros n Hn; [destruct n; discriminate|].
  unfold first_files in Hf. cbn [find fst snd] in Hf.
  cbn [queries]. unfold get_value. destruct (a =? "")%string eqn:Ea; cbn [negb] in Hf.
  - destruct n as [|n]; cbn in Hn |- *.
    + inversion Hn; subst. rewrite Ea. reflexivity.
    + apply IH; [exact Hf|exact Hn].
  - cbn in Hf. inversion Hf; subst f.
    destruct (get_config_fresh fs0 H1 H2 H3) as (d & E & Hd). rewrite E.
    assert (Hc : forall nm df, (match dget nm d with Some v => v | None => df end) = configured fs0 nm df).
    { intros nm df. rewrite Hd. unfold configured. destruct (said (local_file fs0) nm); reflexivity. }
    destruct n as [|n]; cbn in Hn |- *.
    + inversion Hn; subst. rewrite Ea, Hc. reflexivity.
    + rewrite (queries_loaded l d n fs name default Hn), Hc. reflexivity.
Qed.
End Tool.
