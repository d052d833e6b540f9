(** Proofs about configuration documents. *)
From Coq Require Import String List ZArith QArith Bool Lia Lqa.
From Verif Require Import Common Dict ConfModel ConfSpec.
Import ListNotations.
Open Scope string_scope.
Open Scope list_scope.

Lemma inb_in : forall k l, inb k l = true <-> In k l.
Proof.
  intros. unfold inb. rewrite existsb_exists. split.
  - intros (x & H & E). apply String.eqb_eq in E. subst. exact H.
  - intro H. exists k. split; auto. apply String.eqb_refl.
Qed.


Lemma inb_false : forall k l, inb k l = false <-> ~ In k l.
Proof.
  intros. pose proof (inb_in k l) as H. destruct (inb k l); split; intro H1; try discriminate; auto.
  - exfalso. apply H1. apply H. reflexivity.
  - intro H2. apply H in H2. discriminate.
Qed.

Lemma remove1_in : forall k l x, NoDup l -> (In x (remove1 k l) <-> In x l /\ x <> k).
Proof.
  intros k l x. induction l as [|y r IH]; cbn; intro H; [tauto|].
  inversion H as [|? ? Hn Hr]; subst. destruct (k =? y)%string eqn:E.
  - apply String.eqb_eq in E. subst. split.
    + intro H1. split; auto. intro; subst; contradiction.
    + intros [[H1|H1] H2]; [congruence|exact H1].
  - apply String.eqb_neq in E. cbn. rewrite IH by exact Hr. split.
    + intros [H1|[H1 H2]]; [subst; split; auto|split; auto].
    + intros [[H1|H1] H2]; auto.
Qed.

Lemma remove1_nodup : forall k l, NoDup l -> NoDup (remove1 k l).
Proof.
  intros k l. induction l as [|y r IH]; cbn; intro H; [constructor|].
  inversion H as [|? ? Hn Hr]; subst. destruct (k =? y)%string; auto.
  constructor; auto. intro H1. apply remove1_in in H1; [|exact Hr]. tauto.
Qed.

Lemma nodup_snoc : forall (l : list string) k, NoDup l -> ~ In k l -> NoDup (l ++ [k]).
Proof.
  induction l as [|x r IH]; cbn; intros k H Hk.
  - constructor; [intros []|constructor].
  - inversion H; subst. constructor.
    + intro H1. apply in_app_or in H1. destruct H1 as [H1|[H1|[]]]; [contradiction|].
      subst. apply Hk. auto.
    + apply IH; auto.
Qed.

(** Last change in a flat list of entries. *)
Fixpoint lastf (l : list (string * kind)) (k : string) : option kind :=
  match l with
  | [] => None
  | (k', x) :: r =>
      match lastf r k with
      | Some y => Some y
      | None => if k =? k' then Some x else None
      end
  end.

Lemma lastf_app : forall a b k,
  lastf (a ++ b) k = match lastf b k with Some y => Some y | None => lastf a k end.
Proof.
  induction a as [|[k' x] r IH]; intros b k; cbn.
  - destruct (lastf b k); reflexivity.
  - rewrite IH. destruct (lastf b k); reflexivity.
Qed.

Definition newer (cv : Q) (log : changelog) : list (string * kind) :=
  concat (map (fun c => if Qle_bool (fst c) cv then [] else snd c) log).

Lemma last_change_flat : forall cv log k, last_change cv log k = lastf (newer cv log) k.
Proof.
  intros cv log k. induction log as [|[v es] r IH]; [reflexivity|].
  unfold newer in *. cbn [map concat]. rewrite lastf_app. cbn [last_change].
  rewrite IH. destruct (lastf _ k); [reflexivity|].
  cbn [fst snd]. destruct (Qle_bool v cv); [reflexivity|].
  induction es as [|[k' x] es IHe]; [reflexivity|].
  cbn. rewrite <- IHe. reflexivity.
Qed.

Definition coded (e : string * kind) : string * string := (fst e, code (snd e)).

Lemma fold_entries : forall l added removed,
  fold_left apply_entry (map coded l) ([], []) = (added, removed) ->
  NoDup added /\ NoDup removed /\
  (forall k, In k added <-> lastf l k = Some Added \/ lastf l k = Some Modified) /\
  (forall k, In k removed <-> lastf l k = Some Removed).
Proof.
  induction l as [|[k0 x] l IH] using rev_ind; intros added removed H.
  - cbn in H. inversion H; subst. split; [constructor|]. split; [constructor|]. split; intro k; cbn.
    + split; [contradiction|intros [H1|H1]; discriminate].
    + split; [contradiction|discriminate].
  - rewrite map_app, fold_left_app in H. cbn [map fold_left] in H.
    destruct (fold_left apply_entry (map coded l) ([], [])) as [a r] eqn:E.
    destruct (IH a r eq_refl) as (Na & Nr & Ha & Hr). clear IH.
    assert (Hl : forall k, lastf (l ++ [(k0, x)]) k = if k =? k0 then Some x else lastf l k).
    { intro k. rewrite lastf_app. cbn. destruct (k =? k0); reflexivity. }
    assert (Hadd : (x = Added \/ x = Modified) ->
      added = (if inb k0 a then a else a ++ [k0]) /\ removed = (if inb k0 r then remove1 k0 r else r)).
    { intros [Hx|Hx]; subst x; cbn in H; inversion H; auto. }
    assert (Hrem : x = Removed ->
      added = (if inb k0 a then remove1 k0 a else a) /\ removed = (if inb k0 r then r else r ++ [k0])).
    { intros Hx; subst x; cbn in H; inversion H; auto. }
    clear H.
    assert (Hin1 : forall (l : list string) k, NoDup l ->
      NoDup (if inb k l then l else l ++ [k]) /\
      forall y, In y (if inb k l then l else l ++ [k]) <-> y = k \/ In y l).
    { intros m k Nm. destruct (inb k m) eqn:Ei.
      - apply inb_in in Ei. split; auto. intro y. split; auto. intros [->|Hy]; auto.
      - apply inb_false in Ei. split; [apply nodup_snoc; auto|].
        intro y. rewrite in_app_iff. cbn. intuition. }
    assert (Hin2 : forall (l : list string) k, NoDup l ->
      NoDup (if inb k l then remove1 k l else l) /\
      forall y, In y (if inb k l then remove1 k l else l) <-> In y l /\ y <> k).
    { intros m k Nm. destruct (inb k m) eqn:Ei.
      - split; [apply remove1_nodup; auto|]. intro y. apply remove1_in. exact Nm.
      - apply inb_false in Ei. split; auto. intro y. split; [|tauto].
        intro Hy. split; auto. intro; subst; contradiction. }
    assert (Hcase : (x = Added \/ x = Modified) \/ x = Removed) by (destruct x; auto).
    destruct Hcase as [Hx|Hx].
    + destruct (Hadd Hx) as [-> ->]. destruct (Hin1 a k0 Na) as [N1 M1].
      destruct (Hin2 r k0 Nr) as [N2 M2]. repeat split; auto.
      * rewrite M1, Hl. destruct (k =? k0) eqn:Ek.
        -- intros _. destruct Hx; subst; auto.
        -- apply String.eqb_neq in Ek. rewrite Ha. tauto.
      * rewrite M1, Hl. destruct (k =? k0) eqn:Ek.
        -- apply String.eqb_eq in Ek. auto.
        -- rewrite Ha. tauto.
      * rewrite M2, Hl. destruct (k =? k0) eqn:Ek.
        -- apply String.eqb_eq in Ek. tauto.
        -- rewrite Hr. tauto.
      * rewrite M2, Hl. destruct (k =? k0) eqn:Ek.
        -- destruct Hx; subst; discriminate.
        -- apply String.eqb_neq in Ek. rewrite Hr. auto.
    + destruct (Hrem Hx) as [-> ->]. destruct (Hin1 r k0 Nr) as [N1 M1].
      destruct (Hin2 a k0 Na) as [N2 M2]. repeat split; auto.
      * rewrite M2, Hl. destruct (k =? k0) eqn:Ek.
        -- apply String.eqb_eq in Ek. tauto.
        -- rewrite Ha. tauto.
      * rewrite M2, Hl. destruct (k =? k0) eqn:Ek.
        -- subst. intros [H|H]; discriminate.
        -- apply String.eqb_neq in Ek. rewrite Ha. auto.
      * rewrite M1, Hl. destruct (k =? k0) eqn:Ek.
        -- subst. auto.
        -- apply String.eqb_neq in Ek. rewrite Hr. tauto.
      * rewrite M1, Hl. destruct (k =? k0) eqn:Ek.
        -- apply String.eqb_eq in Ek. auto.
        -- rewrite Hr. auto.
Qed.

Lemma copy_keys_spec : forall ks def cur,
  (forall k, In k ks -> dget k def <> None) ->
  exists c, copy_keys ks def cur = Ok c /\
    (is_dict cur -> is_dict c) /\
    forall k, dget k c = if inb k ks then dget k def else dget k cur.
Proof.
  induction ks as [|k0 ks IH]; intros def cur H; cbn [copy_keys].
  - exists cur. repeat split; auto.
  - destruct (dget k0 def) as [v|] eqn:E; [|exfalso; apply (H k0); cbn; auto].
    destruct (IH def (dset k0 v cur)) as (c & Ec & Hd & Hg).
    { intros k Hk. apply H. cbn. auto. }
    exists c. split; [exact Ec|]. split.
    + intro Hc. apply Hd. apply is_dict_dset. exact Hc.
    + intro k. rewrite Hg, dget_dset. unfold inb. cbn [existsb].
      destruct (k =? k0) eqn:Ek; cbn [orb].
      * apply String.eqb_eq in Ek. subst. rewrite E. destruct (existsb _ ks); reflexivity.
      * reflexivity.
Qed.

Lemma copy_keys_fail : forall ks def cur k, In k ks -> dget k def = None ->
  copy_keys ks def cur = Err EKey.
Proof.
  induction ks as [|k0 ks IH]; intros def cur k H Hk; [contradiction|].
  cbn [copy_keys]. destruct H as [->|H].
  - rewrite Hk. reflexivity.
  - destruct (dget k0 def); [eapply IH; eauto|reflexivity].
Qed.

Lemma copy_keys_inv : forall ks def cur c, copy_keys ks def cur = Ok c ->
  forall k, In k ks -> dget k def <> None.
Proof.
  intros ks def cur c H k Hk E. rewrite (copy_keys_fail ks def cur k Hk E) in H. discriminate.
Qed.

Lemma pops_spec : forall ks (c : dict json), is_dict c ->
  let c' := fold_left (fun c k => if dmem k c then dpop k c else c) ks c in
  is_dict c' /\ forall k, dget k c' = if inb k ks then None else dget k c.
Proof.
  induction ks as [|k0 ks IH]; intros c Hc; cbn [fold_left].
  - split; auto.
  - set (c1 := if dmem k0 c then dpop k0 c else c).
    assert (H1 : is_dict c1 /\ forall k, dget k c1 = if k =? k0 then None else dget k c).
    { unfold c1, dmem. destruct (dget k0 c) eqn:E.
      - split; [apply is_dict_dpop; exact Hc|]. intro k. apply dget_dpop. exact Hc.
      - split; auto. intro k. destruct (k =? k0) eqn:Ek; [|reflexivity].
        apply String.eqb_eq in Ek. subst. exact E. }
    destruct H1 as [H1 G1]. destruct (IH c1 H1) as [H2 G2]. split; [exact H2|].
    intro k. rewrite G2, G1. unfold inb. cbn [existsb].
    destruct (k =? k0); cbn [orb]; [destruct (existsb _ ks)|]; reflexivity.
Qed.

(** * Parsing the changelog *)

Lemma map_res_entries : forall l js, entries_json l js -> map_res change_entry js = Ok (map coded l).
Proof.
  intros l js H. induction H as [|e j l js (c & ->) H IH]; [reflexivity|].
  cbn [map_res map]. unfold entry_json. cbn [change_entry bind]. rewrite IH. reflexivity.
Qed.

Lemma map_res_log : forall cv log js, log_json log js ->
  exists es, map_res (change_entries cv) js = Ok es /\ concat es = map coded (newer cv log).
Proof.
  intros cv log js H. induction H as [|c j log js Hc H IH].
  - exists []. auto.
  - destruct IH as (es & E & Ee). destruct Hc as (d & v & ps & -> & Hv & Hn & Hp & He).
    cbn [map_res]. unfold change_entries at 1. rewrite Hv, Hn, Hp.
    unfold newer. cbn [map concat].
    destruct (Qle_bool (fst c) cv).
    + exists ([] :: es). cbn [bind]. rewrite E. cbn [bind]. split; [reflexivity|]. cbn. exact Ee.
    + rewrite (map_res_entries _ _ He). exists (map coded (snd c) :: es).
      cbn [bind]. rewrite E. cbn [bind]. split; [reflexivity|].
      cbn [concat]. rewrite Ee, map_app. reflexivity.
Qed.

Lemma current_version_is : forall cur cv, version_is cur cv -> current_version cur = Ok cv.
Proof.
  intros cur cv [[H ->]|(m & v & H & Hv & Hn)]; unfold current_version.
  - rewrite H. reflexivity.
  - rewrite H, Hv, Hn. reflexivity.
Qed.

Lemma default_parts : forall def dv log, default_is def dv log ->
  exists m js, dget metainf def = Some (JObj m) /\ default_version def = Ok dv /\
    default_changelog def = Ok js /\ log_json log js.
Proof.
  intros def dv log (m & v & js & Hm & Hv & Hn & Hc & Hl).
  exists m, js. unfold default_version, default_changelog, default_meta. rewrite Hm. cbn [bind].
  rewrite Hv, Hn, Hc. auto.
Qed.

Lemma upgrade_main : forall cur def cv dv log,
  is_dict cur -> version_is cur cv -> default_is def dv log -> (cv < dv)%Q ->
  (forall k, last_change cv log k = Some Added \/ last_change cv log k = Some Modified ->
             dget k def <> None) ->
  exists new, do_upgrade cur def = Ok new /\ is_dict new /\
    dget metainf new = dget metainf def /\
    forall k, k <> metainf -> dget k new = upgraded_value cv log cur def k.
Proof.
  intros cur def cv dv log Hc Hv Hd Hlt Hin.
  destruct (default_parts _ _ _ Hd) as (m & js & Hm & Hdv & Hcl & Hl).
  unfold do_upgrade. rewrite (current_version_is _ _ Hv), Hdv. cbn [bind].
  replace (Qle_bool dv cv) with false.
  2:{ symmetry. destruct (Qle_bool dv cv) eqn:E; [|reflexivity]. apply Qle_bool_iff in E. lra. }
  rewrite Hcl. cbn [bind].
  destruct (map_res_log cv log js Hl) as (es & -> & Ees). cbn [bind]. rewrite Ees.
  destruct (fold_left apply_entry (map coded (newer cv log)) ([], [])) as [a r] eqn:Ef.
  destruct (fold_entries _ _ _ Ef) as (Na & Nr & Ha & Hr).
  destruct (copy_keys_spec a def cur) as (c1 & -> & Hd1 & Hg1).
  { intros k Hk. apply Hin. rewrite last_change_flat. apply Ha. exact Hk. }
  cbn [bind]. destruct (pops_spec r c1 (Hd1 Hc)) as [Hd2 Hg2]. cbv zeta in Hd2, Hg2.
  rewrite Hm. eexists. split; [reflexivity|]. split; [|split].
  - apply is_dict_dset. exact Hd2.
  - rewrite dget_dset_same. reflexivity.
  - intros k Hk. rewrite dget_dset_other by exact Hk. rewrite Hg2, Hg1.
    unfold upgraded_value. rewrite last_change_flat.
    destruct (lastf (newer cv log) k) as [x|] eqn:El.
    + destruct x.
      * replace (inb k r) with false.
        2:{ symmetry. apply inb_false. rewrite Hr, El. discriminate. }
        replace (inb k a) with true; [reflexivity|]. symmetry. apply inb_in. apply Ha. auto.
      * replace (inb k r) with false.
        2:{ symmetry. apply inb_false. rewrite Hr, El. discriminate. }
        replace (inb k a) with true; [reflexivity|]. symmetry. apply inb_in. apply Ha. auto.
      * replace (inb k r) with true; [reflexivity|]. symmetry. apply inb_in. apply Hr. exact El.
    + replace (inb k r) with false.
      2:{ symmetry. apply inb_false. rewrite Hr, El. discriminate. }
      replace (inb k a) with false; [reflexivity|].
      symmetry. apply inb_false. rewrite Ha, El. intros [H|H]; discriminate.
Qed.

Lemma upgrade_fails : forall cur def cv dv log k,
  version_is cur cv -> default_is def dv log -> (cv < dv)%Q ->
  last_change cv log k = Some Added \/ last_change cv log k = Some Modified ->
  dget k def = None ->
  do_upgrade cur def = Err EKey.
Proof.
  intros cur def cv dv log k Hv Hd Hlt Hk Hn.
  destruct (default_parts _ _ _ Hd) as (m & js & Hm & Hdv & Hcl & Hl).
  unfold do_upgrade. rewrite (current_version_is _ _ Hv), Hdv. cbn [bind].
  replace (Qle_bool dv cv) with false.
  2:{ symmetry. destruct (Qle_bool dv cv) eqn:E; [|reflexivity]. apply Qle_bool_iff in E. lra. }
  rewrite Hcl. cbn [bind].
  destruct (map_res_log cv log js Hl) as (es & -> & Ees). cbn [bind]. rewrite Ees.
  destruct (fold_left apply_entry (map coded (newer cv log)) ([], [])) as [a r] eqn:Ef.
  destruct (fold_entries _ _ _ Ef) as (Na & Nr & Ha & Hr).
  rewrite (copy_keys_fail a def cur k); [reflexivity| |exact Hn].
  apply Ha. rewrite <- last_change_flat. exact Hk.
Qed.

Lemma upgrade_uptodate : forall cur def cv dv log,
  version_is cur cv -> default_is def dv log -> (dv <= cv)%Q -> do_upgrade cur def = Ok cur.
Proof.
  intros cur def cv dv log Hv Hd Hle.
  destruct (default_parts _ _ _ Hd) as (m & js & Hm & Hdv & _).
  unfold do_upgrade. rewrite (current_version_is _ _ Hv), Hdv. cbn [bind].
  apply Qle_bool_iff in Hle. rewrite Hle. reflexivity.
Qed.

(** Whatever the documents: an upgrade that succeeded either left the file or
    installed the default's metadata. *)
Lemma upgrade_inv : forall cur def new, do_upgrade cur def = Ok new ->
  (new = cur /\ exists cv dv, current_version cur = Ok cv /\ default_version def = Ok dv /\
     Qle_bool dv cv = true) \/
  dget metainf new = dget metainf def.
Proof.
  intros cur def new. unfold do_upgrade.
  destruct (current_version cur) as [cv|e] eqn:E1; cbn [bind]; [|discriminate].
  destruct (default_version def) as [dv|e] eqn:E2; cbn [bind]; [|discriminate].
  destruct (Qle_bool dv cv) eqn:E3.
  - intro H. inversion H; subst. left. split; auto. exists cv, dv. auto.
  - destruct (default_changelog def) as [log|e]; cbn [bind]; [|discriminate].
    destruct (map_res (change_entries cv) log) as [es|e]; cbn [bind]; [|discriminate].
    destruct (fold_left apply_entry (concat es) ([], [])) as [a r].
    destruct (copy_keys a def cur) as [c1|e]; cbn [bind]; [|discriminate].
    destruct (dget metainf def) as [m|]; [|discriminate].
    intro H. inversion H; subst. right. apply dget_dset_same.
Qed.

Lemma upgrade_idempotent : forall cur def new,
  do_upgrade cur def = Ok new -> do_upgrade new def = Ok new.
Proof.
  intros cur def new H. destruct (upgrade_inv _ _ _ H) as [[-> _]|Hm]; [exact H|].
  unfold do_upgrade in *.
  destruct (current_version cur) as [cv|e]; cbn [bind] in H; [|discriminate].
  destruct (default_version def) as [dv|e] eqn:E2; cbn [bind] in H |- *; [|discriminate].
  assert (Hcv : current_version new = Ok dv).
  { unfold current_version. rewrite Hm. unfold default_version, default_meta in E2.
    destruct (dget metainf def) as [[| | | | |m]|]; cbn [bind] in E2; try discriminate.
    destruct (dget "version" m) as [v|]; [|discriminate].
    destruct (num_of v); [|discriminate]. congruence. }
  rewrite Hcv. cbn [bind].
  replace (Qle_bool dv dv) with true; [reflexivity|].
  symmetry. apply Qle_bool_iff. apply Qle_refl.
Qed.

(** * Reading *)

Lemma version_is_read : forall d q, version_is d q ->
  exists v, get_version (JObj d) = Ok v /\ num_of v = Some q.
Proof.
  intros d q [[H ->]|(m & v & H & Hv & Hn)]; cbn [get_version]; rewrite H.
  - eexists. split; reflexivity.
  - rewrite Hv. eauto.
Qed.

Lemma read_version_is : forall d v q, get_version (JObj d) = Ok v -> num_of v = Some q ->
  version_is d q.
Proof.
  intros d v q. cbn [get_version]. destruct (dget metainf d) as [[| | | | |m]|] eqn:E; try discriminate.
  - destruct (dget "version" m) as [v'|] eqn:Ev; [|discriminate].
    intros H Hn. inversion H; subst. right. exists m, v. auto.
  - intros H Hn. inversion H; subst. cbn in Hn. inversion Hn; subst. left. auto.
Qed.

Lemma read_items_ok : forall c items acc w,
  (exists r, read_items c items acc w = Ok r) <-> wellformed items.
Proof.
  intros c items. induction items as [|[k j] items IH]; intros acc w; cbn [read_items].
  - split; [intros _ k j []|eauto].
  - destruct (k =? metainf) eqn:Ek.
    + rewrite IH. apply String.eqb_eq in Ek. subst. split.
      * intros H k j' [H1|H1] Hne; [inversion H1; subst; contradiction|eauto].
      * intros H k j' H1 Hne. apply (H k j'); cbn; auto.
    + apply String.eqb_neq in Ek. destruct (param_value j) as [v|e] eqn:Ep.
      * rewrite IH. split.
        -- intros H k' j' [H1|H1] Hne; [|eauto]. inversion H1; subst.
           unfold param_value in Ep. destruct j' as [| | | | |m]; try discriminate.
           destruct (dget "value" m) as [v'|] eqn:Ev; [|discriminate]. eauto.
        -- intros H k' j' H1 Hne. apply (H k' j'); cbn; auto.
      * split; [intros [r H]; discriminate|]. intro H.
        destruct (H k j) as (m & v & -> & Hv); cbn; auto.
        cbn in Ep. rewrite Hv in Ep. discriminate.
Qed.

Lemma read_items_values : forall c items acc w data w',
  read_items c items acc w = Ok (data, w') -> is_dict items ->
  (forall k, dget k data = match value_in items k with Some v => Some v | None => dget k acc end) /\
  w' = w ++ filter (fun k => negb (k =? metainf) && negb (declares c k)) (keys items).
Proof.
  intros c items. induction items as [|[k j] items IH]; intros acc w data w' H Hd; cbn [read_items] in H.
  - inversion H; subst. split.
    + intro k. unfold value_in. cbn. destruct (k =? metainf); reflexivity.
    + cbn. rewrite app_nil_r. reflexivity.
  - assert (Hd' : is_dict items) by (inversion Hd; assumption).
    assert (Hn : dget k items = None) by (apply dget_none; inversion Hd; assumption).
    cbn [keys map fst filter]. fold (keys items).
    destruct (k =? metainf) eqn:Ek.
    + destruct (IH _ _ _ _ H Hd') as [H1 H2]. split.
      * intro k'. rewrite H1. unfold value_in. cbn [dget].
        destruct (k' =? metainf) eqn:E1; [reflexivity|].
        apply String.eqb_eq in Ek. subst k. rewrite E1. reflexivity.
      * cbn [negb andb]. exact H2.
    + destruct (param_value j) as [v|e] eqn:Ep; [|discriminate].
      destruct (IH _ _ _ _ H Hd') as [H1 H2]. split.
      * intro k'. rewrite H1. unfold value_in. cbn [dget]. rewrite dget_dset.
        destruct (k' =? metainf) eqn:E1.
        -- destruct (k' =? k) eqn:E2; [|reflexivity].
           apply String.eqb_eq in E1, E2. subst. rewrite String.eqb_refl in Ek. discriminate.
        -- destruct (k' =? k) eqn:E2; [|reflexivity].
           apply String.eqb_eq in E2. subst. rewrite Hn.
           unfold param_value in Ep. destruct j as [| | | | |m]; try discriminate.
           destruct (dget "value" m) as [v'|]; [|discriminate]. congruence.
      * rewrite H2. cbn [negb andb]. destruct (declares c k); cbn [negb]; [reflexivity|].
        rewrite <- app_assoc. reflexivity.
Qed.

Lemma read_file_ok : forall c doc,
  (exists r, read_file c doc = Ok r) <->
  exists d q, doc = JObj d /\ wellformed d /\ version_is d q /\ (q == inject_Z (f_version c))%Q.
Proof.
  intros c doc. unfold read_file. split.
  - intros [r H]. destruct (get_version doc) as [v|e] eqn:Ev; [|discriminate].
    destruct (num_of v) as [q|] eqn:En; [|discriminate].
    destruct (Qeq_bool q (inject_Z (f_version c))) eqn:Eq; [|discriminate].
    destruct doc as [| | | | |d]; try discriminate.
    exists d, q. split; [reflexivity|]. split; [|split].
    + apply (read_items_ok c d [] []). eauto.
    + eapply read_version_is; eauto.
    + apply Qeq_bool_iff. exact Eq.
  - intros (d & q & -> & Hw & Hv & Hq). destruct (version_is_read d q Hv) as (v & -> & ->).
    apply Qeq_bool_iff in Hq. rewrite Hq. apply read_items_ok. exact Hw.
Qed.

Lemma upgrade_wellformed : forall cur def cv dv log new,
  is_dict cur -> version_is cur cv -> default_is def dv log ->
  do_upgrade cur def = Ok new -> wellformed cur -> wellformed def -> is_dict def -> wellformed new.
Proof.
  intros cur def cv dv log new Hc Hv Hd H Wc Wd Hdd.
  destruct (Qlt_le_dec cv dv) as [Hlt|Hle].
  2:{ rewrite (upgrade_uptodate cur def cv dv log) in H by assumption. inversion H; subst. exact Wc. }
  assert (Hin : forall k, last_change cv log k = Some Added \/ last_change cv log k = Some Modified ->
             dget k def <> None).
  { intros k Hk E. rewrite (upgrade_fails cur def cv dv log k) in H; auto. discriminate. }
  destruct (upgrade_main cur def cv dv log Hc Hv Hd Hlt Hin) as (new' & En & Dn & Mn & Gn).
  rewrite En in H. inversion H; subst new'. clear H.
  intros k j Hk Hne. pose proof (dget_in _ _ _ Dn Hk) as G. rewrite Gn in G by exact Hne.
  unfold upgraded_value in G.
  destruct (last_change cv log k) as [[| |]|]; try discriminate.
  - apply (Wd k j); auto. apply dget_some_in. exact G.
  - apply (Wd k j); auto. apply dget_some_in. exact G.
  - apply (Wc k j); auto. apply dget_some_in. exact G.
Qed.

(** * Parameter access *)

Section Access.
Context {V : Type}.
Variable none : V.
Variable is_none : V -> bool.
Variable params : list (@aparam V).

Notation get := (get is_none params).
Notation exec := (exec is_none params).
Notation execs := (execs is_none params).

(** Every cached value of a scalar parameter is stable. *)
Lemma cached_kept : forall o s p i v, cached (p, i) (s_cache s) = Some v ->
  cached (p, i) (s_cache (fst (exec o s))) = Some v.
Proof.
  intros o s p i v H. destruct o as [p' i'|i' name v']; cbn [ConfModel.exec].
  - unfold ConfModel.get. destruct (nth_error params p') as [d|]; [|exact H].
    destruct (nth_error (s_objects s) i') as [ob|]; [|exact H].
    destruct (p_array d); [exact H|].
    destruct (cached (p', i') (s_cache s)) as [v'|] eqn:E; [exact H|].
    destruct (compute is_none d ob) as [w|e]; [|exact H].
    cbn. destruct ((p =? p')%nat && (i =? i')%nat) eqn:Eq; [|exact H].
    apply andb_true_iff in Eq. destruct Eq as [E1 E2].
    apply Nat.eqb_eq in E1, E2. subst. congruence.
  - destruct (nth_error (s_objects s) i'); exact H.
Qed.

Lemma cached_kept_all : forall l s p i v, cached (p, i) (s_cache s) = Some v ->
  cached (p, i) (s_cache (fst (execs l s))) = Some v.
Proof.
  induction l as [|o l IH]; intros s p i v H; cbn [ConfModel.execs]; [exact H|].
  destruct (exec o s) as [s1 a] eqn:E1.
  destruct (execs l s1) as [s2 b] eqn:E2. cbn [fst].
  replace s2 with (fst (execs l s1)) by (rewrite E2; reflexivity).
  apply IH. replace s1 with (fst (exec o s)) by (rewrite E1; reflexivity).
  apply cached_kept. exact H.
Qed.

Lemma nth_set_nth : forall A (l : list A) i j x,
  nth_error (set_nth l i x) j = if (i =? j)%nat then (match nth_error l j with Some _ => Some x | None => None end) else nth_error l j.
Proof.
  induction l as [|y r IH]; intros [|i] [|j] x; cbn; try reflexivity.
  - destruct (i =? j)%nat; reflexivity.
  - apply IH.
Qed.

Lemma objects_kept : forall p i s, s_objects (fst (exec (Get p i) s)) = s_objects s.
Proof.
  intros. cbn. unfold ConfModel.get. destruct (nth_error params p) as [d|]; [|reflexivity].
  destruct (nth_error (s_objects s) i) as [o|]; [|reflexivity].
  destruct (p_array d); [reflexivity|].
  destruct (cached (p, i) (s_cache s)); [reflexivity|].
  destruct (compute is_none d o); reflexivity.
Qed.

(** Cache correctness: without assignments every cached value is the value
    computed from the object's data. *)
Definition sound (s : state) : Prop :=
  forall p i v d o, cached (p, i) (s_cache s) = Some v ->
  nth_error params p = Some d -> nth_error (s_objects s) i = Some o ->
  compute is_none d o = Ok v.

Lemma get_sound : forall p i s, sound s ->
  sound (fst (exec (Get p i) s)) /\
  forall d o, nth_error params p = Some d -> nth_error (s_objects s) i = Some o ->
    snd (exec (Get p i) s) = Some (compute is_none d o).
Proof.
  intros p i s Hs. split.
  - intros p' i' v d o Hc Hd Ho. rewrite objects_kept in Ho.
    cbn in Hc. unfold ConfModel.get in Hc.
    destruct (nth_error params p) as [d0|] eqn:E1; [|eapply Hs; eauto].
    destruct (nth_error (s_objects s) i) as [o0|] eqn:E2; [|eapply Hs; eauto].
    destruct (p_array d0); [eapply Hs; eauto|].
    destruct (cached (p, i) (s_cache s)) as [v0|] eqn:E3; [eapply Hs; eauto|].
    destruct (compute is_none d0 o0) as [w|e] eqn:E4; [|eapply Hs; eauto].
    cbn in Hc. destruct ((p' =? p)%nat && (i' =? i)%nat) eqn:Eq; [|eapply Hs; eauto].
    apply andb_true_iff in Eq. destruct Eq as [F1 F2].
    apply Nat.eqb_eq in F1, F2. subst. congruence.
  - intros d o Hd Ho. cbn. unfold ConfModel.get. rewrite Hd, Ho.
    destruct (p_array d); [reflexivity|].
    destruct (cached (p, i) (s_cache s)) as [v0|] eqn:E3.
    + cbn. f_equal. symmetry. eapply Hs; eauto.
    + destruct (compute is_none d o) as [w|e] eqn:E4; reflexivity.
Qed.

Definition is_get (o : @op V) : bool := match o with Get _ _ => true | Put _ _ _ => false end.

Lemma gets_sound : forall l s, sound s -> forallb is_get l = true ->
  s_objects (fst (execs l s)) = s_objects s /\ sound (fst (execs l s)) /\
  forall n p i d o, nth_error l n = Some (Get p i) ->
    nth_error params p = Some d -> nth_error (s_objects s) i = Some o ->
    nth_error (snd (execs l s)) n = Some (Some (compute is_none d o)).
Proof.
  induction l as [|a l IH]; intros s Hs Hl.
  - cbn. repeat split; auto. intros [|n] ? ? ? ? H; discriminate.
  - cbn [forallb] in Hl. apply andb_true_iff in Hl. destruct Hl as [Ha Hl].
    destruct a as [p i|]; [|discriminate].
    destruct (get_sound p i s Hs) as [Hs1 Hv]. pose proof (objects_kept p i s) as Ho.
    cbn [ConfModel.execs].
    destruct (exec (Get p i) s) as [s1 r] eqn:E1. cbn [fst snd] in *.
    destruct (IH s1 Hs1 Hl) as (H1 & H2 & H3).
    destruct (execs l s1) as [s2 b] eqn:E2. cbn [fst snd] in *.
    split; [congruence|]. split; [exact H2|].
    intros [|n] p' i' d o Hn Hd Hob; cbn in Hn |- *.
    + inversion Hn; subst. f_equal. apply Hv; assumption.
    + eapply H3; eauto. rewrite Ho. exact Hob.
Qed.

(** After a successful scalar read, the same value forever, even if the data
    of the object is changed. *)
Lemma get_then_cached : forall p i s v d,
  nth_error params p = Some d -> p_array d = false ->
  snd (exec (Get p i) s) = Some (Ok v) ->
  cached (p, i) (s_cache (fst (exec (Get p i) s))) = Some v.
Proof.
  intros p i s v d Hd Ha. cbn. unfold ConfModel.get. rewrite Hd, Ha.
  destruct (nth_error (s_objects s) i) as [o|] eqn:Eo; [|discriminate].
  destruct (cached (p, i) (s_cache s)) as [w|] eqn:E.
  - cbn. intro H. inversion H; subst. exact E.
  - destruct (compute is_none d o) as [w|e]; cbn; intro H; inversion H; subst.
    rewrite !Nat.eqb_refl. reflexivity.
Qed.

Lemma exec_objects_exist : forall o s i, nth_error (s_objects s) i <> None ->
  nth_error (s_objects (fst (exec o s))) i <> None.
Proof.
  intros o s i H. destruct o as [p j|j name v].
  - rewrite objects_kept. exact H.
  - cbn. destruct (nth_error (s_objects s) j) as [ob|]; [|exact H].
    cbn. rewrite nth_set_nth. destruct (j =? i)%nat; [|exact H].
    destruct (nth_error (s_objects s) i); [discriminate|exact H].
Qed.

Lemma execs_objects_exist : forall l s i, nth_error (s_objects s) i <> None ->
  nth_error (s_objects (fst (execs l s))) i <> None.
Proof.
  induction l as [|o l IH]; intros s i H; cbn [ConfModel.execs]; [exact H|].
  pose proof (exec_objects_exist o s i H) as H1.
  destruct (exec o s) as [s1 a]. cbn [fst] in H1.
  pose proof (IH s1 i H1) as H2. destruct (execs l s1) as [s2 b]. exact H2.
Qed.

Lemma stable_read : forall l p i s v d,
  nth_error params p = Some d -> p_array d = false ->
  snd (exec (Get p i) s) = Some (Ok v) ->
  snd (exec (Get p i) (fst (execs l (fst (exec (Get p i) s))))) = Some (Ok v).
Proof.
  intros l p i s v d Hd Ha H.
  pose proof (get_then_cached p i s v d Hd Ha H) as Hc.
  set (s1 := fst (exec (Get p i) s)) in *.
  assert (Ho : nth_error (s_objects s1) i <> None).
  { unfold s1. rewrite objects_kept. cbn in H. unfold ConfModel.get in H. rewrite Hd in H.
    destruct (nth_error (s_objects s) i); discriminate. }
  pose proof (cached_kept_all l s1 p i v Hc) as Hc2.
  pose proof (execs_objects_exist l s1 i Ho) as Ho2.
  cbn. unfold ConfModel.get. rewrite Hd, Ha.
  destruct (nth_error (s_objects (fst (execs l s1))) i); [|congruence].
  rewrite Hc2. reflexivity.
Qed.
End Access.
