(** C39-C42, C78: configuration files. *)
From Coq Require Import String List ZArith QArith Qminmax Qround Bool Lqa.
From Verif Require Import Common Dict ConfModel ConfSpec ConfProofs ConfData.
Import ListNotations.
Open Scope string_scope.
Open Scope list_scope.

(** C39: the changelog is applied and nothing else. *)
Theorem C39_upgrade : forall cur def cv dv log,
  is_dict cur -> version_is cur cv -> default_is def dv log -> (cv < dv)%Q ->
  (forall k, last_change cv log k = Some Added \/ last_change cv log k = Some Modified ->
             dget k def <> None) ->
  exists new, do_upgrade cur def = Ok new /\
    dget metainf new = dget metainf def /\
    forall k, k <> metainf -> dget k new = upgraded_value cv log cur def k.
Proof.
  intros cur def cv dv log H1 H2 H3 H4 H5.
  destruct (upgrade_main cur def cv dv log H1 H2 H3 H4 H5) as (n & A & _ & B & C). eauto.
Qed.
Print Assumptions C39_upgrade.

Theorem C39_up_to_date : forall cur def cv dv log,
  version_is cur cv -> default_is def dv log -> (dv <= cv)%Q -> do_upgrade cur def = Ok cur.
Proof. exact upgrade_uptodate. Qed.
Print Assumptions C39_up_to_date.

(** A changelog naming an addition the default does not have makes the upgrade
    fail; nothing is written then. *)
Theorem C39_missing_default : forall cur def cv dv log k,
  version_is cur cv -> default_is def dv log -> (cv < dv)%Q ->
  last_change cv log k = Some Added \/ last_change cv log k = Some Modified ->
  dget k def = None ->
  do_upgrade cur def = Err EKey.
Proof. exact upgrade_fails. Qed.
Print Assumptions C39_missing_default.

(** C40: idempotence, for arbitrary documents. *)
Theorem C40_idempotent : forall cur def new,
  do_upgrade cur def = Ok new -> do_upgrade new def = Ok new.
Proof. exact upgrade_idempotent. Qed.
Print Assumptions C40_idempotent.

Theorem C40_version : forall cur def cv dv log new,
  version_is cur cv -> default_is def dv log -> do_upgrade cur def = Ok new ->
  exists q, version_is new q /\ (q == Qmax cv dv)%Q.
Proof.
  intros cur def cv dv log new Hv Hd H. destruct (Qlt_le_dec cv dv) as [Hlt|Hle].
  - destruct (upgrade_inv _ _ _ H) as [[_ (cv' & dv' & E1 & E2 & E3)]|Hm].
    + rewrite (current_version_is _ _ Hv) in E1. inversion E1; subst.
      destruct (default_parts _ _ _ Hd) as (m & js & _ & Hdv & _).
      rewrite Hdv in E2. inversion E2; subst. apply Qle_bool_iff in E3. lra.
    + exists dv. split.
      * destruct Hd as (m & v & js & A & B & C & _). right. exists m, v. rewrite Hm. auto.
      * symmetry. apply Q.max_r. lra.
  - rewrite (upgrade_uptodate cur def cv dv log) in H by assumption. inversion H; subst.
    exists cv. split; [exact Hv|]. symmetry. apply Q.max_l. exact Hle.
Qed.
Print Assumptions C40_version.

(** After the upgrade the reader accepts the file. *)
Theorem C40_loadable : forall c cur def cv dv log new,
  is_dict cur -> is_dict def -> wellformed cur -> wellformed def ->
  version_is cur cv -> default_is def dv log ->
  (cv <= dv)%Q -> (dv == inject_Z (f_version c))%Q ->
  do_upgrade cur def = Ok new -> exists r, read_file c (JObj new) = Ok r.
Proof.
  intros c cur def cv dv log new Hc Hdd Wc Wd Hv Hd Hle Hq H.
  apply read_file_ok. destruct (C40_version _ _ _ _ _ _ Hv Hd H) as (q & Hq1 & Hq2).
  exists new, q. split; [reflexivity|]. split; [|split; [exact Hq1|]].
  - apply (upgrade_wellformed cur def cv dv log new); assumption.
  - rewrite Hq2, <- Hq. apply Q.max_r. exact Hle.
Qed.
Print Assumptions C40_loadable.

(** Example: a version-0 file with an edited value, an obsolete parameter and
    one touched twice. *)
Definition ex_meta (v : Q) (log : list json) : json :=
  JObj [("version", JNum v); ("changelog", JArr log)].
Definition ex_change (v : Q) (es : list (string * kind)) : json :=
  JObj [("version", JNum v); ("parameters", JArr (map (fun e => entry_json e []) es))].
Definition ex_log : changelog :=
  [(0, [("z", Added)]); (1, [("a", Modified); ("b", Removed)]); (2, [("b", Added); ("c", Removed)])]%Q.
Definition ex_def : dict json :=
  [(metainf, ex_meta 2 (map (fun c => ex_change (fst c) (snd c)) ex_log));
   ("a", JObj [("value", JNum 10)]); ("b", JObj [("value", JNum 20)]); ("d", JObj [("value", JNum 30)])].
Definition ex_cur : dict json :=
  [("b", JObj [("value", JNum 1)]); ("d", JObj [("value", JNum 2)]); ("c", JObj [("value", JNum 3)]);
   (metainf, ex_meta 0 [])].
Example C39_example :
  default_is ex_def 2 ex_log /\ version_is ex_cur 0 /\
  exists new, do_upgrade ex_cur ex_def = Ok new /\
    map (fun k => dget k new) ["a"; "b"; "c"; "d"]
    = [Some (JObj [("value", JNum 10)]); Some (JObj [("value", JNum 20)]); None;
       Some (JObj [("value", JNum 2)])].
Proof.
  split; [|split].
  - exists [("version", JNum 2); ("changelog", JArr (map (fun c => ex_change (fst c) (snd c)) ex_log))].
    eexists. eexists. do 4 (split; [reflexivity|]).
    repeat constructor; do 3 eexists; repeat split; repeat constructor; exists []; reflexivity.
  - right. do 2 eexists. repeat split; reflexivity.
  - eexists. split; reflexivity.
Qed.

(** C41: accepted exactly with the expected version (and complete entries). *)
Theorem C41_accepted : forall c doc,
  (exists r, read_file c doc = Ok r) <->
  exists d q, doc = JObj d /\ wellformed d /\ version_is d q /\ (q == inject_Z (f_version c))%Q.
Proof. exact read_file_ok. Qed.
Print Assumptions C41_accepted.

Theorem C41_values : forall c d kwargs data warned,
  is_dict d -> is_dict kwargs ->
  load c (Some (JObj d)) kwargs = Ok (data, warned) ->
  (forall k, getitem c data k =
     if declares c k then
       match dget k kwargs with
       | Some v => Ok v
       | None => match value_in d k with Some v => Ok v | None => Err EMissing end
       end
     else Err EMissing) /\
  (declares c metainf = false -> getitem c data metainf = Err EMissing) /\
  warned = filter (fun k => negb (k =? metainf) && negb (declares c k)) (keys d).
Proof.
  intros c d kwargs data warned Hd Hk H. unfold load, read_file in H.
  destruct (get_version (JObj d)) as [v|e]; [|discriminate].
  destruct (num_of v) as [q|]; [|discriminate].
  destruct (Qeq_bool q (inject_Z (f_version c))); [|discriminate].
  destruct (read_items c d [] []) as [[dat w]|e] eqn:E; [|discriminate].
  inversion H; subst. destruct (read_items_values _ _ _ _ _ _ E Hd) as [H1 H2].
  split; [|split].
  - intro k. unfold getitem. destruct (declares c k); [|reflexivity].
    rewrite dget_dupdate by exact Hk. destruct (dget k kwargs); [reflexivity|].
    rewrite H1. cbn [dget]. destruct (value_in d k); reflexivity.
  - intro H3. unfold getitem. rewrite H3. reflexivity.
  - exact H2.
Qed.
Print Assumptions C41_values.

Theorem C41_keywords_only : forall c kwargs, is_dict kwargs ->
  exists data, load c None kwargs = Ok (data, []) /\
  forall k, getitem c data k =
    if declares c k then match dget k kwargs with Some v => Ok v | None => Err EMissing end
    else Err EMissing.
Proof.
  intros c kwargs Hk. eexists. split; [reflexivity|]. intro k. unfold getitem.
  destruct (declares c k); [|reflexivity]. rewrite dget_dupdate by exact Hk.
  destruct (dget k kwargs); reflexivity.
Qed.
Print Assumptions C41_keywords_only.

Definition ex_class : fclass := {| f_version := 2; f_declared := ["a"; "b"; "e"] |}.
Example C41_example :
  (exists data, load ex_class (Some (JObj ex_def)) [("b", JNum 7)] = Ok (data, ["d"]) /\
   map (getitem ex_class data) ["a"; "b"; "d"; "e"; metainf]
   = [Ok (JNum 10); Ok (JNum 7); Err EMissing; Err EMissing; Err EMissing]) /\
  load ex_class (Some (JObj ex_cur)) [] = Err EIncompatible /\
  load ex_class (Some (JObj [("a", JNum 1)])) [] = Err EIncompatible.
Proof. split; [eexists; split; reflexivity|]. split; reflexivity. Qed.

(** C42: reads of any number of parameters on any number of objects, in any
    order, give the value determined by the object's own data. *)
Theorem C42_reads : forall V (is_none : V -> bool) params objects l n p i d o,
  forallb is_get l = true ->
  nth_error l n = Some (Get p i) ->
  nth_error params p = Some d -> nth_error objects i = Some o ->
  nth_error (snd (execs is_none params l {| s_objects := objects; s_cache := [] |})) n
  = Some (Some (compute is_none d o)).
Proof.
  intros V is_none params objects l n p i d o Hl Hn Hd Ho.
  assert (Hs : sound is_none params {| s_objects := objects; s_cache := [] |}).
  { intros p' i' v d' o' H. discriminate. }
  destruct (gets_sound is_none params l _ Hs Hl) as (_ & _ & H). eapply H; eauto.
Qed.
Print Assumptions C42_reads.

(** What that value is: present, absent optional, absent mandatory; typed. *)
Theorem C42_present : forall V (is_none : V -> bool) (d : @aparam V) o v,
  declares (o_class o) (p_name d) = true -> dget (p_name d) (o_data o) = Some v ->
  is_none v = false -> p_type d = None ->
  compute is_none d o = match p_cast d with Some f => f v | None => Ok v end.
Proof.
  intros V is_none d o v H1 H2 H3 H4. unfold compute, retrieve. rewrite H1, H2. cbn [bind].
  rewrite H3, H4. destruct (p_cast d) as [f|]; [destruct (f v)|]; cbn [bind]; destruct (p_array d); reflexivity.
Qed.
Print Assumptions C42_present.

Theorem C42_typed : forall V (is_none : V -> bool) (d : @aparam V) o isinst v,
  p_type d = Some isinst -> p_array d = false ->
  compute is_none d o = Ok v -> isinst v = true.
Proof.
  intros V is_none d o isinst v H1 H2. unfold compute.
  destruct (retrieve d o) as [w|e]; cbn [bind]; [|discriminate].
  destruct (match p_cast d with Some f => if is_none w then Ok w else f w | None => Ok w end)
    as [u|e]; cbn [bind]; [|discriminate].
  rewrite H1, H2. destruct (isinst u) eqn:E; [|discriminate]. intro H; inversion H; subst. exact E.
Qed.
Print Assumptions C42_typed.

Definition absent {V} (d : @aparam V) (o : @object V) : Prop :=
  declares (o_class o) (p_name d) = false \/ dget (p_name d) (o_data o) = None.

Lemma absent_retrieve : forall V (d : @aparam V) o, absent d o ->
  retrieve d o = if p_optional d then Ok (p_default d) else Err EMissing.
Proof.
  intros V d o H. unfold retrieve. destruct H as [H|H]; rewrite H; [reflexivity|].
  destruct (declares (o_class o) (p_name d)); reflexivity.
Qed.

Theorem C42_absent_mandatory : forall V (is_none : V -> bool) (d : @aparam V) o,
  absent d o -> p_optional d = false -> compute is_none d o = Err EMissing.
Proof.
  intros V is_none d o H1 H2. unfold compute. rewrite absent_retrieve by exact H1.
  rewrite H2. reflexivity.
Qed.
Print Assumptions C42_absent_mandatory.

(** The default is returned when it is [None] and no type is demanded, or when
    it is a proper value of the type (a fixed point of the conversion). *)
Theorem C42_absent_optional : forall V (is_none : V -> bool) (d : @aparam V) o,
  absent d o -> p_optional d = true -> p_array d = false ->
  (is_none (p_default d) = true /\ p_type d = None) \/
  ((forall f, p_cast d = Some f -> f (p_default d) = Ok (p_default d)) /\
   (forall t, p_type d = Some t -> t (p_default d) = true)) ->
  compute is_none d o = Ok (p_default d).
Proof.
  intros V is_none d o H1 H2 H3 H4. unfold compute. rewrite absent_retrieve by exact H1.
  rewrite H2. cbn [bind]. destruct H4 as [[A B]|[A B]].
  - rewrite A, B, H3. destruct (p_cast d); reflexivity.
  - rewrite H3.
    assert (E : (match p_cast d with
                 | Some f => if is_none (p_default d) then Ok (p_default d) else f (p_default d)
                 | None => Ok (p_default d) end) = Ok (p_default d)).
    { destruct (p_cast d) as [f|]; [|reflexivity].
      destruct (is_none (p_default d)); [reflexivity|apply A; reflexivity]. }
    rewrite E. cbn [bind]. destruct (p_type d) as [t|]; [rewrite (B t eq_refl)|]; reflexivity.
Qed.
Print Assumptions C42_absent_optional.

(** As declared ([AuxiliaryParameter(name, type, cast, optional, default)]):
    an absent parameter is an error when it is neither optional nor given a
    default; otherwise the default is returned (when it is of the type). *)
Theorem C42_declared : forall V (is_none : V -> bool) name type cast optional default o,
  let d := mk_param is_none name type cast optional default in
  absent d o ->
  (optional = false -> is_none default = true -> compute is_none d o = Err EMissing) /\
  (optional = true \/ is_none default = false ->
   (type = None -> cast = None -> compute is_none d o = Ok default) /\
   (forall conv isinst, type = Some (conv, isinst) -> cast = None ->
      conv default = Ok default -> isinst default = true -> compute is_none d o = Ok default)).
Proof.
  intros V is_none name type cast optional default o d H. split.
  - intros -> E. apply C42_absent_mandatory; [exact H|]. cbn. rewrite E. reflexivity.
  - intro E. assert (O : p_optional d = true).
    { cbn. destruct E as [-> | ->]; [reflexivity|apply orb_true_r]. }
    split.
    + intros T C. apply C42_absent_optional; [exact H|exact O|reflexivity|].
      right. subst type cast. split; intros ? X; discriminate X.
    + intros conv isinst T C F I. apply C42_absent_optional; [exact H|exact O|reflexivity|].
      right. subst type cast. split; intros ? X; inversion X; subst; assumption.
Qed.
Print Assumptions C42_declared.

(** A present value is converted, and rejected if the result has not the
    declared type. *)
Theorem C42_declared_present : forall V (is_none : V -> bool) name conv isinst optional default o v u,
  let d := mk_param is_none name (Some (conv, isinst)) None optional default in
  declares (o_class o) name = true -> dget name (o_data o) = Some v -> is_none v = false ->
  conv v = Ok u ->
  compute is_none d o = if isinst u then Ok u else Err EParamType.
Proof.
  intros V is_none name conv isinst optional default o v u d H1 H2 H3 H4.
  unfold compute, retrieve. cbn [p_name p_cast p_type p_array d mk_param option_map fst snd].
  rewrite H1, H2. cbn [bind]. rewrite H3, H4. cbn [bind]. destruct (isinst u); reflexivity.
Qed.
Print Assumptions C42_declared_present.

(** A value once read is kept for that parameter and object, whatever happens
    in between (even if the data dictionary is edited). *)
Theorem C42_stable : forall V (is_none : V -> bool) params l p i s v (d : @aparam V),
  nth_error params p = Some d -> p_array d = false ->
  snd (exec is_none params (Get p i) s) = Some (Ok v) ->
  let s1 := fst (exec is_none params (Get p i) s) in
  let s2 := fst (execs is_none params l s1) in
  snd (exec is_none params (Get p i) s2) = Some (Ok v).
Proof. intros. cbv zeta. eapply stable_read; eauto. Qed.
Print Assumptions C42_stable.

(** Examples: [int]-typed, optional without default, arrays; a typed optional
    parameter without default fails when absent; a subclass that does not
    repeat the declarations sees no parameter. *)
Definition isnullb (j : json) : bool := match j with JNull => true | _ => false end.
Definition to_int (j : json) : res cerr json :=
  match num_of j with Some q => Ok (JNum (inject_Z (Qfloor q))) | None => Err EConv end.
Definition is_int (j : json) : bool := match j with JNum _ => true | _ => false end.
Definition ex_int := mk_param isnullb "a" (Some (to_int, is_int)) None false JNull.
Definition ex_opt := mk_param isnullb "e" None None true JNull.
Definition ex_typed_opt := mk_param isnullb "e" (Some (to_int, is_int)) None true JNull.
Definition ex_def_opt := mk_param isnullb "e" (Some (to_int, is_int)) None false (JNum 5).
Definition ex_o1 : @object json := {| o_class := ex_class; o_data := [("a", JNum (5 # 2))] |}.
Definition ex_o2 : @object json := {| o_class := ex_class; o_data := [("a", JStr "x"); ("e", JNum 9)] |}.
Definition ex_sub : @object json :=
  {| o_class := {| f_version := 2; f_declared := [] |}; o_data := [("a", JNum (5 # 2))] |}.
Example C42_example :
  snd (execs isnullb [ex_int; ex_opt; ex_typed_opt; ex_def_opt]
    [Get 0 0; Get 0 1; Put 0 "a" (JNum 8); Get 0 0; Get 1 0; Get 1 1; Get 2 0; Get 3 0; Get 3 1; Get 0 2]
    {| s_objects := [ex_o1; ex_o2; ex_sub]; s_cache := [] |})
  = [Some (Ok (JNum 2)); Some (Err EConv); None; Some (Ok (JNum 2)); Some (Ok JNull); Some (Ok (JNum 9));
     Some (Err EParamType); Some (Ok (JNum 5)); Some (Ok (JNum 9)); Some (Err EMissing)].
Proof. reflexivity. Qed.

(** C78: the shipped data. *)
Definition mandatory (ps : list (string * string * bool)) : list string :=
  map (fun p => snd (fst p)) (filter (fun p => negb (snd p)) ps).

Definition cnf_log : changelog :=
  [(0, []); (1, [("flag_azimuth_processing_method_cnf", Modified)]);
   (2, [("flag_cal2_table_index_cnf", Added)]);
   (3, [("output_format_flag_cnf", Added); ("flag_remove_doppler_ambiguities_cnf", Removed);
        ("ambiguity_mask_margin_cnf", Removed); ("elevation_reference_value_cnf", Removed)])]%Q.
Definition chd_log : changelog :=
  [(0, []); (1, [("ratio_trc_ku_chd", Added); ("fft_step_freq_ku_chd", Added); ("ptr_width_chd", Added)])]%Q.
Definition cst_log : changelog := [(0, [])]%Q.

Ltac shipped := do 3 eexists; do 4 (split; [reflexivity|]);
  repeat constructor; do 3 eexists; repeat split; repeat constructor; eexists; reflexivity.
Lemma cnf_shipped : default_is cnf_default 3 cnf_log. Proof. shipped. Qed.
Lemma chd_shipped : default_is chd_default 1 chd_log. Proof. shipped. Qed.
Lemma cst_shipped : default_is cst_default 0 cst_log. Proof. shipped. Qed.

Fixpoint nodupb (l : list string) : bool :=
  match l with [] => true | x :: r => negb (inb x r) && nodupb r end.
Lemma nodup_by : forall l, nodupb l = true -> NoDup l.
Proof.
  induction l as [|x r IH]; cbn; intro H; [constructor|].
  apply andb_true_iff in H. destruct H as [H1 H2]. constructor; auto.
  apply negb_true_iff in H1. apply inb_false. exact H1.
Qed.

(** The shipped files load without warnings in their classes. *)
Theorem C78_shipped_load :
  (exists d, load cnf_class (Some (JObj cnf_default)) [] = Ok (d, [])) /\
  (exists d, load chd_class (Some (JObj chd_default)) [] = Ok (d, [])) /\
  (exists d, load cst_class (Some (JObj cst_default)) [] = Ok (d, [])).
Proof. vm_compute. repeat split; eexists; reflexivity. Qed.
Print Assumptions C78_shipped_load.

(** Upgrading any configuration not newer than the software succeeds and the
    result is accepted by the reader. *)
Definition upgradable (c : fclass) (def : dict json) : Prop :=
  forall cur cv, is_dict cur -> wellformed cur -> version_is cur cv ->
  (cv <= inject_Z (f_version c))%Q ->
  exists new r, do_upgrade cur def = Ok new /\ read_file c (JObj new) = Ok r.

Lemma last_change_in : forall cv log k x, last_change cv log k = Some x ->
  In k (map fst (concat (map snd log))).
Proof.
  intros cv log k x. rewrite last_change_flat. unfold newer.
  induction log as [|[v es] log IH]; cbn [map concat]; [discriminate|].
  rewrite lastf_app, map_app, in_app_iff.
  destruct (lastf _ k) as [y|] eqn:E; [intro H; right; apply IH; exact H|].
  clear IH E. cbn [fst snd]. destruct (Qle_bool v cv); [discriminate|].
  intro H. left. induction es as [|[k' y] es IHe]; cbn in H |- *; [discriminate|].
  destruct (lastf es k); [right; apply IHe; exact H|].
  destruct (k =? k') eqn:E; [|discriminate]. apply String.eqb_eq in E. auto.
Qed.

Lemma upgradable_by : forall c def log,
  default_is def (inject_Z (f_version c)) log -> is_dict def -> wellformed def ->
  (forall cv k, last_change cv log k = Some Added \/ last_change cv log k = Some Modified ->
     dget k def <> None) ->
  upgradable c def.
Proof.
  intros c def log Hd Dd Wd Hin cur cv Hc Wc Hv Hle.
  assert (Hn : exists new, do_upgrade cur def = Ok new).
  { destruct (Qlt_le_dec cv (inject_Z (f_version c))) as [Hlt|Hge].
    - destruct (upgrade_main cur def cv _ log Hc Hv Hd Hlt (Hin cv)) as (n & E & _). eauto.
    - exists cur. eapply upgrade_uptodate; eauto. }
  destruct Hn as [new Hn].
  assert (Hr : exists r, read_file c (JObj new) = Ok r).
  { apply (C40_loadable c cur def cv (inject_Z (f_version c)) log new); auto. reflexivity. }
  destruct Hr as [r Hr]. eauto.
Qed.

Ltac wf := intros k j H Hne; cbn in H;
  repeat (destruct H as [H|H];
    [inversion H; subst; try (exfalso; apply Hne; reflexivity); eexists; eexists; split; reflexivity|]);
  contradiction.

Theorem C78_upgradable :
  upgradable cnf_class cnf_default /\ upgradable chd_class chd_default /\ upgradable cst_class cst_default.
Proof.
  split; [|split].
  - apply (upgradable_by cnf_class _ cnf_log cnf_shipped).
    + apply nodup_by. vm_compute. reflexivity.
    + wf.
    + intros cv k H.
      assert (Hk : In k (map fst (concat (map snd cnf_log)))).
      { destruct H as [H|H]; eapply last_change_in; exact H. }
      rewrite last_change_flat in H. unfold newer in H. cbn [cnf_log map fst snd concat] in H.
      cbn in Hk. destruct Hk as [<-|[<-|[<-|[<-|[<-|[<-|[]]]]]]]; try (cbn; discriminate);
        exfalso; destruct (Qle_bool 0 cv), (Qle_bool 1 cv), (Qle_bool 2 cv), (Qle_bool 3 cv);
        cbn in H; destruct H; discriminate.
  - apply (upgradable_by chd_class _ chd_log chd_shipped).
    + apply nodup_by. vm_compute. reflexivity.
    + wf.
    + intros cv k H.
      assert (Hk : In k (map fst (concat (map snd chd_log)))).
      { destruct H as [H|H]; eapply last_change_in; exact H. }
      cbn in Hk. destruct Hk as [<-|[<-|[<-|[]]]]; cbn; discriminate.
  - apply (upgradable_by cst_class _ cst_log cst_shipped).
    + apply nodup_by. vm_compute. reflexivity.
    + wf.
    + intros cv k H.
      assert (Hk : In k (map fst (concat (map snd cst_log)))).
      { destruct H as [H|H]; eapply last_change_in; exact H. }
      cbn in Hk. contradiction.
Qed.
Print Assumptions C78_upgradable.

(** Changelogs agree with the declarations: what was added is declared, what
    was removed is not. *)
Theorem C78_changelog_declared :
  forall c log, In (c, log) [(cnf_class, cnf_log); (chd_class, chd_log); (cst_class, cst_log)] ->
  forall cv k x, last_change cv log k = Some x ->
  declares c k = match x with Removed => false | _ => true end.
Proof.
  intros c log H cv k x Hl. pose proof (last_change_in _ _ _ _ Hl) as Hk.
  rewrite last_change_flat in Hl. unfold newer in Hl.
  destruct H as [H|[H|[H|[]]]]; inversion H; subst; clear H;
    cbn [cnf_log chd_log cst_log map fst snd concat] in Hl; cbn in Hk;
    repeat (destruct Hk as [<-|Hk]); try contradiction;
    destruct (Qle_bool 0 cv), (Qle_bool 1 cv), (Qle_bool 2 cv), (Qle_bool 3 cv);
    cbn in Hl; try discriminate; inversion Hl; reflexivity.
Qed.
Print Assumptions C78_changelog_declared.

(** Every mandatory parameter of the configuration and constants files is in
    the shipped file, and every algorithm parameter is an attribute of the
    configuration class ... *)
Theorem C78_complete_partial :
  incl (mandatory cnf_params) (keys cnf_default) /\
  incl (mandatory cst_params) (keys cst_default) /\
  incl algorithm_params (map (fun p => fst (fst p)) cnf_params) /\
  (forall k, In k (mandatory chd_params) -> ~ In k (keys chd_default) ->
     In k ["antenna_weights_chd"; "antenna_angles_chd"; "antenna_angles_spacing_chd"]).
Proof.
  assert (D : forall a b : list string, forallb (fun k => inb k b) a = true -> incl a b).
  { intros a b H k Hk. rewrite forallb_forall in H. apply inb_in. apply H. exact Hk. }
  repeat split; try (apply D; vm_compute; reflexivity).
  intros k H Hn. cbn in H.
  repeat (destruct H as [<-|H]; [try (cbn; tauto); exfalso; apply Hn; cbn; tauto|]). contradiction.
Qed.
Print Assumptions C78_complete_partial.

(** ... but the shipped characterisation file lacks the antenna table: with it,
    switching antenna weighting on cannot work. *)
Theorem C78_antenna_refuted :
  exists k data w, In k (mandatory chd_params) /\
    load chd_class (Some (JObj chd_default)) [] = Ok (data, w) /\
    getitem chd_class data k = Err EMissing.
Proof.
  assert (E : match load chd_class (Some (JObj chd_default)) [] with
              | Ok (data, _) => getitem chd_class data "antenna_weights_chd" = Err EMissing
              | Err _ => False
              end) by (vm_compute; reflexivity).
  destruct (load chd_class (Some (JObj chd_default)) []) as [[data w]|e]; [|contradiction].
  exists "antenna_weights_chd", data, w. split; [cbn; tauto|]. split; [reflexivity|exact E].
Qed.
Print Assumptions C78_antenna_refuted.

Example C78_example :
  exists new r, do_upgrade [("flag_uso_correction_cnf", JObj [("value", JBool false)]);
                            ("ambiguity_mask_margin_cnf", JObj [("value", JNum 1)])] cnf_default = Ok new /\
    dget "flag_uso_correction_cnf" new = Some (JObj [("value", JBool false)]) /\
    dget "ambiguity_mask_margin_cnf" new = None /\
    dget "flag_cal2_table_index_cnf" new = Some (JObj [("value", JNum (2 # 1))]) /\
    read_file cnf_class (JObj new) = Ok r.
Proof. vm_compute. eexists. eexists. repeat split; reflexivity. Qed.
