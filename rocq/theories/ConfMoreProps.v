(** C39-C41, continued: files without a version, defaults without a changelog,
    versions that are not numbers. *)
From Coq Require Import String List ZArith QArith Bool Lia Lqa.
From Verif Require Import Common Dict ConfModel ConfSpec ConfProofs.
Import ListNotations.
Open Scope string_scope.
Open Scope list_scope.

Lemma upgrade_from : forall cur def cv dv log,
  is_dict cur -> current_version cur = Ok cv -> default_is def dv log -> (cv < dv)%Q ->
  (forall k, last_change cv log k = Some Added \/ last_change cv log k = Some Modified ->
             dget k def <> None) ->
  exists new, do_upgrade cur def = Ok new /\ is_dict new /\
    dget metainf new = dget metainf def /\
    forall k, k <> metainf -> dget k new = upgraded_value cv log cur def k.
Proof.
  intros cur def cv dv log Hc Hv Hd Hlt Hin.
  destruct (default_parts _ _ _ Hd) as (m & js & Hm & Hdv & Hcl & Hl).
  unfold do_upgrade. rewrite Hv, Hdv. cbn [bind].
  replace (Qle_bool dv cv) with false.
  2:{ symmetry. destruct (Qle_bool dv cv) eqn:E; [|reflexivity]. apply Qle_bool_iff in E. lra. }
  rewrite Hcl. cbn [bind].
  destruct (map_res_log cv log js Hl) as (es & -> & Ees). cbn [bind]. rewrite Ees.
  destruct (fold_left apply_entry (map coded (newer cv log)) ([], [])) as [a r] eqn:Ef.
  destruct (fold_entries _ _ _ Ef) as (Na & Nr & Ha & Hr).
  destruct (copy_keys_spec a def cur) as (c1 & -> & Hd1 & Hg1).
  { intros k Hk. apply Hin. rewrite last_change_flat. apply Ha. exact Hk. }
  cbn [bind]. destruct (pops_spec r c1 (Hd1 Hc)) as [Hd2 Hg2]. cbv zeta in Hd2, Hg2.
  rewrite Hm. eexists. split; [reflexivity|]. split; [|split].
  - apply is_dict_dset. exact Hd2.
  - rewrite dget_dset_same. reflexivity.
  - intros k Hk. rewrite dget_dset_other by exact Hk. rewrite Hg2, Hg1.
    unfold upgraded_value. rewrite last_change_flat.
    destruct (lastf (newer cv log) k) as [x|] eqn:El.
    + destruct x.
      * replace (inb k r) with false.
        2:{ symmetry. apply inb_false. rewrite Hr, El. discriminate. }
        replace (inb k a) with true; [reflexivity|]. symmetry. apply inb_in. apply Ha. auto.
      * replace (inb k r) with false.
        2:{ symmetry. apply inb_false. rewrite Hr, El. discriminate. }
        replace (inb k a) with true; [reflexivity|]. symmetry. apply inb_in. apply Ha. auto.
      * replace (inb k r) with true; [reflexivity|]. symmetry. apply inb_in. apply Hr. exact El.
    + replace (inb k r) with false.
      2:{ symmetry. apply inb_false. rewrite Hr, El. discriminate. }
      replace (inb k a) with false; [reflexivity|].
      symmetry. apply inb_false. rewrite Ha, El. intros [H|H]; discriminate.
Qed.

(** A configuration with metadata but without a version is upgraded like one of
    version -1, although the reader refuses it. *)
Theorem C39_no_version : forall c cur def m dv log,
  is_dict cur -> dget metainf cur = Some (JObj m) -> dget "version" m = None ->
  default_is def dv log -> ((-1 # 1) < dv)%Q ->
  (forall k, last_change (-1 # 1) log k = Some Added \/ last_change (-1 # 1) log k = Some Modified -> dget k def <> None) ->
  read_file c (JObj cur) = Err EKey /\
  exists new, do_upgrade cur def = Ok new /\
    dget metainf new = dget metainf def /\
    forall k, k <> metainf -> dget k new = upgraded_value (-1 # 1) log cur def k.
Proof.
  intros c cur def m dv log Hc Hm Hv Hd Hlt Hin. split.
  - unfold read_file, get_version. now rewrite Hm, Hv.
  - assert (E : current_version cur = Ok (-1 # 1)) by (unfold current_version; now rewrite Hm, Hv).
    destruct (upgrade_from cur def (-1 # 1) dv log Hc E Hd Hlt Hin) as (new & A & _ & B & C). eauto.
Qed.
Print Assumptions C39_no_version.

(** A default without a changelog: nothing newer can be installed, and a
    configuration that is up to date is left alone. *)
Theorem C39_no_changelog : forall cur def m v cv dv,
  version_is cur cv -> dget metainf def = Some (JObj m) -> dget "version" m = Some v -> num_of v = Some dv ->
  dget "changelog" m = None ->
  do_upgrade cur def = if Qle_bool dv cv then Ok cur else Err EKey.
Proof.
  intros cur def m v cv dv Hv Hm Hve Hn Hc. unfold do_upgrade. rewrite (current_version_is _ _ Hv). cbn [bind].
  unfold default_version, default_changelog, default_meta. rewrite Hm. cbn [bind]. rewrite Hve, Hn, Hc. cbn [bind].
  destruct (Qle_bool dv cv); reflexivity.
Qed.
Print Assumptions C39_no_changelog.

(** A default without metadata or version cannot be compared with. *)
Theorem C39_no_default : forall cur def cv, version_is cur cv ->
  (dget metainf def = None \/ exists m, dget metainf def = Some (JObj m) /\ dget "version" m = None) ->
  do_upgrade cur def = Err EKey.
Proof.
  intros cur def cv Hv H. unfold do_upgrade. rewrite (current_version_is _ _ Hv). cbn [bind]. unfold default_version, default_meta.
  destruct H as [-> |(m & -> & E)]; [reflexivity|]. cbn [bind]. now rewrite E.
Qed.
Print Assumptions C39_no_default.

(** The version of a file: true counts as 1 and false as 0; a text, a list, an
    object or null is no version, for the reader and the upgrade alike. *)
Theorem C41_versions : forall c cur def m v,
  dget metainf cur = Some (JObj m) -> dget "version" m = Some v ->
  match v with
  | JNum q => version_is cur q
  | JBool b => version_is cur (inject_Z (if b then 1 else 0))
  | _ => read_file c (JObj cur) = Err EType /\ do_upgrade cur def = Err EType /\ forall q, ~ version_is cur q
  end.
Proof.
  intros c cur def m v Hm Hv.
  assert (Y : forall q, num_of v = Some q -> version_is cur q) by (intros q Q; right; exists m, v; auto).
  assert (N : num_of v = None -> read_file c (JObj cur) = Err EType /\ do_upgrade cur def = Err EType /\ forall q, ~ version_is cur q).
  { intros Z. split; [unfold read_file, get_version; rewrite Hm, Hv, Z; reflexivity|].
    split; [unfold do_upgrade, current_version; rewrite Hm, Hv, Z; reflexivity|].
    intros q [[A _]|(m' & v' & A & B & D)]; congruence. }
  destruct v as [|b|q|s|l|d]; try (apply N; reflexivity); apply Y; [destruct b|]; reflexivity.
Qed.
Print Assumptions C41_versions.
Example C41_versions_example :
  read_file {| f_version := 1; f_declared := ["a"] |} (JObj [(metainf, JObj [("version", JBool true)]); ("a", JObj [("value", JNum 5)])]) = Ok ([("a", JNum 5)], []) /\
  read_file {| f_version := 1; f_declared := ["a"] |} (JObj [(metainf, JObj [("version", JStr "1")])]) = Err EType /\
  read_file {| f_version := 1; f_declared := ["a"] |} (JObj [(metainf, JObj [])]) = Err EKey.
Proof. repeat split; reflexivity. Qed.
Example C39_no_version_example :
  do_upgrade [(metainf, JObj []); ("a", JNum 1)] [(metainf, JObj [("version", JNum 1); ("changelog", JArr [])])]
  = Ok [(metainf, JObj [("version", JNum 1); ("changelog", JArr [])]); ("a", JNum 1)] /\
  do_upgrade [("a", JNum 1)] [(metainf, JObj [("version", JNum 1)])] = Err EKey.
Proof. split; reflexivity. Qed.
