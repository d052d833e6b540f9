(** C108: the shipped CryoSat-2 configuration. *)
From Coq Require Import String List ZArith QArith Bool Lqa.
From Verif Require Import Common Dict ConfModel ConfSpec ConfProofs ConfData ConfProps CryoModel.
Import ListNotations.
Open Scope string_scope.
Open Scope list_scope.

(** The configuration and constants files load without warnings. *)
Theorem C108_load_partial :
  (exists d, load cnf_class (Some (JObj cnf_cryosat)) [] = Ok (d, [])) /\
  (exists d, load cst_class (Some (JObj cst_cryosat)) [] = Ok (d, [])).
Proof. vm_compute. repeat split; eexists; reflexivity. Qed.
Print Assumptions C108_load_partial.

(** False of the shipped data: a CryoSat-2 configuration can be used as it was
    created.  Its characterisation file is of version 0, the software reads
    version 1 only. *)
Theorem C108_created_refuted :
  version_is chd_cryosat 0 /\ f_version chd_class = 1%Z /\
  forall kwargs, load chd_class (Some (JObj chd_cryosat)) kwargs = Err EIncompatible.
Proof.
  split; [right; do 2 eexists; repeat split; reflexivity|]. split; [reflexivity|].
  intros kwargs. vm_compute. reflexivity.
Qed.
Print Assumptions C108_created_refuted.

(** After an upgrade it can, and every parameter has the value shipped for
    CryoSat-2. *)
Theorem C108_upgraded :
  exists new d, do_upgrade chd_cryosat chd_default = Ok new /\
    load chd_class (Some (JObj new)) [] = Ok (d, []) /\
    forall k, k <> metainf -> dget k new = dget k chd_cryosat.
Proof.
  eexists. eexists. split; [vm_compute; reflexivity|]. split; [vm_compute; reflexivity|].
  intros k H.
  match goal with |- dget k ?n = dget k ?c =>
    assert (E : dpop metainf n = dpop metainf c) by (vm_compute; reflexivity);
    assert (D1 : is_dict n) by (apply nodup_by; vm_compute; reflexivity);
    assert (D2 : is_dict c) by (apply nodup_by; vm_compute; reflexivity);
    pose proof (dget_dpop k metainf n D1) as A; pose proof (dget_dpop k metainf c D2) as B;
    rewrite E in A; rewrite A in B
  end.
  destruct (k =? metainf)%string eqn:X; [apply String.eqb_eq in X; contradiction|]. exact B.
Qed.
Print Assumptions C108_upgraded.

(** The five values that make it a CryoSat-2 configuration are different from
    those shipped otherwise, and no upgrade of any configuration changes them;
    what an upgrade does set is the same for both. *)
Definition mission_params : list string :=
  ["antenna_gain_ku_chd"; "brf_sar_chd"; "mean_sat_alt_chd"; "power_tx_ant_ku_chd"; "prf_sar_chd"].
Theorem C108_mission :
  (forall k, In k mission_params -> exists p q, dget k chd_cryosat = Some (JObj [("value", JNum p)]) /\
     dget k chd_default = Some (JObj [("value", JNum q)]) /\ ~ (p == q)%Q) /\
  (forall k, ~ In k (metainf :: mission_params) -> dget k chd_cryosat = dget k chd_default) /\
  (forall cur cv new, is_dict cur -> version_is cur cv -> do_upgrade cur chd_default = Ok new ->
     forall k, In k mission_params -> dget k new = dget k cur) /\
  (forall k, k <> metainf -> dget k cnf_cryosat = dget k cnf_default) /\
  cst_cryosat = cst_default.
Proof.
  split.
  { intros k [<-|[<-|[<-|[<-|[<-|[]]]]]]; do 2 eexists; (split; [reflexivity|]); (split; [reflexivity|]);
      unfold Qeq; cbn; discriminate. }
  split.
  { intros k N. unfold chd_cryosat, chd_default. cbn [dget].
    repeat match goal with |- context [String.eqb k ?x] =>
      destruct (String.eqb_spec k x) as [->|?]; [try reflexivity; exfalso; apply N; cbn; tauto|] end.
    reflexivity. }
  split.
  { intros cur cv new D V U k I.
    destruct (Qlt_le_dec cv 1) as [L|L].
    - destruct (C39_upgrade cur chd_default cv 1 chd_log D V chd_shipped L) as (new' & U' & _ & H).
      + intros j Hj.
        assert (Hk : In j (map fst (concat (map snd chd_log)))) by (destruct Hj as [Hj|Hj]; eapply last_change_in; exact Hj).
        cbn in Hk. destruct Hk as [<-|[<-|[<-|[]]]]; cbn; discriminate.
      + rewrite U in U'. injection U' as <-. rewrite H.
        * unfold upgraded_value. destruct (last_change cv chd_log k) as [x|] eqn:X; [|reflexivity].
          apply last_change_in in X. exfalso. cbn in X, I.
          destruct I as [<-|[<-|[<-|[<-|[<-|[]]]]]]; repeat (destruct X as [X|X]; [discriminate|]); contradiction.
        * cbn in I. destruct I as [<-|[<-|[<-|[<-|[<-|[]]]]]]; discriminate.
    - rewrite (C39_up_to_date cur chd_default cv 1 chd_log V chd_shipped L) in U. now injection U as <-. }
  split.
  { intros k N. unfold cnf_cryosat, cnf_default. cbn [dget].
    repeat match goal with |- context [String.eqb k ?x] =>
      destruct (String.eqb_spec k x) as [->|?]; [try reflexivity; exfalso; apply N; reflexivity|] end.
    reflexivity. }
  reflexivity.
Qed.
Print Assumptions C108_mission.

Example C108_example :
  version_is cnf_cryosat 3 /\ In "prf_sar_chd" mission_params /\
  dget "prf_sar_chd" chd_cryosat = Some (JObj [("value", JNum (909090909090909 # 50000000000))]).
Proof. split; [right; do 2 eexists; repeat split; reflexivity|]. split; [cbn; tauto|reflexivity]. Qed.
