(** C40: what the upgrade command does to the files of a configuration. *)
From Coq Require Import Ascii String List Bool Arith Lia.
From Verif Require Import Common Dict FsModel FsProofs WsModel WsSpec WsProofs IoSpec IoProofs WebSpec WebProofs CliModel.
Import ListNotations.
Open Scope string_scope.
Open Scope list_scope.

Definition three : list string := ["CHD"; "CNF"; "CST"].
Definition conf_file (W : path) (w c key : string) : path := config_dir W w c ++ [key ++ ".json"]%string.

Lemma file_neq : forall W w c k k', In k three -> In k' three -> k <> k' -> conf_file W w c k <> conf_file W w c k'.
Proof.
  intros W w c k k' I I' N E. apply app_inv_head in E. injection E as E.
  destruct I as [<-|[<-|[<-|[]]]], I' as [<-|[<-|[<-|[]]]]; cbn in E; try discriminate; congruence.
Qed.

(** C40: when one of the three files is older than the packaged one, all three are
    upgraded and no other file changes; otherwise nothing changes. *)
Theorem C40_command : forall W upg newer w c n text older,
  plain w = true -> plain c = true -> w <> "" -> c <> "" ->
  (forall key, In key three -> file_at n (conf_file W w c key) (text key) /\ newer key (text key) = Some (older key)) ->
  (existsb older three = false -> cf_upgrade W upg newer (Some w) (Some c) n = (n, Ok tt)) /\
  (forall new, existsb older three = true -> (forall key, In key three -> upg key (text key) = Some (new key)) ->
     exists n', cf_upgrade W upg newer (Some w) (Some c) n = (n', Ok tt) /\
       files_changed n n' (map (conf_file W w c) three) (fun q s => exists key, In key three /\ q = conf_file W w c key /\ s = new key)).
Proof.
  intros W upg newer w c n text older Pw Pc Nw Nc H.
  assert (CF : forall key, In key three -> config_file W w c key = conf_file W w c key).
  { intros key I. unfold conf_file. rewrite cfile; auto. destruct I as [<-|[<-|[<-|[]]]]; reflexivity. }
  assert (I1 : In "CHD" three) by (cbn; auto). assert (I2 : In "CNF" three) by (cbn; auto). assert (I3 : In "CST" three) by (cbn; auto).
  assert (RD : forall n key s, In key three -> file_at n (conf_file W w c key) s -> read_file (config_file W w c key) n = Some s).
  { intros m key s I F. rewrite (CF key I). unfold read_file. unfold file_at in F. rewrite F. reflexivity. }
  assert (E : cf_upgrade W upg newer (Some w) (Some c) n =
    if existsb older three then upgrade_all_config W upg w c n else (n, Ok tt)).
  { unfold cf_upgrade, get_ws_config, get_ws_name, given.
    destruct (String.eqb_spec w ""); [congruence|]. destruct (String.eqb_spec c ""); [congruence|].
    unfold bindM, ret. cbn [fst snd need]. unfold require_upgrade, bindM, look, ret. cbv beta zeta iota.
    rewrite (RD n "CHD" _ I1 (proj1 (H _ I1))). cbn [need]. unfold ret. rewrite (proj2 (H _ I1)). cbn [need]. unfold ret.
    rewrite (RD n "CNF" _ I2 (proj1 (H _ I2))). cbn [need]. unfold ret. rewrite (proj2 (H _ I2)). cbn [need]. unfold ret.
    rewrite (RD n "CST" _ I3 (proj1 (H _ I3))). cbn [need]. unfold ret. rewrite (proj2 (H _ I3)). cbn [need]. unfold ret.
    cbn [three existsb]. rewrite orb_false_r, orb_assoc. destruct (older "CHD" || older "CNF" || older "CST"); reflexivity. }
  split; [intros O; rewrite E, O; reflexivity|]. intros new O U. rewrite E, O.
  assert (ONE : forall m key, In key three -> file_at m (conf_file W w c key) (text key) -> exists m',
    upgrade_config W upg w c key m = (m', Ok tt) /\ files_changed m m' [conf_file W w c key] (fun _ u => u = new key)).
  { intros m key I F. unfold upgrade_config, bindM, look. rewrite (RD m key _ I F). cbn [need]. unfold ret. rewrite (U key I). cbn [need]. unfold ret.
    unfold write_config_file, fs. rewrite (CF key I). destruct (rewrite_is _ _ (new key) _ m F) as (m' & R & FC). fold (conf_file W w c key) in R, FC.
    rewrite R. exists m'. auto. }
  unfold upgrade_all_config, thenM, bindM.
  destruct (ONE n "CHD" I1 (proj1 (H _ I1))) as (n1 & E1 & F1). rewrite E1.
  assert (G2 : file_at n1 (conf_file W w c "CNF") (text "CNF")).
  { apply F1. right. split; [intros [X|[]]; revert X; apply file_neq; auto; discriminate|exact (proj1 (H _ I2))]. }
  destruct (ONE n1 "CNF" I2 G2) as (n2 & E2 & F2). rewrite E2.
  assert (G3 : file_at n2 (conf_file W w c "CST") (text "CST")).
  { apply F2. right. split; [intros [X|[]]; revert X; apply file_neq; auto; discriminate|].
    apply F1. right. split; [intros [X|[]]; revert X; apply file_neq; auto; discriminate|exact (proj1 (H _ I3))]. }
  destruct (ONE n2 "CST" I3 G3) as (n3 & E3 & F3). rewrite E3. exists n3. split; [reflexivity|].
  assert (D : forall a b, In a three -> In b three -> conf_file W w c a = conf_file W w c b -> a = b).
  { intros a b Ia Ib X. destruct (string_dec a b); [assumption|]. exfalso. revert X. apply file_neq; auto. }
  intros q s. rewrite (F3 q s), (F2 q s), (F1 q s). cbn [In map three].
  destruct (list_eq_dec string_dec q (conf_file W w c "CHD")) as [->|D1].
  { split.
    - intros [([X|[]] & _)|(_ & [([X|[]] & _)|(_ & [(_ & ->)|(X & _)])])].
      + apply D in X; auto; discriminate.
      + apply D in X; auto; discriminate.
      + left. split; [auto|]. exists "CHD". auto.
      + tauto.
    - intros [(_ & key & Ik & X & ->)|(X & _)]; [|tauto]. apply D in X; auto. subst key.
      right. split; [intros [X|[]]; apply D in X; auto; discriminate|]. right. split; [intros [X|[]]; apply D in X; auto; discriminate|]. left. auto. }
  destruct (list_eq_dec string_dec q (conf_file W w c "CNF")) as [->|D2].
  { split.
    - intros [([X|[]] & _)|(_ & [(_ & ->)|(X & _)])].
      + apply D in X; auto; discriminate.
      + left. split; [auto|]. exists "CNF". auto.
      + tauto.
    - intros [(_ & key & Ik & X & ->)|(X & _)]; [|tauto]. apply D in X; auto. subst key.
      right. split; [intros [X|[]]; apply D in X; auto; discriminate|]. left. auto. }
  destruct (list_eq_dec string_dec q (conf_file W w c "CST")) as [->|D3].
  { split.
    - intros [(_ & ->)|(X & _)]; [|tauto]. left. split; [auto|]. exists "CST". auto.
    - intros [(_ & key & Ik & X & ->)|(X & _)]; [|tauto]. apply D in X; auto. subst key. left. auto. }
  split.
  - intros [([X|[]] & _)|(_ & [([X|[]] & _)|(_ & [([X|[]] & _)|(_ & X)])])]; try congruence.
    right. split; [|exact X]. intros [Y|[Y|[Y|[]]]]; congruence.
  - intros [([X|[X|[X|[]]]] & _)|(_ & X)]; try congruence.
    right. split; [intros [Y|[]]; congruence|]. right. split; [intros [Y|[]]; congruence|]. right. split; [intros [Y|[]]; congruence|exact X].
Qed.
Print Assumptions C40_command.

(** Non-vacuity: only the constants are old. *)
Definition up_tree : node :=
  NDir [("W", NDir [("w", NDir [("configs", NDir [("c", NDir [("CHD.json", NFile "1"); ("CNF.json", NFile "1"); ("CST.json", NFile "0")])])])])].
Definition up_text (key : string) : string := if (key =? "CST")%string then "0" else "1".
Definition up_newer (key s : string) : option bool := Some (s =? "0")%string.
Example C40_command_example :
  (forall key, In key three -> file_at up_tree (conf_file ["W"] "w" "c" key) (up_text key) /\ up_newer key (up_text key) = Some (key =? "CST")%string) /\
  existsb (fun key => (key =? "CST")%string) three = true /\
  exists n', cf_upgrade ["W"] (fun _ _ => Some "2") up_newer (Some "w") (Some "c") up_tree = (n', Ok tt) /\
    forall key, In key three -> file_at n' (conf_file ["W"] "w" "c" key) "2".
Proof.
  split; [|split; [reflexivity|]].
  - intros key [<-|[<-|[<-|[]]]]; split; reflexivity.
  - eexists. split; [reflexivity|]. intros key [<-|[<-|[<-|[]]]]; reflexivity.
Qed.
