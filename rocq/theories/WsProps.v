(** Properties C46-C49, C51-C53, C55, C79: the workspace manager. *)
From Coq Require Import Ascii String List Bool Arith Lia Sorted Permutation.
From Verif Require Import Common Dict FsModel FsProofs WsModel WsSpec WsProofs.
Import ListNotations.
Open Scope string_scope.
Open Scope list_scope.

(** * Trees for examples *)

Definition ex_res (b : bool) (s : string) : string := if b then "cryosat" else s.
Definition ex_upg (key s : string) : option string := Some (s ++ "+")%string.

Definition ex_tree : node :=
  NDir [("home", NDir [
    ("ws", NDir [
      (".current", NFile "a");
      ("b", NDir [("inputs", NDir [("z.nc", NFile "z"); ("a.nc", NFile "a"); ("readme.txt", NFile "")])]);
      ("a", NDir [("configs", NDir [
                     (".current", NFile "default");
                     ("old", NDir [("CHD.json", NFile "1")]);
                     ("empty", NDir []);
                     ("default", NDir [("CHD.json", NFile "2")])])])]);
    ("l1a.nc", NFile "data")])].
Definition ex_W : path := ["home"; "ws"].

(** * C46: isolation of workspaces *)

(** The content of a workspace is not changed by any history of calls that do
    not name it, when every name in the calls is a single path component
    (configuration and input names may be empty). *)
Theorem C46_isolated_partial : forall W resource upg ops w n,
  w <> ".current" ->
  (forall o, In o ops -> simple_names o = true /\ ~ In w (ws_named o)) ->
  lookup (ws_dir W w) (history W resource upg ops n) = lookup (ws_dir W w) n.
Proof. intros. apply history_isolated; assumption. Qed.
Print Assumptions C46_isolated_partial.

(** Nothing outside the workspaces directory is changed either (inputs are
    copied, not moved). *)
Theorem C46_outside_partial : forall W resource upg ops q n,
  is_prefix W q = false -> is_prefix q W = false ->
  (forall o, In o ops -> simple_names o = true) ->
  lookup q (history W resource upg ops n) = lookup q n.
Proof. intros. apply history_outside; [split; assumption|assumption]. Qed.
Print Assumptions C46_outside_partial.

Example C46_example :
  let ops := [OCreateConfig "a" "new" false; OSetCurrent "b"; ODelete "a"; OCreate "c";
              OAddInputs "c" [["home"; "l1a.nc"]]] in
  let n' := history ex_W ex_res ex_upg ops ex_tree in
  (forall o, In o ops -> simple_names o = true /\ ~ In "b" (ws_named o) \/ o = OSetCurrent "b") /\
  lookup (ws_dir ex_W "b") n' = lookup (ws_dir ex_W "b") ex_tree /\
  lookup ["home"; "ws"; "c"; "inputs"; "l1a.nc"] n' = Some (NFile "data") /\
  lookup ["home"; "ws"; "a"] n' = None /\
  lookup ["home"; "l1a.nc"] n' = Some (NFile "data").
Proof.
  cbv zeta. split; [|repeat split; reflexivity].
  intros o H. cbn in H. intuition (subst; cbn; auto); left; split; try reflexivity;
    intros [E|[]]; discriminate.
Qed.

(** False for names with path separators: deleting a "configuration" of
    workspace a removes workspace b. *)
Theorem C46_separator_refuted : exists W resource upg o w n,
  ws_named o = ["a"] /\ w = "b" /\ snd (exec W resource upg o n) = Ok tt /\
  is_dir (ws_dir W w) n = true /\
  exists_at (ws_dir W w) (fst (exec W resource upg o n)) = false.
Proof.
  exists ex_W, ex_res, ex_upg, (ODeleteConfig "a" "../../b"), "b", ex_tree.
  repeat split; reflexivity.
Qed.
Print Assumptions C46_separator_refuted.

(** * C47: creating never destroys *)

(** For every name, including names with separators: every file keeps its
    content and every directory stays. *)
Theorem C47_workspace_keeps : forall W w n,
  (forall q s, lookup q n = Some (NFile s) -> lookup q (fst (create_ws W w n)) = Some (NFile s)) /\
  (forall q, is_dir q n = true -> is_dir q (fst (create_ws W w n)) = true).
Proof. intros. apply create_ws_preserved. Qed.
Print Assumptions C47_workspace_keeps.

(** A workspace with content is refused; a refused call changes nothing; an
    accepted call leaves a workspace of that name. *)
Theorem C47_workspace_refused : forall W w n d, plain w = true ->
  lookup (ws_dir W w) n = Some (NDir d) -> d <> [] -> create_ws W w n = (n, Err EWs).
Proof.
  intros W w n d Hw L D. unfold create_ws. destruct (plain_inv w Hw) as [_ [N _]].
  apply String.eqb_neq in N. rewrite N. unfold bindM, look.
  rewrite (ws_path_plain W w Hw). unfold nonempty_dir. rewrite L. destruct d; [congruence|reflexivity].
Qed.
Print Assumptions C47_workspace_refused.

Theorem C47_workspace_result : forall W w n n' r, create_ws W w n = (n', r) ->
  match r with Err _ => n' = n | Ok _ => exists_at (join W w) n' = true end.
Proof.
  intros W w n n' r. unfold create_ws. destruct (w =? "")%string; [intro H; inversion H; reflexivity|].
  unfold bindM, look. destruct (nonempty_dir (ws_path W w) n); [intro H; inversion H; reflexivity|].
  intro H. destruct r as [[]|e]; [apply (ensure_ok _ _ _ H)|apply (ensure_fail _ _ _ _ H)].
Qed.
Print Assumptions C47_workspace_result.

(** A free name is accepted when the workspaces directory exists. *)
Theorem C47_workspace_accepted : forall W w n, plain w = true -> is_dir W n = true ->
  exists_at (ws_dir W w) n = false ->
  exists n', create_ws W w n = (n', Ok tt) /\ lookup (ws_dir W w) n' = Some (NDir []).
Proof.
  intros W w n Hw D N. destruct (write_ok true W w (Some (NDir [])) n D) as [n' H].
  exists n'. split; [|apply (write_at _ _ _ _ _ H)].
  unfold create_ws. destruct (plain_inv w Hw) as [_ [E _]]. apply String.eqb_neq in E. rewrite E.
  unfold bindM, look. rewrite (ws_path_plain W w Hw). unfold nonempty_dir, ensure_dir, bindM, look.
  assert (N' := N). unfold exists_at in N'. destruct (lookup (ws_dir W w) n); [discriminate|].
  rewrite N. unfold fs, makedirs, ws_dir. rewrite H. reflexivity.
Qed.
Print Assumptions C47_workspace_accepted.

(** The same for configurations; a new one has exactly the three packaged
    files. *)
Theorem C47_config : forall W resource w c b n n' r, create_config W resource w c b n = (n', r) ->
  (forall q s, lookup q n = Some (NFile s) -> lookup q n' = Some (NFile s)) /\
  (forall q, is_dir q n = true -> is_dir q n' = true) /\
  match r with
  | Err _ => n' = n
  | Ok _ => nonempty_dir (join (join (join W w) "configs") c) n = false /\
            lookup (join (join (join W w) "configs") c) n' =
            Some (NDir [("CHD.json", NFile (resource b "CHD.json"));
                        ("CNF.json", NFile (resource b "CNF.json"));
                        ("CST.json", NFile (resource b "CST.json"))])
  end.
Proof.
  intros W resource w c b n n' r H.
  destruct (create_config_cases W resource w c b n n' r H) as [[-> [e ->]]|[-> [N [[P1 P2] L]]]].
  - repeat split; auto.
  - repeat split; auto.
Qed.
Print Assumptions C47_config.

Theorem C47_config_refused : forall W resource w c b n d, plain w = true -> plain c = true ->
  lookup (config_dir W w c) n = Some (NDir d) -> d <> [] ->
  create_config W resource w c b n = (n, Err EWs).
Proof.
  intros W resource w c b n d Hw Hc L D.
  unfold create_config, assert_ws, config_exists, thenM, bindM, look.
  rewrite (config_path_dir W w c Hw Hc).
  rewrite (config_exists_ws W w c n Hw Hc); [|unfold exists_at; rewrite L; reflexivity].
  unfold ret, nonempty_dir. cbv beta iota. rewrite L. destruct d; [congruence|reflexivity].
Qed.
Print Assumptions C47_config_refused.

Example C47_example :
  snd (create_ws ex_W "a" ex_tree) = Err EWs /\
  snd (create_ws ex_W "c" ex_tree) = Ok tt /\
  snd (create_ws ex_W "" ex_tree) = Err EWs /\
  snd (create_config ex_W ex_res "a" "old" false ex_tree) = Err EWs /\
  snd (create_config ex_W ex_res "zz" "old" false ex_tree) = Err EWs /\
  lookup ["home"; "ws"; "a"; "configs"; "empty"; "CNF.json"]
    (fst (create_config ex_W ex_res "a" "empty" false ex_tree)) = Some (NFile "CNF.json") /\
  lookup ["home"; "ws"; "a"; "configs"; "n"; "CNF.json"]
    (fst (create_config ex_W ex_res "a" "n" true ex_tree)) = Some (NFile "cryosat").
Proof. repeat split; reflexivity. Qed.

(** * C48: copies *)

Theorem C48_workspace : forall W w w' n d, plain w = true -> plain w' = true ->
  lookup (ws_dir W w) n = Some (NDir d) -> exists_at (ws_dir W w') n = false ->
  exists n', copy_ws W w w' n = (n', Ok tt) /\
    lookup (ws_dir W w') n' = Some (NDir d) /\ lookup (ws_dir W w) n' = Some (NDir d) /\
    (forall q, is_prefix (ws_dir W w') q = false -> is_prefix q (ws_dir W w') = false ->
               lookup q n' = lookup q n).
Proof.
  intros W w w' n d Hw Hw' L N.
  assert (D : w <> w') by (intros ->; unfold exists_at in N; rewrite L in N; discriminate).
  destruct (copytree_sibling W w w' n d L N D) as [n' [E [L1 [L2 O]]]].
  exists n'. rewrite (copy_ws_eq W w w' n Hw Hw').
  unfold exists_at. rewrite L. unfold fs, ws_dir. rewrite E.
  split; [reflexivity|]. split; [exact L1|]. split; [exact L2|].
  intros q A1 A2. apply O. intros P [<-|[]]. split; assumption.
Qed.
Print Assumptions C48_workspace.

Theorem C48_workspace_taken : forall W w w' n, plain w = true -> plain w' = true ->
  exists_at (ws_dir W w') n = true -> copy_ws W w w' n = (n, Err EWs).
Proof.
  intros W w w' n Hw Hw' E. rewrite (copy_ws_eq W w w' n Hw Hw').
  destruct (exists_at (ws_dir W w) n); [|reflexivity].
  unfold fs. rewrite (copytree_exists _ _ n E). reflexivity.
Qed.
Print Assumptions C48_workspace_taken.

(** After the copy the two evolve independently. *)
Theorem C48_independent : forall W resource upg w w' n d ops,
  plain w = true -> plain w' = true -> w <> ".current" -> w' <> ".current" ->
  lookup (ws_dir W w) n = Some (NDir d) -> exists_at (ws_dir W w') n = false ->
  (forall o, In o ops -> simple_names o = true) ->
  let n' := history W resource upg ops (fst (copy_ws W w w' n)) in
  ((forall o, In o ops -> ~ In w (ws_named o)) -> lookup (ws_dir W w) n' = Some (NDir d)) /\
  ((forall o, In o ops -> ~ In w' (ws_named o)) -> lookup (ws_dir W w') n' = Some (NDir d)).
Proof.
  intros W resource upg w w' n d ops Hw Hw' C C' L N S. cbv zeta.
  destruct (C48_workspace W w w' n d Hw Hw' L N) as [n1 [E [L1 [L2 _]]]]. rewrite E. cbn [fst].
  split; intro H; rewrite history_isolated; auto.
Qed.
Print Assumptions C48_independent.

Lemma config_dir_snoc : forall W w c, config_dir W w c = (W ++ [w; "configs"]) ++ [c].
Proof. intros. unfold config_dir. rewrite <- app_assoc. reflexivity. Qed.

Theorem C48_config : forall W w c c' n d, plain w = true -> plain c = true -> plain c' = true ->
  lookup (config_dir W w c) n = Some (NDir d) -> exists_at (config_dir W w c') n = false ->
  exists n', copy_config W w c c' n = (n', Ok tt) /\
    lookup (config_dir W w c') n' = Some (NDir d) /\ lookup (config_dir W w c) n' = Some (NDir d) /\
    (forall q, is_prefix (config_dir W w c') q = false -> is_prefix q (config_dir W w c') = false ->
               lookup q n' = lookup q n).
Proof.
  intros W w c c' n d Hw Hc Hc' L N.
  assert (D : c <> c') by (intros ->; unfold exists_at in N; rewrite L in N; discriminate).
  rewrite (copy_config_eq W w c c' n Hw Hc Hc').
  rewrite !config_dir_snoc in *.
  destruct (copytree_sibling _ c c' n d L N D) as [n' [E [L1 [L2 O]]]].
  exists n'. unfold exists_at. rewrite L. unfold fs. rewrite E.
  split; [reflexivity|]. split; [exact L1|]. split; [exact L2|].
  intros q A1 A2. apply O. intros P [<-|[]]. split; assumption.
Qed.
Print Assumptions C48_config.

Theorem C48_config_taken : forall W w c c' n, plain w = true -> plain c = true -> plain c' = true ->
  exists_at (config_dir W w c') n = true -> copy_config W w c c' n = (n, Err EWs).
Proof.
  intros W w c c' n Hw Hc Hc' E. rewrite (copy_config_eq W w c c' n Hw Hc Hc').
  destruct (exists_at (config_dir W w c) n); [|reflexivity].
  unfold fs. rewrite (copytree_exists _ _ n E). reflexivity.
Qed.
Print Assumptions C48_config_taken.

(** A missing workspace (configuration) cannot be copied. *)
Theorem C48_missing : forall W w w' c c' n, plain w = true -> plain w' = true ->
  plain c = true -> plain c' = true ->
  (exists_at (ws_dir W w) n = false -> copy_ws W w w' n = (n, Err EWs)) /\
  (exists_at (config_dir W w c) n = false -> copy_config W w c c' n = (n, Err EWs)).
Proof.
  intros W w w' c c' n Hw Hw' Hc Hc'. split; intro E.
  - rewrite (copy_ws_eq W w w' n Hw Hw'), E. reflexivity.
  - rewrite (copy_config_eq W w c c' n Hw Hc Hc'), E. reflexivity.
Qed.
Print Assumptions C48_missing.

Example C48_example :
  let n' := fst (copy_ws ex_W "b" "b2" ex_tree) in
  lookup ["home"; "ws"; "b2"; "inputs"; "z.nc"] n' = Some (NFile "z") /\
  lookup ["home"; "ws"; "b"; "inputs"; "z.nc"] n' = Some (NFile "z") /\
  snd (copy_ws ex_W "b" "a" ex_tree) = Err EWs /\
  snd (copy_config ex_W "a" "old" "empty" ex_tree) = Err EWs /\
  snd (copy_config ex_W "a" "old" "older" ex_tree) = Ok tt.
Proof. repeat split; reflexivity. Qed.

(** * C49: rename *)

Theorem C49_workspace_partial : forall W w w' n x, plain w = true -> plain w' = true -> w <> w' ->
  lookup (ws_dir W w) n = Some x -> exists_at (ws_dir W w') n = false ->
  exists n', rename_ws W w w' n = (n', Ok tt) /\
    lookup (ws_dir W w') n' = Some x /\ exists_at (ws_dir W w) n' = false /\
    (forall q, is_prefix (ws_dir W w) q = false -> is_prefix q (ws_dir W w) = false ->
               is_prefix (ws_dir W w') q = false -> is_prefix q (ws_dir W w') = false ->
               lookup q n' = lookup q n).
Proof.
  intros W w w' n x Hw Hw' D L N.
  destruct (move_new W w w' n x D L N) as [n' [E [L1 [L2 O]]]].
  exists n'. rewrite (rename_ws_eq W w w' n Hw Hw'). unfold exists_at at 1. rewrite L.
  unfold fs, ws_dir. rewrite E. split; [reflexivity|]. split; [exact L1|]. split.
  - unfold exists_at. rewrite L2. reflexivity.
  - intros q A1 A2 A3 A4. apply O. intros P [<-|[<-|[]]]; split; assumption.
Qed.
Print Assumptions C49_workspace_partial.

Theorem C49_config_partial : forall W w c c' n x, plain w = true -> plain c = true -> plain c' = true ->
  c <> c' -> lookup (config_dir W w c) n = Some x -> exists_at (config_dir W w c') n = false ->
  exists n', rename_config W w c c' n = (n', Ok tt) /\
    lookup (config_dir W w c') n' = Some x /\ exists_at (config_dir W w c) n' = false /\
    (forall q, is_prefix (config_dir W w c) q = false -> is_prefix q (config_dir W w c) = false ->
               is_prefix (config_dir W w c') q = false -> is_prefix q (config_dir W w c') = false ->
               lookup q n' = lookup q n).
Proof.
  intros W w c c' n x Hw Hc Hc' D L N. rewrite (rename_config_eq W w c c' n Hw Hc Hc').
  rewrite !config_dir_snoc in *.
  destruct (os_rename_new (W ++ [w; "configs"]) c (W ++ [w; "configs"]) c' n x L N) as [n' [E [L1 [L2 O]]]].
  - apply (exists_parent_dir _ c []). unfold exists_at. rewrite L. reflexivity.
  - apply apart_siblings. exact D.
  - exists n'. unfold exists_at at 1. rewrite L. unfold fs. rewrite E.
    split; [reflexivity|]. split; [exact L1|]. split.
    + unfold exists_at. rewrite L2. reflexivity.
    + intros q A1 A2 A3 A4. apply O. intros P [<-|[<-|[]]]; split; assumption.
Qed.
Print Assumptions C49_config_partial.

(** Renaming onto an existing workspace does not fail: the workspace becomes a
    sub-directory of the other one. *)
Theorem C49_workspace_refuted : exists W w w' n n',
  plain w = true /\ plain w' = true /\ w <> w' /\
  is_dir (ws_dir W w) n = true /\ is_dir (ws_dir W w') n = true /\
  rename_ws W w w' n = (n', Ok tt) /\
  lookup (ws_dir W w') n' <> lookup (ws_dir W w) n /\
  lookup (ws_dir W w') n' <> lookup (ws_dir W w') n.
Proof.
  exists ex_W, "b", "a", ex_tree. eexists.
  split; [reflexivity|]. split; [reflexivity|]. split; [discriminate|].
  split; [reflexivity|]. split; [reflexivity|].
  split; [vm_compute; reflexivity|]. split; vm_compute; discriminate.
Qed.
Print Assumptions C49_workspace_refuted.

(** In general: nested if the name is free there, otherwise an error without
    change; nothing is lost. *)
Theorem C49_workspace_onto : forall W w w' n x, plain w = true -> plain w' = true -> w <> w' ->
  lookup (ws_dir W w) n = Some x -> is_dir (ws_dir W w') n = true ->
  if exists_at (W ++ [w'; w]) n then rename_ws W w w' n = (n, Err EWs)
  else exists n', rename_ws W w w' n = (n', Ok tt) /\
         lookup (W ++ [w'; w]) n' = Some x /\ exists_at (ws_dir W w) n' = false.
Proof.
  intros W w w' n x Hw Hw' D L Y.
  assert (X : exists_at (ws_dir W w) n = true) by (unfold exists_at; rewrite L; reflexivity).
  rewrite (rename_ws_eq W w w' n Hw Hw'), X. unfold fs.
  destruct (exists_at (W ++ [w'; w]) n) eqn:E.
  - unfold ws_dir. rewrite (move_into_taken W w w' n D Y E). reflexivity.
  - destruct (move_into W w w' n x D L Y E) as [n' [M [L1 [L2 _]]]]. exists n'.
    unfold ws_dir. rewrite M. split; [reflexivity|]. split; [exact L1|].
    unfold exists_at. rewrite L2. reflexivity.
Qed.
Print Assumptions C49_workspace_onto.

(** Onto a stray file of that name: an error without change. *)
Theorem C49_workspace_file : forall W w w' n, plain w = true -> plain w' = true -> w <> w' ->
  is_dir (ws_dir W w) n = true -> is_file (ws_dir W w') n = true ->
  rename_ws W w w' n = (n, Err EWs).
Proof.
  intros W w w' n Hw Hw' D X Y. rewrite (rename_ws_eq W w w' n Hw Hw').
  rewrite (is_dir_exists _ _ X). unfold fs, ws_dir. rewrite (move_onto_file W w w' n D X Y). reflexivity.
Qed.
Print Assumptions C49_workspace_file.

(** Configurations: renaming onto one with content fails and changes nothing... *)
Theorem C49_config_taken : forall W w c c' n d e r, plain w = true -> plain c = true ->
  plain c' = true -> c <> c' ->
  lookup (config_dir W w c) n = Some (NDir d) -> lookup (config_dir W w c') n = Some (NDir (e :: r)) ->
  rename_config W w c c' n = (n, Err EWs).
Proof.
  intros W w c c' n d e r Hw Hc Hc' D L1 L2. rewrite (rename_config_eq W w c c' n Hw Hc Hc').
  unfold exists_at. rewrite L1. rewrite !config_dir_snoc in *.
  unfold fs. rewrite (os_rename_onto _ c c' n d e r D L1 L2). reflexivity.
Qed.
Print Assumptions C49_config_taken.

(** ... but onto an existing empty one it succeeds. *)
Theorem C49_config_refuted : exists W w c c' n,
  plain w = true /\ plain c = true /\ plain c' = true /\ c <> c' /\
  is_dir (config_dir W w c') n = true /\ snd (rename_config W w c c' n) = Ok tt.
Proof.
  exists ex_W, "a", "old", "empty", ex_tree.
  repeat split; try reflexivity. discriminate.
Qed.
Print Assumptions C49_config_refuted.

Example C49_example :
  lookup ["home"; "ws"; "c"; "inputs"; "a.nc"] (fst (rename_ws ex_W "b" "c" ex_tree)) = Some (NFile "a") /\
  exists_at ["home"; "ws"; "b"] (fst (rename_ws ex_W "b" "c" ex_tree)) = false /\
  snd (rename_ws ex_W "b" "" ex_tree) = Err EWs /\
  snd (rename_ws ex_W "q" "c" ex_tree) = Err EWs /\
  lookup ["home"; "ws"; "a"; "configs"; "x"; "CHD.json"]
    (fst (rename_config ex_W "a" "old" "x" ex_tree)) = Some (NFile "1").
Proof. repeat split; reflexivity. Qed.

(** * C51: delete *)

Theorem C51_deletes_partial : forall W w n d, plain w = true ->
  lookup (ws_dir W w) n = Some (NDir d) ->
  exists n', delete_ws W w n = (n', Ok tt) /\ exists_at (ws_dir W w) n' = false /\
    (forall q, is_prefix (ws_dir W w) q = false -> is_prefix q (ws_dir W w) = false ->
               lookup q n' = lookup q n).
Proof.
  intros W w n d Hw L. destruct (rmtree_spec W w n d L) as [n' [E [L1 O]]].
  exists n'. rewrite (delete_ws_eq W w n Hw). unfold exists_at at 1. rewrite L.
  unfold fs, ws_dir. rewrite E. split; [reflexivity|]. split.
  - unfold exists_at. rewrite L1. reflexivity.
  - intros q A1 A2. apply O. intros P [<-|[]]. split; assumption.
Qed.
Print Assumptions C51_deletes_partial.

(** A missing workspace, or a file of that name, is an error without change. *)
Theorem C51_missing : forall W w n, plain w = true -> is_dir (ws_dir W w) n = false ->
  delete_ws W w n = (n, Err EWs).
Proof.
  intros W w n Hw D. rewrite (delete_ws_eq W w n Hw).
  destruct (exists_at (ws_dir W w) n); [|reflexivity]. unfold fs, rmtree. rewrite D. reflexivity.
Qed.
Print Assumptions C51_missing.

(** The empty name deletes every workspace; ".." deletes the parent too. *)
Theorem C51_empty_refuted : exists W n,
  is_dir (ws_dir W "a") n = true /\ is_dir (ws_dir W "b") n = true /\
  snd (delete_ws W "" n) = Ok tt /\
  exists_at (ws_dir W "a") (fst (delete_ws W "" n)) = false /\
  exists_at (ws_dir W "b") (fst (delete_ws W "" n)) = false /\
  exists_at ["home"; "l1a.nc"] n = true /\
  exists_at ["home"; "l1a.nc"] (fst (delete_ws W ".." n)) = false.
Proof. exists ex_W, ex_tree. repeat split; reflexivity. Qed.
Print Assumptions C51_empty_refuted.

(** In general the empty name removes the whole workspaces directory. *)
Theorem C51_empty : forall W n w, W <> [] -> is_dir W n = true ->
  exists n', delete_ws W "" n = (n', Ok tt) /\ exists_at (ws_dir W w) n' = false.
Proof.
  intros W n w HW D. rewrite (app_removelast_last "" HW) in *.
  set (b := removelast W) in *. set (x := last W "") in *.
  unfold is_dir in D. destruct (lookup (b ++ [x]) n) as [[s|d]|] eqn:L; try discriminate.
  destruct (rmtree_spec b x n d L) as [n' [E [L1 _]]]. exists n'. split.
  - unfold delete_ws, assert_ws, ws_path, thenM, bindM, look. rewrite join_empty.
    unfold exists_at. rewrite L. unfold ret, fs. cbv beta iota. rewrite L. rewrite E. reflexivity.
  - unfold exists_at, ws_dir. rewrite lookup_app, L1. reflexivity.
Qed.
Print Assumptions C51_empty.

Example C51_example :
  exists_at ["home"; "ws"; "a"] (fst (delete_ws ex_W "a" ex_tree)) = false /\
  exists_at ["home"; "ws"; "b"; "inputs"; "a.nc"] (fst (delete_ws ex_W "a" ex_tree)) = true /\
  snd (delete_ws ex_W ".current" ex_tree) = Err EWs.
Proof. repeat split; reflexivity. Qed.

(** * C52: listings of workspaces and configurations *)

Theorem C52_workspaces : forall W n, wf n -> is_file W n = false ->
  exists l, get_ws_names W n = (n, Ok l) /\ lists (fun x => is_dir (ws_dir W x) n = true) l.
Proof.
  intros W n Hn F. unfold get_ws_names, bindM, look.
  destruct (exists_at W n) eqn:E.
  - apply subdirs_spec; [exact Hn|]. unfold exists_at in E. unfold is_file in F. unfold is_dir.
    destruct (lookup W n) as [[]|]; try discriminate; reflexivity.
  - exists []. split; [reflexivity|]. split; [|constructor]. intro x. split; [intros []|].
    intro H. apply is_dir_exists in H. unfold ws_dir in H. rewrite (not_exists_below W [x] n E) in H.
    discriminate.
Qed.
Print Assumptions C52_workspaces.

Theorem C52_configs : forall W w n, wf n -> plain w = true -> is_dir (W ++ [w; "configs"]) n = true ->
  exists l, get_config_names W w n = (n, Ok (Some l)) /\
            lists (fun x => is_dir (config_dir W w x) n = true) l.
Proof.
  intros W w n Hn Hw D.
  assert (E : configs_path W w = W ++ [w; "configs"]).
  { rewrite configs_path_eq, (ws_path_plain W w Hw). unfold ws_dir. rewrite <- app_assoc. reflexivity. }
  destruct (subdirs_spec _ n Hn D) as [l [H1 H2]]. exists l. split.
  - unfold get_config_names, assert_ws. unfold thenM at 1. unfold bindM at 1 2. unfold look at 1.
    rewrite (ws_path_plain W w Hw).
    assert (X : exists_at (ws_dir W w) n = true).
    { apply (exists_parent _ ["configs"]). unfold ws_dir. rewrite <- app_assoc. apply is_dir_exists. exact D. }
    rewrite X. unfold ret at 1. unfold bindM at 1. unfold look at 1. rewrite E, (is_dir_exists _ _ D).
    unfold bindM. rewrite H1. reflexivity.
  - destruct H2 as [H2 H3]. split; [|exact H3]. intro x. rewrite H2, config_dir_snoc. tauto.
Qed.
Print Assumptions C52_configs.

(** Without a configs directory there is no list; an unknown workspace is an
    error. *)
Theorem C52_configs_none : forall W w n, plain w = true ->
  (exists_at (ws_dir W w) n = true -> exists_at (W ++ [w; "configs"]) n = false ->
     get_config_names W w n = (n, Ok None)) /\
  (exists_at (ws_dir W w) n = false -> get_config_names W w n = (n, Err EWs)).
Proof.
  intros W w n Hw.
  assert (E : configs_path W w = W ++ [w; "configs"]).
  { rewrite configs_path_eq, (ws_path_plain W w Hw). unfold ws_dir. rewrite <- app_assoc. reflexivity. }
  unfold get_config_names, assert_ws, thenM, bindM, look. rewrite (ws_path_plain W w Hw), E.
  split; intro H; [intro H'|]; rewrite H; unfold ret, fail; cbv beta iota; [rewrite H'|]; reflexivity.
Qed.
Print Assumptions C52_configs_none.

(** Trees stay well-formed, so the listings are exact after every history. *)
Theorem C52_history : forall W resource upg ops n, wf n -> wf (history W resource upg ops n).
Proof. intros. apply history_wf. assumption. Qed.
Print Assumptions C52_history.

(** The other listing (get_workspaces) shows every entry except the marker,
    so also stray files. *)
Theorem C52_all_entries : forall W n d, lookup W n = Some (NDir d) ->
  exists l, get_workspaces W n = (n, Ok (Some l)) /\
            forall x, In x l <-> x <> ".current" /\ exists_at (ws_dir W x) n = true.
Proof.
  intros W n d L. exists (filter (fun x => negb (x =? ".current")%string) (keys d)).
  split.
  - unfold get_workspaces, bindM, look, need, listdir, exists_at. rewrite L. cbv beta iota. rewrite L. reflexivity.
  - intro x. rewrite filter_In, negb_true_iff, String.eqb_neq. unfold exists_at, ws_dir.
    rewrite lookup_app, L. cbn [lookup]. split.
    + intros [H1 H2]. split; [exact H2|]. destruct (dget x d) eqn:E; [reflexivity|].
      apply dget_none in E. contradiction.
    + intros [H1 H2]. split; [|exact H1]. destruct (dget x d) as [v|] eqn:E; [|discriminate].
      apply (dget_keys d x v E).
Qed.
Print Assumptions C52_all_entries.

Example C52_example :
  wf ex_tree /\
  get_ws_names ex_W ex_tree = (ex_tree, Ok ["a"; "b"]) /\
  get_config_names ex_W "a" ex_tree = (ex_tree, Ok (Some ["default"; "empty"; "old"])) /\
  get_config_names ex_W "b" ex_tree = (ex_tree, Ok None) /\
  snd (get_workspaces ex_W ex_tree) = Ok (Some ["b"; "a"]).
Proof.
  split; [|repeat split; reflexivity].
  assert (K : forall l : list (string * node), keys l = keys l) by reflexivity. clear K.
  assert (D : forall (d : dict node), (forall k ch, In (k, ch) d -> wf ch) -> is_dict d -> wf (NDir d)).
  { intros d H1 H2 q d' L. destruct q as [|c q]; cbn [lookup] in L; [inversion L; subst; exact H2|].
    destruct (dget c d) as [ch|] eqn:E; [|discriminate].
    apply (H1 c ch (dget_some_in _ _ _ E) q d' L). }
  unfold ex_tree.
  repeat (apply D;
    [intros k ch H; cbn in H;
     repeat match type of H with
     | _ \/ _ => destruct H as [H|H]
     end; try contradiction; injection H as <- <-; try apply wf_file
    |repeat (constructor; [cbn; intuition discriminate|]); constructor]).
Qed.

(** * C53: listings of files by pattern *)

(** Without a pattern, or with an empty list of patterns. *)
Theorem C53_all : forall fnm p n pt, wf n -> is_dir p n = true -> pt = PNone \/ pt = PMany [] ->
  exists l, nc_list fnm p pt n = (n, Ok l) /\ lists (nc_file p n) l.
Proof.
  intros fnm p n pt Hn D Hp. unfold is_dir in D. destruct (lookup p n) as [[s|d]|] eqn:L; try discriminate.
  destruct (nc_names p n d Hn L) as [N I].
  exists (sort_s (filter (fun x => ends_with ".nc" x && is_file (p ++ [x]) n) (keys d))). split.
  - unfold nc_list, bindM, look, need, listdir. rewrite L. destruct Hp as [-> | ->]; reflexivity.
  - apply listed_sorted; assumption.
Qed.
Print Assumptions C53_all.

Theorem C53_one : forall fnm p n pat, wf n -> is_dir p n = true ->
  exists l, nc_list fnm p (POne pat) n = (n, Ok l) /\
            lists (fun x => nc_file p n x /\ fnm x pat = true) l.
Proof.
  intros fnm p n pat Hn D. unfold is_dir in D. destruct (lookup p n) as [[s|d]|] eqn:L; try discriminate.
  destruct (nc_names p n d Hn L) as [N I].
  eexists. split.
  - unfold nc_list, bindM, look, need, listdir. rewrite L. reflexivity.
  - cbn [select]. apply listed_sorted; [apply NoDup_filter; exact N|].
    intro x. rewrite filter_In. rewrite (I x). tauto.
Qed.
Print Assumptions C53_one.

(** Several patterns: exactly the files that match one of them, sorted, each
    once per matching pattern (the property asks for once). *)
Theorem C53_many_partial : forall fnm p n pats, wf n -> is_dir p n = true -> pats <> [] ->
  exists l, nc_list fnm p (PMany pats) n = (n, Ok l) /\
    (forall x, In x l <-> nc_file p n x /\ exists pat, In pat pats /\ fnm x pat = true) /\
    StronglySorted (fun a b => String.leb a b = true) l /\
    (forall x, In x l -> count_occ string_dec l x = length (filter (fnm x) pats)).
Proof.
  intros fnm p n pats Hn D NE. unfold is_dir in D.
  destruct (lookup p n) as [[s|d]|] eqn:L; try discriminate.
  destruct (nc_names p n d Hn L) as [N I].
  set (files := filter (fun x => ends_with ".nc" x && is_file (p ++ [x]) n) (keys d)).
  assert (F : forall x, In x files <-> nc_file p n x).
  { intro x. unfold files. rewrite filter_In. apply I. }
  exists (sort_s (select fnm (PMany pats) files)). split; [|split; [|split]].
  - unfold nc_list, bindM, look, need, listdir. rewrite L. reflexivity.
  - intro x. rewrite sort_in, select_in, F. split.
    + intros [H [->|H']]; [congruence|]. tauto.
    + intros [H H']. split; [exact H|]. right. exact H'.
  - apply sort_sorted.
  - intros x Hx. rewrite sort_in, select_in in Hx. destruct Hx as [Hx _].
    rewrite <- (count_perm _ _ x (sort_perm (select fnm (PMany pats) files))).
    destruct pats as [|p0 ps]; [congruence|]. cbn [select].
    apply (count_flat (fun y => flat_map (fun q => if fnm y q then [y] else []) (p0 :: ps))
             (fun y => length (filter (fnm y) (p0 :: ps)))).
    + apply NoDup_filter. exact N.
    + exact Hx.
    + intro y. apply (count_flat_const (fnm y) x y (p0 :: ps)).
Qed.
Print Assumptions C53_many_partial.

(** Overlapping patterns list a file twice. *)
Theorem C53_duplicates_refuted : exists p n pats,
  forall fnm, fnm "a.nc" "*" = true -> fnm "a.nc" "*.nc" = true ->
  exists l, nc_list fnm p (PMany pats) n = (n, Ok l) /\ ~ NoDup l.
Proof.
  exists ["home"; "ws"; "b"; "inputs"], ex_tree, ["*"; "*.nc"].
  intros fnm H1 H2. eexists. split.
  - unfold nc_list, bindM, look, need. cbn [listdir lookup ex_tree dget String.eqb Ascii.eqb Bool.eqb keys map fst].
    reflexivity.
  - intro N.
    assert (C : count_occ string_dec
      (sort_s (select fnm (PMany ["*"; "*.nc"]) (filter (fun x => ends_with ".nc" x
          && is_file (["home"; "ws"; "b"; "inputs"] ++ [x]) ex_tree) ["z.nc"; "a.nc"; "readme.txt"]))) "a.nc" = 2).
    { rewrite <- (count_perm _ _ "a.nc" (sort_perm _)). cbn. rewrite H1, H2.
      destruct (fnm "z.nc" "*"), (fnm "z.nc" "*.nc"); reflexivity. }
    apply (proj1 (NoDup_count_occ string_dec _)) with (x := "a.nc") in N. cbn in N, C. rewrite C in N. lia.
Qed.
Print Assumptions C53_duplicates_refuted.

(** The manager's listings: of the inputs and outputs directory, empty when
    the directory is missing; get_input_paths prepends the directory. *)
Theorem C53_inputs : forall W fnm w c pt n,
  get_input_names W fnm w pt n =
    (if exists_at (inputs_path W w) n then nc_list fnm (inputs_path W w) pt n else (n, Ok [])) /\
  get_output_names W fnm w c pt n =
    (if exists_at (outputs_path W w c) n then nc_list fnm (outputs_path W w c) pt n else (n, Ok [])) /\
  (plain w = true -> inputs_path W w = W ++ [w; "inputs"]) /\
  (plain w = true -> plain c = true -> outputs_path W w c = W ++ [w; "configs"; c; "outputs"]).
Proof.
  intros W fnm w c pt n. split; [|split; [|split]].
  - unfold get_input_names, bindM, look. destruct (exists_at _ n); reflexivity.
  - unfold get_output_names, bindM, look. destruct (exists_at _ n); reflexivity.
  - intro Hw. rewrite inputs_path_eq, (ws_path_plain W w Hw). unfold ws_dir. rewrite <- app_assoc. reflexivity.
  - intros Hw Hc. rewrite outputs_path_eq, (config_path_dir W w c Hw Hc). unfold config_dir.
    rewrite <- app_assoc. reflexivity.
Qed.
Print Assumptions C53_inputs.

Example C53_example :
  let fnm x p := (p =? "*")%string || (x =? p)%string in
  snd (get_input_names ex_W fnm "b" PNone ex_tree) = Ok ["a.nc"; "z.nc"] /\
  snd (get_input_names ex_W fnm "b" (POne "z.nc") ex_tree) = Ok ["z.nc"] /\
  snd (get_input_names ex_W fnm "b" (POne "") ex_tree) = Ok [] /\
  snd (get_input_names ex_W fnm "b" (PMany ["*"; "z.nc"]) ex_tree) = Ok ["a.nc"; "z.nc"; "z.nc"] /\
  snd (get_input_names ex_W fnm "a" PNone ex_tree) = Ok [].
Proof. repeat split; reflexivity. Qed.

(** * C55: notebooks *)

(** If the workspace exists (and "notebooks" is not a file), the search ends
    and a new file is written, the first free index; everything else is as
    before.  The bound on the rounds is the number of entries plus one. *)
Theorem C55_fresh : forall W w base text n, plain w = true -> has_char slash base = false ->
  is_dir (ws_dir W w) n = true -> is_file (W ++ [w; "notebooks"]) n = false ->
  exists bound, forall fuel, bound < fuel ->
  exists k n', let file := W ++ [w; "notebooks"; (base ++ "-" ++ dec k ++ ".ipynb")%string] in
    make_notebook W fuel w base text n = (n', Ok (Some file)) /\
    exists_at file n = false /\ lookup file n' = Some (NFile text) /\
    (forall q s, lookup q n = Some (NFile s) -> lookup q n' = Some (NFile s)) /\
    (forall q, is_dir q n = true -> is_dir q n' = true) /\
    1 <= k /\ (forall j, 1 <= j < k ->
      exists_at (W ++ [w; "notebooks"; (base ++ "-" ++ dec j ++ ".ipynb")%string]) n = true).
Proof.
  intros W w base text n Hw Hb D F.
  assert (E : notebooks_path W w = W ++ [w; "notebooks"]).
  { rewrite notebooks_path_eq, (ws_path_plain W w Hw). unfold ws_dir. rewrite <- app_assoc. reflexivity. }
  assert (S : forall k, W ++ [w; "notebooks"; (base ++ "-" ++ dec k ++ ".ipynb")%string] =
                        notebooks_path W w ++ [notebook_name base k]).
  { intro k. rewrite E, <- app_assoc. reflexivity. }
  unfold is_file in F.
  destruct (lookup (W ++ [w; "notebooks"]) n) as [[s|d]|] eqn:L; [discriminate| |].
  - exists (length d). intros fuel HF. rewrite <- E in L.
    destruct (write_notebook_spec W fuel w base text n d Hb L HF) as [k [n' [H1 [H2 [H3 [H4 [[H5 H6] [_ H7]]]]]]]].
    exists k, n'. cbv zeta. rewrite S. repeat split; auto.
    + unfold make_notebook, bindM, look. unfold exists_at at 1. rewrite L. exact H1.
    + intros j Hj. rewrite S. apply H7. exact Hj.
  - exists 0. intros fuel HF. rewrite <- E in L.
    destruct (write_ok false (ws_dir W w) "notebooks" (Some (NDir [])) n D) as [n1 Hm].
    assert (E' : notebooks_path W w = ws_dir W w ++ ["notebooks"]).
    { rewrite E. unfold ws_dir. rewrite <- app_assoc. reflexivity. }
    rewrite <- E' in Hm.
    assert (X : exists_at (notebooks_path W w) n = false) by (unfold exists_at; rewrite L; reflexivity).
    assert (L1 : lookup (notebooks_path W w) n1 = Some (NDir [])) by apply (write_at _ _ _ _ _ Hm).
    destruct (write_notebook_spec W fuel w base text n1 [] Hb L1 HF) as [k [n' [H1 [H2 [H3 [H4 [P2 [_ H7]]]]]]]].
    assert (P1 : preserved n n1) by apply (write_new_preserves _ _ _ _ _ X Hm).
    destruct (preserved_trans n n1 n' P1 P2) as [H5 H6].
    exists k, n'. cbv zeta. rewrite S. split; [|split; [|split; [|split; [|split; [|split]]]]]; auto.
    + unfold make_notebook, bindM, look. rewrite X. unfold mkdir. rewrite X, Hm.
      unfold thenM, bindM, fs. rewrite X, Hm. exact H1.
    + apply not_exists_below. exact X.
    + intros j Hj. specialize (H7 j Hj). unfold exists_at in H7. rewrite lookup_app, L1 in H7. discriminate.
Qed.
Print Assumptions C55_fresh.

(** Whatever happens, no existing file is changed and no directory removed. *)
Theorem C55_keeps : forall W fuel w base text n, has_char slash base = false ->
  (forall q s, lookup q n = Some (NFile s) ->
               lookup q (fst (make_notebook W fuel w base text n)) = Some (NFile s)) /\
  (forall q, is_dir q n = true -> is_dir q (fst (make_notebook W fuel w base text n)) = true).
Proof. intros. apply make_notebook_preserved. assumption. Qed.
Print Assumptions C55_keeps.

(** Without the workspace the status code 60 is returned; if "notebooks" is a
    file the error is not caught; nothing changes in both cases. *)
Theorem C55_no_workspace : forall W fuel w base text n, plain w = true -> has_char slash base = false ->
  0 < fuel ->
  (is_dir (ws_dir W w) n = false -> make_notebook W fuel w base text n = (n, Ok None)) /\
  (is_file (W ++ [w; "notebooks"]) n = true -> make_notebook W fuel w base text n = (n, Err EOs)).
Proof.
  intros W fuel w base text n Hw Hb HF.
  assert (E : notebooks_path W w = ws_dir W w ++ ["notebooks"]).
  { rewrite notebooks_path_eq, (ws_path_plain W w Hw). reflexivity. }
  split; intro D.
  - assert (X : exists_at (notebooks_path W w) n = false).
    { destruct (exists_at (notebooks_path W w) n) eqn:X; [|reflexivity]. rewrite E in X.
      apply (exists_parent_dir _ "notebooks" []) in X. congruence. }
    unfold make_notebook, bindM, look. rewrite X. unfold mkdir. rewrite X.
    destruct (write false (notebooks_path W w) (Some (NDir [])) n) as [n'|] eqn:Ew; [|reflexivity].
    destruct (write_above _ _ _ _ _ (ws_dir W w) ["notebooks"] Ew E ltac:(discriminate)) as [_ [Y|[Y _]]];
      [congruence|discriminate].
  - assert (E2 : notebooks_path W w = W ++ [w; "notebooks"]).
    { rewrite E. unfold ws_dir. rewrite <- app_assoc. reflexivity. }
    rewrite <- E2 in D.
    unfold make_notebook, bindM, look.
    assert (X : exists_at (notebooks_path W w) n = true).
    { unfold is_file in D. unfold exists_at. destruct (lookup (notebooks_path W w) n); [reflexivity|discriminate]. }
    rewrite X. apply write_notebook_fail; assumption.
Qed.
Print Assumptions C55_no_workspace.

Example C55_example :
  let n1 := fst (make_notebook ex_W 3 "a" "inspect-x.nc" "one" ex_tree) in
  let n2 := fst (make_notebook ex_W 3 "a" "inspect-x.nc" "two" n1) in
  lookup ["home"; "ws"; "a"; "notebooks"; "inspect-x.nc-1.ipynb"] n2 = Some (NFile "one") /\
  lookup ["home"; "ws"; "a"; "notebooks"; "inspect-x.nc-2.ipynb"] n2 = Some (NFile "two").
Proof. repeat split; reflexivity. Qed.

(** * C79: isolation of configurations *)

Theorem C79_isolated_partial : forall W resource upg ops w c n,
  w <> ".current" -> c <> ".current" ->
  (forall o, In o ops -> simple_names o = true /\
     (In w (ws_named o) -> inside o = true /\ forallb plain (configs_named o) = true /\
                           ~ In c (configs_named o))) ->
  lookup (config_dir W w c) (history W resource upg ops n) = lookup (config_dir W w c) n.
Proof. intros. apply history_config_isolated; assumption. Qed.
Print Assumptions C79_isolated_partial.

Theorem C79_delete : forall W w c n d, plain w = true -> plain c = true ->
  lookup (config_dir W w c) n = Some (NDir d) ->
  exists n', delete_config W w c n = (n', Ok tt) /\ exists_at (config_dir W w c) n' = false /\
    (forall q, is_prefix (config_dir W w c) q = false -> is_prefix q (config_dir W w c) = false ->
               lookup q n' = lookup q n).
Proof.
  intros W w c n d Hw Hc L. rewrite (delete_config_eq W w c n Hw Hc). rewrite config_dir_snoc in *.
  destruct (rmtree_spec _ c n d L) as [n' [E [L1 O]]].
  exists n'. unfold exists_at at 1. rewrite L. unfold fs. rewrite E. split; [reflexivity|]. split.
  - unfold exists_at. rewrite L1. reflexivity.
  - intros q A1 A2. apply O. intros P [<-|[]]. split; assumption.
Qed.
Print Assumptions C79_delete.

(** The empty configuration name deletes all configurations. *)
Theorem C79_empty_refuted : exists W w n,
  is_dir (config_dir W w "old") n = true /\ snd (delete_config W w "" n) = Ok tt /\
  exists_at (config_dir W w "old") (fst (delete_config W w "" n)) = false /\
  exists_at (config_dir W w "default") (fst (delete_config W w "" n)) = false.
Proof. exists ex_W, "a", ex_tree. repeat split; reflexivity. Qed.
Print Assumptions C79_empty_refuted.

Example C79_example :
  let ops := [OUpgradeConfig "a" "default"; OWriteConfig "a" "default" "CHD" "new";
              ORenameConfig "a" "default" "d2"; OSetCurrentConfig "a" "d2"; OAddInputs "a" [["home"; "l1a.nc"]]] in
  let n' := history ex_W ex_res ex_upg ops ex_tree in
  lookup (config_dir ex_W "a" "old") n' = lookup (config_dir ex_W "a" "old") ex_tree /\
  lookup ["home"; "ws"; "a"; "configs"; "d2"; "CHD.json"] n' = Some (NFile "new") /\
  lookup ["home"; "ws"; "a"; "configs"; ".current"] n' = Some (NFile "d2").
Proof. repeat split; reflexivity. Qed.
