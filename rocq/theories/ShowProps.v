(** C126: the commands that show lists, versions and the status. *)
From Coq Require Import Ascii String List Bool Arith NArith ZArith Lia.
From Verif Require Import Common Dict FsModel FsProofs WsModel WsSpec WsProofs WsProps NameModel CliModel CliSpec CliProps CurProofs ShowModel ShowSpec ShowProofs.
Import ListNotations.
Open Scope string_scope.
Open Scope list_scope.

(** None of them changes a file, whether it succeeds or fails. *)
Theorem C126_readonly : forall W fnmatch version location W_text error_text wa ca pt long n,
  fst (ws_list W n) = n /\ fst (cf_list W wa n) = n /\ fst (in_list W fnmatch wa pt n) = n /\
  fst (out_list W fnmatch wa ca pt n) = n /\ fst (cf_version W version wa ca n) = n /\
  fst (status W location W_text error_text long n) = n.
Proof.
  intros. split; [apply reads_ws_list|]. split; [apply reads_cf_list|]. split; [apply reads_in_list|].
  split; [apply reads_out_list|]. split; [apply reads_cf_version|apply reads_status].
Qed.
Print Assumptions C126_readonly.

(** The size of a directory is the number of characters in the files below it,
    however they are enumerated; shown in whole MiB, rounded down. *)
Theorem C126_size : forall p n, wf n ->
  (forall d, lookup p n = Some (NDir d) -> exists t, dir_size p n = Some t /\ weighs p n t /\ forall t', weighs p n t' -> t' = t) /\
  (is_dir p n = false -> dir_size p n = None) /\
  (forall t, mebi t = t / 2 ^ 20)%N.
Proof.
  intros p n Wf. split; [|split].
  - intros d L. exists (size (NDir d)). split; [unfold dir_size; rewrite L; reflexivity|].
    split; [apply (weighs_size p n _ Wf L); reflexivity|]. intros t'. apply (weighs_size p n _ Wf L).
  - intros H. unfold is_dir in H. unfold dir_size. destruct (lookup p n) as [[]|]; [reflexivity|discriminate|reflexivity].
  - intros t. apply N.shiftr_div_pow2.
Qed.
Print Assumptions C126_size.

(** A copy of a workspace adds the workspace's size to the total, a removal
    takes it away and a renaming leaves the total as it is. *)
Theorem C126_size_changes : forall W n n' w w' t s, wf n -> plain w = true -> plain w' = true -> weighs W n t -> weighs (W ++ [w]) n s ->
  (copy_ws W w w' n = (n', Ok tt) -> weighs W n' (t + s)) /\
  (delete_ws W w n = (n', Ok tt) -> exists r, weighs W n' r /\ (r + s = t)%N) /\
  (is_dir (W ++ [w]) n = true -> rename_ws W w w' n = (n', Ok tt) -> weighs W n' t).
Proof.
  intros W n n' w w' t s Wf Hw Hw' T S. split; [|split].
  - intros H. apply (copy_size W w w' n n' t s); assumption.
  - intros H. apply (delete_size W w n n' t s); assumption.
  - intros D H. apply (rename_size W w w' n n' t); assumption.
Qed.
Print Assumptions C126_size_changes.

(** Each list shows exactly the names that are there, sorted, each once and
    numbered from 1, below a line with their number. *)
Theorem C126_lists : forall W fnmatch n w c pt, wf n -> plain w = true -> plain c = true -> pt = PNone \/ pt = PMany [] ->
  (is_dir W n = true -> exists l r,
     lists (fun x => is_dir (W ++ [x]) n = true) l /\ shows l r /\
     ws_list W n = (n, Ok (match l with [] => "no workspaces" | [_] => "1 workspace:" | _ => (dec (List.length l) ++ " workspaces:")%string end :: r))) /\
  (let q := ("in workspace """ ++ w ++ """")%string in
   (is_dir (W ++ [w; "configs"]) n = true -> exists l r,
     lists (fun x => is_dir (W ++ [w; "configs"; x]) n = true) l /\ shows l r /\
     cf_list W (Some w) n = (n, Ok (match l with
       | [] => ("no DDP configurations " ++ q)%string | [_] => ("1 DDP configuration " ++ q ++ ":")%string
       | _ => (dec (List.length l) ++ " DDP configurations " ++ q ++ ":")%string end :: r))) /\
   (is_dir (W ++ [w; "inputs"]) n = true -> exists l r,
     lists (nc_file (W ++ [w; "inputs"]) n) l /\ shows l r /\
     in_list W fnmatch (Some w) pt n = (n, Ok (match l with
       | [] => ("no inputs " ++ q)%string | [_] => ("1 input " ++ q ++ ":")%string
       | _ => (dec (List.length l) ++ " inputs " ++ q ++ ":")%string end :: r)))) /\
  (let q := ("created with config """ ++ c ++ """ in workspace """ ++ w ++ """")%string in
   is_dir (W ++ [w; "configs"; c; "outputs"]) n = true -> exists l r,
     lists (nc_file (W ++ [w; "configs"; c; "outputs"]) n) l /\ shows l r /\
     out_list W fnmatch (Some w) (Some c) pt n = (n, Ok (match l with
       | [] => ("no outputs " ++ q)%string | [_] => ("1 output " ++ q ++ ":")%string
       | _ => (dec (List.length l) ++ " outputs " ++ q ++ ":")%string end :: r))).
Proof.
  intros W fnmatch n w c pt Wf Hw Hc Hpt.
  assert (Gw : given (Some w) = Some w).
  { unfold given. destruct (plain_inv w Hw) as (_ & E & _). apply String.eqb_neq in E. rewrite E. reflexivity. }
  assert (Gc : given (Some c) = Some c).
  { unfold given. destruct (plain_inv c Hc) as (_ & E & _). apply String.eqb_neq in E. rewrite E. reflexivity. }
  assert (Nw : get_ws_name W (Some w) n = (n, Ok (Some w))) by (unfold get_ws_name; rewrite Gw; reflexivity).
  assert (Nc : get_ws_config W (Some w) (Some c) n = (n, Ok (Some w, Some c))).
  { unfold get_ws_config, bindM. rewrite Nw, Gc. reflexivity. }
  split; [|split; [intros q; split|intros q]].
  - intros D. destruct (subdirs_spec W n Wf D) as (l & E & Ls).
    destruct (listing_shows "no workspaces" "workspace:" "workspaces:" l) as (h & r & El & Sh & Hh).
    exists l, r. split; [exact Ls|]. split; [exact Sh|]. unfold ws_list, get_ws_names, bindM, look.
    rewrite (is_dir_exists W n D), E. unfold ret. rewrite El, Hh. destruct l as [|x [|y l]]; reflexivity.
  - intros D. destruct (C52_configs W w n Wf Hw D) as (l & E & Ls).
    destruct (listing_shows ("no DDP configurations " ++ q)%string ("DDP configuration " ++ q ++ ":")%string ("DDP configurations " ++ q ++ ":")%string l)
      as (h & r & El & Sh & Hh).
    exists l, r. split; [exact Ls|]. split; [exact Sh|]. unfold cf_list, bindM, need. rewrite Nw. unfold ret. cbv beta iota. rewrite E.
    fold q. rewrite El, Hh. destruct l as [|x [|y l]]; reflexivity.
  - intros D. destruct (C53_all fnmatch (W ++ [w; "inputs"]) n pt Wf D Hpt) as (l & E & Ls).
    destruct (listing_shows ("no inputs " ++ q)%string ("input " ++ q ++ ":")%string ("inputs " ++ q ++ ":")%string l) as (h & r & El & Sh & Hh).
    destruct (C53_inputs W fnmatch w c pt n) as (Ei & _ & Pi & _). rewrite (Pi Hw), (is_dir_exists _ n D), E in Ei.
    exists l, r. split; [exact Ls|]. split; [exact Sh|]. unfold in_list, bindM, need. rewrite Nw. unfold ret. cbv beta iota. rewrite Ei.
    fold q. rewrite El, Hh. destruct l as [|x [|y l]]; reflexivity.
  - intros D. destruct (C53_all fnmatch (W ++ [w; "configs"; c; "outputs"]) n pt Wf D Hpt) as (l & E & Ls).
    destruct (listing_shows ("no outputs " ++ q)%string ("output " ++ q ++ ":")%string ("outputs " ++ q ++ ":")%string l) as (h & r & El & Sh & Hh).
    destruct (C53_inputs W fnmatch w c pt n) as (_ & Eo & _ & Po). rewrite (Po Hw Hc), (is_dir_exists _ n D), E in Eo.
    exists l, r. split; [exact Ls|]. split; [exact Sh|]. unfold out_list, bindM. rewrite Nc. cbn [fst snd]. rewrite Gc. unfold need, ret.
    cbv beta iota. rewrite Eo. fold q. rewrite El, Hh. destruct l as [|x [|y l]]; reflexivity.
Qed.
Print Assumptions C126_lists.

(** What is not there is an empty list, not an error - except that a workspace
    must exist for its configurations to be listed. *)
Theorem C126_lists_missing : forall W fnmatch n w c pt, plain w = true -> plain c = true ->
  (exists_at W n = false -> ws_list W n = (n, Ok ["no workspaces"])) /\
  (exists_at (W ++ [w]) n = true -> exists_at (W ++ [w; "configs"]) n = false ->
     cf_list W (Some w) n = (n, Ok [("no DDP configurations in workspace """ ++ w ++ """")%string])) /\
  (exists_at (W ++ [w]) n = false -> cf_list W (Some w) n = (n, Err EWs)) /\
  (exists_at (W ++ [w; "inputs"]) n = false ->
     in_list W fnmatch (Some w) pt n = (n, Ok [("no inputs in workspace """ ++ w ++ """")%string])) /\
  (exists_at (W ++ [w; "configs"; c; "outputs"]) n = false ->
     out_list W fnmatch (Some w) (Some c) pt n =
     (n, Ok [("no outputs created with config """ ++ c ++ """ in workspace """ ++ w ++ """")%string])).
Proof.
  intros W fnmatch n w c pt Hw Hc.
  assert (Gw : given (Some w) = Some w).
  { unfold given. destruct (plain_inv w Hw) as (_ & E & _). apply String.eqb_neq in E. rewrite E. reflexivity. }
  assert (Gc : given (Some c) = Some c).
  { unfold given. destruct (plain_inv c Hc) as (_ & E & _). apply String.eqb_neq in E. rewrite E. reflexivity. }
  assert (Nw : get_ws_name W (Some w) n = (n, Ok (Some w))) by (unfold get_ws_name; rewrite Gw; reflexivity).
  assert (Nc : get_ws_config W (Some w) (Some c) n = (n, Ok (Some w, Some c))).
  { unfold get_ws_config, bindM. rewrite Nw, Gc. reflexivity. }
  destruct (C52_configs_none W w n Hw) as [K1 K2].
  destruct (C53_inputs W fnmatch w c pt n) as (Ei & Eo & Pi & Po). rewrite (Pi Hw) in Ei. rewrite (Po Hw Hc) in Eo.
  split; [|split; [|split; [|split]]].
  - intros E. unfold ws_list, get_ws_names, bindM, look. rewrite E. reflexivity.
  - intros E E'. unfold cf_list, bindM, need. rewrite Nw. unfold ret. cbv beta iota. rewrite (K1 E E'). reflexivity.
  - intros E. unfold cf_list, bindM, need. rewrite Nw. unfold ret. cbv beta iota. rewrite (K2 E). reflexivity.
  - intros E. rewrite E in Ei. unfold in_list, bindM, need. rewrite Nw. unfold ret. cbv beta iota. rewrite Ei. reflexivity.
  - intros E. rewrite E in Eo. unfold out_list, bindM. rewrite Nc. cbn [fst snd]. rewrite Gc. unfold need, ret. cbv beta iota. rewrite Eo. reflexivity.
Qed.
Print Assumptions C126_lists_missing.

(** Without a name the current workspace is meant; if there is none, the
    commands ask for one. *)
Theorem C126_lists_current : forall W fnmatch n ca pt wa, wa = None \/ wa = Some "" ->
  (forall w, marked W n w -> cf_list W wa n = cf_list W (Some w) n /\ in_list W fnmatch wa pt n = in_list W fnmatch (Some w) pt n /\
     out_list W fnmatch wa ca pt n = out_list W fnmatch (Some w) ca pt n) /\
  (unmarked W n -> cf_list W wa n = (n, Err ECmd) /\ in_list W fnmatch wa pt n = (n, Err ECmd) /\ out_list W fnmatch wa ca pt n = (n, Err ECmd)).
Proof.
  intros W fnmatch n ca pt wa Hwa. destruct (given_marked W n) as (o & Eo & Mo).
  assert (Gn : given wa = None) by (destruct Hwa as [-> | ->]; reflexivity).
  assert (N0 : get_ws_name W wa n = (n, Ok (given o))).
  { unfold get_ws_name. rewrite Gn. unfold get_current, readline_at, bindM, look. rewrite current_file_eq, Eo. reflexivity. }
  split.
  - intros w M. assert (G : given o = Some w).
    { destruct (given o) as [v|]; [|exfalso; exact (Mo w M)]. destruct M as (t & L & R & _). destruct Mo as (t' & L' & R' & _). congruence. }
    assert (N1 : get_ws_name W (Some w) n = (n, Ok (Some w))).
    { destruct M as (_ & _ & _ & Nw). unfold get_ws_name, given. apply String.eqb_neq in Nw. rewrite Nw. reflexivity. }
    rewrite G in N0. unfold cf_list, in_list, out_list, get_ws_config. unfold bindM. rewrite N0, N1. auto.
  - intros U. assert (G : given o = None) by (destruct (given o) as [v|]; [exfalso; exact (U v Mo)|reflexivity]).
    rewrite G in N0. unfold cf_list, in_list, out_list, get_ws_config. unfold bindM. rewrite N0. auto.
Qed.
Print Assumptions C126_lists_current.

(** Different lists of names are printed differently. *)
Theorem C126_distinct : forall a b c l l', listing a b c l = listing a b c l' -> l = l'.
Proof.
  intros a b c l l' H. destruct (listing_shows a b c l) as (h & r & E & S & _). destruct (listing_shows a b c l') as (h' & r' & E' & S' & _).
  assert (R : r = r') by congruence. subst r'. apply (shows_inj l l' r); assumption.
Qed.
Print Assumptions C126_distinct.

(** The three versions of the named configuration are shown; a file without a
    usable version is not passed over silently. *)
Theorem C126_version : forall W version n w c s1 s2 s3, plain w = true -> plain c = true ->
  let file k := W ++ [w; "configs"; c; (k ++ ".json")%string] in
  lookup (file "CHD") n = Some (NFile s1) -> lookup (file "CNF") n = Some (NFile s2) -> lookup (file "CST") n = Some (NFile s3) ->
  (forall v1 v2 v3, version s1 = Some v1 -> version s2 = Some v2 -> version s3 = Some v3 ->
     cf_version W version (Some w) (Some c) n =
     (n, Ok [("Workspace name : " ++ w)%string; ("Config name    : " ++ c)%string; ""; "Config versions:";
             ("    CHD.json: " ++ (if (v1 <? 0)%Z then "no-version" else "version " ++ decZ v1))%string;
             ("    CNF.json: " ++ (if (v2 <? 0)%Z then "no-version" else "version " ++ decZ v2))%string;
             ("    CST.json: " ++ (if (v3 <? 0)%Z then "no-version" else "version " ++ decZ v3))%string])) /\
  (version s1 = None \/ version s2 = None \/ version s3 = None -> cf_version W version (Some w) (Some c) n = (n, Err EValue)).
Proof.
  intros W version n w c s1 s2 s3 Hw Hc file L1 L2 L3.
  assert (Gw : given (Some w) = Some w).
  { unfold given. destruct (plain_inv w Hw) as (_ & E & _). apply String.eqb_neq in E. rewrite E. reflexivity. }
  assert (Gc : given (Some c) = Some c).
  { unfold given. destruct (plain_inv c Hc) as (_ & E & _). apply String.eqb_neq in E. rewrite E. reflexivity. }
  assert (Nc : get_ws_config W (Some w) (Some c) n = (n, Ok (Some w, Some c))).
  { unfold get_ws_config, bindM, get_ws_name. rewrite Gw. unfold ret. rewrite Gc. reflexivity. }
  assert (F : forall k, In k ["CHD"; "CNF"; "CST"] -> config_file W w c k = file k).
  { intros k Hk. unfold config_file, file. rewrite join_plain.
    - rewrite (config_path_dir W w c Hw Hc). unfold config_dir. rewrite <- app_assoc. reflexivity.
    - destruct Hk as [<-|[<-|[<-|[]]]]; reflexivity. }
  assert (V : forall k s, In k ["CHD"; "CNF"; "CST"] -> lookup (file k) n = Some (NFile s) ->
    get_version W version w c k n = match version s with Some v => (n, Ok v) | None => (n, Err EValue) end).
  { intros k s Hk L. unfold get_version, bindM, look. rewrite (F k Hk). unfold read_file. rewrite L. cbn [need]. unfold ret. destruct (version s); reflexivity. }
  assert (V1 := V "CHD" s1 ltac:(cbn; auto) L1). assert (V2 := V "CNF" s2 ltac:(cbn; auto) L2). assert (V3 := V "CST" s3 ltac:(cbn; auto) L3).
  assert (Z : forall v, (-1 <? v)%Z = negb (v <? 0)%Z).
  { intros v. rewrite <- Z.leb_antisym. destruct (Z.ltb_spec (-1) v); destruct (Z.leb_spec 0 v); try reflexivity; lia. }
  split.
  - intros v1 v2 v3 E1 E2 E3. rewrite E1 in V1. rewrite E2 in V2. rewrite E3 in V3.
    unfold cf_version, bindM. rewrite Nc. cbn [fst snd need]. unfold ret. rewrite V1, V2, V3. unfold version_line. rewrite !Z.
    destruct (v1 <? 0)%Z, (v2 <? 0)%Z, (v3 <? 0)%Z; reflexivity.
  - intros H. unfold cf_version, bindM. rewrite Nc. cbn [fst snd need]. unfold ret. rewrite V1.
    destruct (version s1); [|reflexivity]. rewrite V2. destruct (version s2); [|reflexivity]. rewrite V3.
    destruct (version s3); [|reflexivity]. destruct H as [H|[H|H]]; discriminate.
Qed.
Print Assumptions C126_version.

(** The status is the truth about the tree: the names of the workspaces, their
    total size, the current workspace and its current configuration. *)
Theorem C126_status : forall W location W_text error_text n long, wf n -> sound W n ->
  (exists_at W n = true -> exists names t w c,
     lists (fun x => is_dir (W ++ [x]) n = true) names /\ weighs W n t /\ selection W n w c /\
     status W location W_text error_text long n =
     (n, Ok ((if long then ["warning: option ""--long"" not yet supported"] else []) ++
        [("configuration location:     " ++ location)%string;
         ("workspaces location:        " ++ W_text)%string;
         ("workspaces total size:      " ++ decN (t / 2 ^ 20) ++ " MiB")%string;
         ("workspace names:            " ++ match names with [] => "(not set)" | _ => commas names end)%string;
         ("current workspace:          " ++ w)%string;
         ("current DDP configuration:  " ++ c)%string]))) /\
  (exists_at W n = false ->
     status W location W_text error_text long n =
     (n, Ok ((if long then ["warning: option ""--long"" not yet supported"] else []) ++
        [("configuration location:     " ++ location)%string;
         "workspaces location:        (not yet created)";
         "workspaces total size:      (not yet created)";
         "workspace names:            (not yet created)";
         "current workspace:          (not set)";
         "current DDP configuration:  (not set)"]))).
Proof.
  intros W location W_text error_text n long Wf S. split.
  - intros Ex. destruct (status_sound W location W_text error_text n long Wf S Ex) as (names & t & w & c & A & B & C & D).
    exists names, t, w, c. split; [exact A|]. split; [exact B|]. split; [exact C|]. rewrite D. unfold mebi. rewrite N.shiftr_div_pow2. reflexivity.
  - intros Ex. unfold status, bindM, look. rewrite Ex. reflexivity.
Qed.
Print Assumptions C126_status.

(** So the status never fails in a session of commands with ordinary names. *)
Theorem C126_status_session_partial : forall W resource upg fnmatch newer cwd location W_text error_text ss n long,
  forallb step_ordinary ss = true -> wf n -> sound W n ->
  let n' := session W resource upg fnmatch newer cwd ss n in
  wf n' /\ sound W n' /\ exists lines, status W location W_text error_text long n' = (n', Ok lines).
Proof.
  intros W resource upg fnmatch newer cwd location W_text error_text ss n long H Wf S n'.
  assert (Wf' : wf n') by (apply session_wf; exact Wf).
  assert (S' : sound W n') by (apply (proj1 (C50_sound_partial W resource upg fnmatch newer cwd ss n H)); exact S).
  split; [exact Wf'|]. split; [exact S'|]. destruct (C126_status W location W_text error_text n' long Wf' S') as [A B].
  destruct (exists_at W n') eqn:E.
  - destruct (A eq_refl) as (names & t & w & c & _ & _ & _ & R). eexists. exact R.
  - eexists. exact (B eq_refl).
Qed.
Print Assumptions C126_status_session_partial.

(** After a web client has renamed the current workspace, the status fails, and
    not with the error of a command. *)
Theorem C126_status_refuted : exists W w w', ordinary w = true /\ ordinary w' = true /\
  forall resource upg fnmatch newer cwd location W_text error_text long,
  let n := session W resource upg fnmatch newer cwd [SAdd w] (NDir []) in
  let n' := fst (api_rename W w w' n) in
  snd (api_rename W w w' n) = Ok tt /\ status W location W_text error_text long n' = (n', Err EWs).
Proof.
  exists ["ws"], "a", "b". split; [reflexivity|]. split; [reflexivity|]. intros. split; reflexivity.
Qed.
Print Assumptions C126_status_refuted.

(** The lines of a small tree. *)
Example C126_example : forall fnmatch,
  ws_list ex_W ex_tree = (ex_tree, Ok ["2 workspaces:"; "  1: a"; "  2: b"]) /\
  cf_list ex_W None ex_tree = (ex_tree, Ok ["3 DDP configurations in workspace ""a"":"; "  1: default"; "  2: empty"; "  3: old"]) /\
  in_list ex_W fnmatch (Some "b") PNone ex_tree = (ex_tree, Ok ["2 inputs in workspace ""b"":"; "  1: a.nc"; "  2: z.nc"]) /\
  out_list ex_W fnmatch None None PNone ex_tree = (ex_tree, Ok ["no outputs created with config ""default"" in workspace ""a"""]) /\
  status ex_W "L" "home/ws" "E" true ex_tree =
    (ex_tree, Ok ["warning: option ""--long"" not yet supported"; "configuration location:     L"; "workspaces location:        home/ws";
                  "workspaces total size:      0 MiB"; "workspace names:            a, b"; "current workspace:          a";
                  "current DDP configuration:  default"]) /\
  weighs ex_W ex_tree 12.
Proof.
  intros fnmatch. repeat (split; [reflexivity|]).
  eexists. eexists [([".current"], "a"); (["b"; "inputs"; "z.nc"], "z"); (["b"; "inputs"; "a.nc"], "a"); (["b"; "inputs"; "readme.txt"], "");
     (["a"; "configs"; ".current"], "default"); (["a"; "configs"; "old"; "CHD.json"], "1"); (["a"; "configs"; "default"; "CHD.json"], "2")].
  split; [reflexivity|]. split; [|reflexivity].
  match goal with |- enumerates ?x ?l => change l with (files x) end. apply files_lookup.
  apply (wf_lookup ex_W ex_tree); [|reflexivity].
  repeat first [apply wf_file | apply wf_build; [unfold is_dict; cbn; repeat constructor; cbn; intuition discriminate|cbn [map snd]; repeat constructor]].
Qed.
Example C126_version_example :
  let n := NDir [("ws", NDir [("a", NDir [("configs", NDir [("c", NDir [("CHD.json", NFile "1"); ("CNF.json", NFile "x"); ("CST.json", NFile "2")])])])])] in
  cf_version ["ws"] (fun s => if (s =? "x")%string then Some (-1)%Z else Some 12%Z) (Some "a") (Some "c") n =
  (n, Ok ["Workspace name : a"; "Config name    : c"; ""; "Config versions:"; "    CHD.json: version 12"; "    CNF.json: no-version"; "    CST.json: version 12"]).
Proof. reflexivity. Qed.
