(** Model of dedop/ui/workspace_manager.py (class WorkspaceManager) on the
    file system of FsModel.

    Simplifications: console output and progress reports are left out; JSON
    text of configuration files is opaque here (its upgrade is modelled in
    ConfModel) and enters through the function [upg]; the packaged resource
    files are given by [resource]; launching the Jupyter server and an editor are
    external programs without effect on the tree. *)
From Coq Require Import Ascii String List Bool Arith.
From Verif Require Import Common Dict FsModel.
Import ListNotations.
Open Scope string_scope.
Open Scope list_scope.

Section Manager.
(** dedop/ui/workspace_manager.py:85 [self._workspaces_dir] *)
Variable W : path.
(** dedop/ui/workspace_manager.py:651-657 [pkgutil.get_data(package, name)];
    the flag selects the Cryosat package (17-18). *)
Variable resource : bool -> string -> string.
(** dedop/ui/workspace_manager.py:316-321 new text of configuration file
    [key] from its old text; [None] when the text is not usable. *)
Variable upg : string -> string -> option string.
(** [fnmatch.fnmatch(name, pattern)] *)
Variable fnmatch : string -> string -> bool.

(** dedop/ui/workspace_manager.py:417-418 get_workspace_path(name) *)
Definition ws_path (w : string) : path := join W w.
(** dedop/ui/workspace_manager.py:420-421, 217 get_config_path(w, c) *)
Definition configs_path (w : string) : path := join (ws_path w) "configs".
Definition config_path (w c : string) : path := join (configs_path w) c.
(** dedop/ui/workspace_manager.py:258-259 get_config_file *)
Definition config_file (w c key : string) : path := join (config_path w c) (key ++ ".json").
(** dedop/ui/workspace_manager.py:423-424 *)
Definition inputs_path (w : string) : path := join (ws_path w) "inputs".
(** dedop/ui/workspace_manager.py:426-427 *)
Definition outputs_path (w c : string) : path := join (config_path w c) "outputs".
(** dedop/ui/workspace_manager.py:496 *)
Definition notebooks_path (w : string) : path := join (ws_path w) "notebooks".
(** dedop/ui/workspace_manager.py:99, 104 *)
Definition current_file : path := join W ".current".
(** dedop/ui/workspace_manager.py:283, 288 *)
Definition current_config_file (w : string) : path := join (configs_path w) ".current".

(** dedop/ui/workspace_manager.py:30-37 [_readline]; [None] if not a file *)
Definition readline_at (p : path) : M (option string) :=
  look (fun n => option_map readline (read_file p n)).
(** dedop/ui/workspace_manager.py:40-45 [_writeline] *)
Definition writeline (p : path) (s : string) : M unit := fs EWs (write_file p s).

(** dedop/ui/workspace_manager.py:659-666 *)
Definition ensure_dir (p : path) : M unit :=
  ex <- look (exists_at p) ;;
  if ex then ret tt else fs EWs (makedirs p).

(** dedop/ui/workspace_manager.py:676-678 *)
Definition assert_ws (w : string) : M unit :=
  ex <- look (exists_at (ws_path w)) ;;
  if ex then ret tt else fail EWs.
(** dedop/ui/workspace_manager.py:680-683 *)
Definition assert_config (w c : string) : M unit :=
  ex <- look (exists_at (config_path w c)) ;;
  if ex then ret tt else fail EWs.

(** dedop/ui/workspace_manager.py:91-96 *)
Definition delete_all : M unit :=
  d <- look (is_dir W) ;;
  if d then fs EWs (rmtree W) else ret tt.
(** dedop/ui/workspace_manager.py:98-100 (the name of the workspace) *)
Definition get_current : M (option string) := readline_at current_file.
(** dedop/ui/workspace_manager.py:102-106 *)
Definition set_current (w : string) : M unit :=
  assert_ws w ;;; writeline current_file w.
(** dedop/ui/workspace_manager.py:108-109 *)
Definition ws_exists (w : string) : M bool := look (exists_at (ws_path w)).
(** dedop/ui/workspace_manager.py:111-122 *)
Definition create_ws (w : string) : M unit :=
  if w =? "" then fail EWs
  else ne <- look (nonempty_dir (ws_path w)) ;;
       if ne then fail EWs else ensure_dir (ws_path w).
(** dedop/ui/workspace_manager.py:124-135 *)
Definition delete_ws (w : string) : M unit :=
  assert_ws w ;;;
  ex <- look (exists_at (ws_path w)) ;;
  if ex then fs EWs (rmtree (ws_path w)) else ret tt.
(** dedop/ui/workspace_manager.py:137-152 *)
Definition copy_ws (w w' : string) : M unit :=
  assert_ws w ;;;
  ex <- look (exists_at (ws_path "")) ;;
  if ex then fs EWs (copytree (join (ws_path "") w) (join (ws_path "") w')) else ret tt.
(** dedop/ui/workspace_manager.py:154-171 *)
Definition rename_ws (w w' : string) : M unit :=
  assert_ws w ;;;
  if w' =? "" then fail EWs
  else ex <- look (exists_at (ws_path "")) ;;
       if ex then fs EWs (move (join (ws_path "") w) (join (ws_path "") w')) else ret tt.
(** the sorted sub-directories of [p]; an entry of a directory is a single
    component, so [os.path.join(p, name)] is [p ++ [name]] *)
Definition subdirs (p : path) : M (list string) :=
  l <- look (listdir p) ;;
  l <- need EOs l ;;
  look (fun n => sort_s (filter (fun x => is_dir (p ++ [x]) n) l)).
(** dedop/ui/workspace_manager.py:173-178 *)
Definition get_ws_names : M (list string) :=
  ex <- look (exists_at W) ;;
  if ex then subdirs W else ret [].
(** dedop/ui/workspace_manager.py:180-186 (names of the listed workspaces, in
    directory order; [None] when the directory is missing: no return value) *)
Definition get_workspaces : M (option (list string)) :=
  ex <- look (exists_at W) ;;
  if ex then
    l <- look (listdir W) ;;
    l <- need EOs l ;;
    ret (Some (filter (fun x => negb (x =? ".current")%string) l))
  else ret None.

(** dedop/ui/workspace_manager.py:188-190 *)
Definition config_exists (w c : string) : M bool := look (nonempty_dir (config_path w c)).
(** dedop/ui/workspace_manager.py:651-657 *)
Definition copy_resource (cryosat : bool) (name : string) (p : path) : M unit :=
  fs EWs (write_file (join p name) (resource cryosat name)).
(** dedop/ui/workspace_manager.py:192-207 *)
Definition create_config (w c : string) (cryosat : bool) : M unit :=
  assert_ws w ;;;
  ex <- config_exists w c ;;
  if ex then fail EWs
  else
    ensure_dir (config_path w c) ;;;
    copy_resource cryosat "CHD.json" (config_path w c) ;;;
    copy_resource cryosat "CNF.json" (config_path w c) ;;;
    copy_resource cryosat "CST.json" (config_path w c).
(** dedop/ui/workspace_manager.py:209-222 *)
Definition delete_config (w c : string) : M unit :=
  assert_ws w ;;; assert_config w c ;;;
  ex <- look (exists_at (config_path w c)) ;;
  if ex then fs EWs (rmtree (config_path w c)) else ret tt.
(** dedop/ui/workspace_manager.py:224-239 *)
Definition copy_config (w c c' : string) : M unit :=
  assert_ws w ;;; assert_config w c ;;;
  ex <- look (exists_at (config_path w c)) ;;
  if ex then fs EWs (copytree (config_path w c) (config_path w c')) else ret tt.
(** dedop/ui/workspace_manager.py:241-256 *)
Definition rename_config (w c c' : string) : M unit :=
  assert_ws w ;;; assert_config w c ;;;
  ex <- look (exists_at (config_path w c)) ;;
  if ex then fs EWs (os_rename (config_path w c) (config_path w c')) else ret tt.
(** dedop/ui/workspace_manager.py:267-272 *)
Definition write_config_file (w c key text : string) : M unit :=
  fs EOs (rewrite_file (config_file w c key) text).
(** dedop/ui/workspace_manager.py:274-279; [None] without a configs directory *)
Definition get_config_names (w : string) : M (option (list string)) :=
  assert_ws w ;;;
  ex <- look (exists_at (configs_path w)) ;;
  if ex then l <- subdirs (configs_path w) ;; ret (Some l) else ret None.
(** dedop/ui/workspace_manager.py:281-283 *)
Definition get_current_config (w : string) : M (option string) :=
  assert_ws w ;;; readline_at (current_config_file w).
(** dedop/ui/workspace_manager.py:285-288 *)
Definition set_current_config (w c : string) : M unit :=
  assert_ws w ;;; assert_config w c ;;; writeline (current_config_file w) c.
(** dedop/ui/workspace_manager.py:316-323 *)
Definition upgrade_config (w c key : string) : M unit :=
  s <- look (read_file (config_file w c key)) ;;
  s <- need EOs s ;;
  t <- need EValue (upg key s) ;;
  write_config_file w c key t.
(** dedop/ui/workspace_manager.py:310-314 *)
Definition upgrade_all_config (w c : string) : M unit :=
  upgrade_config w c "CHD" ;;; upgrade_config w c "CNF" ;;; upgrade_config w c "CST".

(** dedop/ui/workspace_manager.py:371-384; the inputs are given as resolved
    paths, [os.path.basename] is their last component *)
Definition add_inputs (w : string) (ps : list path) : M unit :=
  ensure_dir (inputs_path w) ;;;
  forM (fun p => fs EWs (copy_file p (join (inputs_path w) (last p "")))) ps.
(** dedop/ui/workspace_manager.py:386-400 *)
Definition remove_inputs (w : string) (names : list string) : M unit :=
  forM (fun x =>
    ex <- look (exists_at (join (inputs_path w) x)) ;;
    if ex then fs EWs (remove (join (inputs_path w) x)) else ret tt) names.
(** dedop/ui/workspace_manager.py:429-444 *)
Definition remove_outputs (w c : string) : M unit :=
  ex <- look (exists_at (outputs_path w c)) ;;
  if ex then
    l <- look (listdir (outputs_path w c)) ;;
    l <- need EOs l ;;
    forM (fun x =>
      ex <- look (exists_at (outputs_path w c ++ [x])) ;;
      if ex then fs EWs (remove (outputs_path w c ++ [x])) else ret tt) l
  else fail EWs.

(** [pattern] argument of get_nc_filename_list: absent, a string, or a list *)
Inductive pattern :=
| PNone
| POne (p : string)
| PMany (ps : list string).

(** dedop/ui/workspace_manager.py:640-648; an empty list is falsy *)
Definition select (pt : pattern) (l : list string) : list string :=
  match pt with
  | PNone | PMany [] => l
  | POne p => filter (fun x => fnmatch x p) l
  | PMany ps => flat_map (fun x => flat_map (fun p => if fnmatch x p then [x] else []) ps) l
  end.
(** dedop/ui/workspace_manager.py:636-649 *)
Definition nc_list (p : path) (pt : pattern) : M (list string) :=
  l <- look (listdir p) ;;
  l <- need EOs l ;;
  look (fun n => sort_s (select pt (filter (fun x => ends_with ".nc" x && is_file (p ++ [x]) n) l))).
(** dedop/ui/workspace_manager.py:403-411 *)
Definition get_input_names (w : string) (pt : pattern) : M (list string) :=
  ex <- look (exists_at (inputs_path w)) ;;
  if ex then nc_list (inputs_path w) pt else ret [].
(** dedop/ui/workspace_manager.py:413-415 *)
Definition get_input_paths (w : string) : M (list path) :=
  l <- get_input_names w PNone ;;
  ret (map (fun x => join (inputs_path w) x) l).
(** dedop/ui/workspace_manager.py:447-456 *)
Definition get_output_names (w c : string) (pt : pattern) : M (list string) :=
  ex <- look (exists_at (outputs_path w c)) ;;
  if ex then nc_list (outputs_path w c) pt else ret [].
(** dedop/ui/workspace_manager.py:458-465 *)
Definition get_notebook_names (w : string) : M (list string) :=
  assert_ws w ;;;
  ex <- look (exists_at (notebooks_path w)) ;;
  if ex then
    l <- look (listdir (notebooks_path w)) ;;
    l <- need EOs l ;;
    look (fun n => sort_s (filter (fun x => ends_with ".ipynb" x && is_file (notebooks_path w ++ [x]) n) l))
  else ret [].

(** dedop/ui/workspace_manager.py:506 *)
Definition notebook_name (base : string) (i : nat) : string :=
  (base ++ "-" ++ dec i ++ ".ipynb")%string.
(** dedop/ui/workspace_manager.py:503-509: first index from [i] whose file does
    not exist; the unbounded loop is cut after [fuel] rounds ([None]). *)
Fixpoint free_index (p : path) (base : string) (fuel i : nat) (n : node) : option nat :=
  match fuel with
  | O => None
  | S f => if exists_at (join p (notebook_name base i)) n
           then free_index p base f (S i) n else Some i
  end.
(** dedop/ui/workspace_manager.py:503-514.  Running out of [fuel] is [EValue]
    (C55 shows it does not happen). *)
Definition write_notebook (fuel : nat) (w base text : string) : M (option path) :=
  i <- look (free_index (notebooks_path w) base fuel 1) ;;
  i <- need EValue i ;;
  fs EOs (write_file (join (notebooks_path w) (notebook_name base i)) text) ;;;
  ret (Some (join (notebooks_path w) (notebook_name base i))).
(** dedop/ui/workspace_manager.py:491-516.  [Ok None]: status 60 (the directory
    could not be made); otherwise the path that was written. *)
Definition make_notebook (fuel : nat) (w base text : string) : M (option path) :=
  ex <- look (exists_at (notebooks_path w)) ;;
  if ex then write_notebook fuel w base text
  else made <- look (mkdir (notebooks_path w)) ;;
       match made with
       | None => ret None
       | Some _ => fs EWs (mkdir (notebooks_path w)) ;;; write_notebook fuel w base text
       end.

End Manager.
