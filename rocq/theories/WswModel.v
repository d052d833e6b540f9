(** Workspaces through the web interface (webapi/websocket.py) and the objects
    that describe them (ui/workspace.py).  Definitions only.

    File system and workspace manager are those of FsModel and WsModel. *)
From Coq Require Import Ascii String List Bool Arith.
From Verif Require Import Common Dict FsModel WsModel.
Import ListNotations.
Local Open Scope string_scope.
Local Open Scope list_scope.

Section Web.
(** the directory of the workspace manager *)
Variable W : path.
(** conf/defaults.py 5: DEFAULT_DATA_PATH *)
Variable D : path.

(** websocket.py 31-37, 76-82: the name selected after a deletion. *)
Definition next_selection (all : list string) : string :=
  if mem_s "default" all then "default"
  else match all with x :: _ => x | [] => "" end.
(** websocket.py 29-37 *)
Definition web_delete_ws (w : string) : M unit :=
  delete_ws W w ;;;
  all <- get_ws_names W ;;
  set_current W (next_selection all).
(** websocket.py 73-81; [x in None] is a TypeError. *)
Definition web_delete_config (w c : string) : M unit :=
  delete_config W w c ;;;
  o <- get_config_names W w ;;
  all <- need EType o ;;
  set_current_config W w (next_selection all).

(** workspace.py 8-18: a workspace object; a name may be missing. *)
Record wsobj := { o_dir : path; o_name : option string; o_current : bool }.
(** conf/defaults.py 7 *)
Definition default_dir : path := D ++ ["workspaces"; "default"].
(** workspace.py 9-18; an empty name or directory counts as missing. *)
Definition workspace (dir : option path) (name : option string) (current : bool) : wsobj :=
  let d := match dir with
           | Some p => p
           | None => match name with
                     | None => default_dir
                     | Some s => if s =? "" then default_dir else join (D ++ ["workspaces"]) s
                     end
           end in
  {| o_dir := d; o_name := name; o_current := current |}.

(** workspace_manager.py 98-100 *)
Definition current_object : M wsobj :=
  s <- get_current W ;; ret (workspace None s false).
(** workspace_manager.py 102-106, 122, 151-152, 170-171: the objects returned by
    the operations that name a workspace. *)
Definition set_current_object (w : string) : M wsobj :=
  set_current W w ;;; ret (workspace (Some (ws_path W w)) (Some w) true).
Definition create_object (w : string) : M wsobj :=
  create_ws W w ;;; ret (workspace (Some (ws_path W w)) (Some w) false).
Definition copy_object (w w' : string) : M wsobj :=
  copy_ws W w w' ;;; ret (workspace (Some (ws_path W w')) (Some w') false).
Definition rename_object (w w' : string) : M wsobj :=
  rename_ws W w w' ;;; ret (workspace (Some (ws_path W w')) (Some w') false).
(** workspace_manager.py 180-186 *)
Definition all_objects : M (option (list wsobj)) :=
  o <- get_workspaces W ;;
  ret (option_map (map (fun x => workspace (Some (W ++ [x])) (Some x) false)) o).

(** workspace.py 33-34, 40-44: [open]; [isdir base name]: the directory test. *)
Definition open_object (base : path) (name : string) : M wsobj :=
  d <- look (is_dir (join base name)) ;;
  if d then ret (workspace (Some base) (Some name) false) else fail EWs.

(** workspace.py 46-56: [save] first reads the attribute base_dir. *)
Inductive obj_err := EAttribute (* AttributeError *).
Definition object_attributes : list string :=
  ["_workspace_dir"; "_name"; "_is_current"; "name"; "is_current"; "workspace_dir"; "get_workspace_dir"; "create"; "open";
   "save"; "from_json_dict"; "to_json_dict"].
Definition save (o : wsobj) (n : node) : res obj_err node :=
  if mem_s "base_dir" object_attributes then Ok n else Err EAttribute.

(** workspace.py 58-70: JSON objects; paths, names and flags as values. *)
Inductive jval := JPath (p : path) | JName (s : option string) | JFlag (b : bool).
Definition to_json (o : wsobj) : dict jval :=
  [("workspace_dir", JPath (o_dir o)); ("name", JName (o_name o)); ("is_current", JFlag (o_current o))].
Definition from_json (d : dict jval) : wsobj :=
  workspace (match dget "base_dir" d with Some (JPath p) => Some p | _ => None end)
            (match dget "workspace_name" d with Some (JName s) => s | _ => None end)
            (match dget "is_current" d with Some (JFlag b) => b | _ => false end).
End Web.
