(** Vocabulary of the command-line statements. *)
From Coq Require Import Ascii String List Bool.
From Verif Require Import Common Dict FsModel WsModel WsSpec NameModel CliModel.
Import ListNotations.
Open Scope string_scope.
Open Scope list_scope.

(** An ordinary name: a single path component on one line, not the marker
    file's name. *)
Definition ordinary (s : string) : bool :=
  plain s && negb (has_char nl s) && negb (has_char cr s) && negb (s =? ".current")%string.
(** An optional argument: absent, empty, or an ordinary name. *)
Definition ordinary_arg (o : option string) : bool :=
  match o with Some s => (s =? "")%string || ordinary s | None => true end.

(** The directory [B] (of workspaces, or of configurations) holds nothing but
    directories with ordinary names and the marker file; it may be missing. *)
Definition tidy (B : path) (n : node) : Prop :=
  is_file B n = false /\
  forall x, exists_at (B ++ [x]) n = true ->
    (x = ".current" /\ is_file (B ++ [x]) n = true) \/
    (ordinary x = true /\ is_dir (B ++ [x]) n = true).
(** The marker file of [B], if there is one, is empty or starts with the name
    of a sub-directory of [B]. *)
Definition current_valid (B : path) (n : node) : Prop :=
  forall t, lookup (B ++ [".current"]) n = Some (NFile t) ->
    readline t = "" \/ is_dir (B ++ [readline t]) n = true.

(** The trees a user of the commands works on: the workspaces directory and the
    configs directory of every workspace are tidy and their marker is valid. *)
Definition sound (W : path) (n : node) : Prop :=
  (tidy W n /\ current_valid W n) /\
  forall w, ordinary w = true ->
    tidy (W ++ [w; "configs"]) n /\ current_valid (W ++ [w; "configs"]) n.

(** One command of the user, or one call by a web client. *)
Inductive step :=
| SAdd (w : string)                             (* dedop workspace add *)
| SRemove (wa : option string) (yes : bool)
| SCopy (wa new_name : option string)
| SRename (wa : option string) (new_name : string)
| SCurrent (wa : option string)
| CAdd (wa : option string) (c : string) (cryosat : bool)    (* dedop config add *)
| CRemove (wa ca : option string) (yes : bool)
| CCopy (wa ca new_name : option string)
| CRename (wa ca : option string) (new_name : string)
| CCurrent (wa ca : option string)
| CEdit (wa ca : option string)
| CUpgrade (wa ca : option string)
| RPlan (a : run_args)                          (* dedop run, up to processing *)
| ADelete (w : string)                          (* web: delete_workspace *)
| ADeleteConfig (w c : string)                  (* web: delete_config *)
| Call (o : wop).                               (* a call of the manager *)

Section Steps.
Variable W : path.
Variable resource : bool -> string -> string.
Variable upg : string -> string -> option string.
Variable fnmatch : string -> string -> bool.
Variable newer : string -> string -> option bool.
Variable cwd : path.

Definition run_step (s : step) : M unit :=
  match s with
  | SAdd w => ws_add W w
  | SRemove wa yes => ws_remove W wa yes
  | SCopy wa new_name => ws_copy W wa new_name
  | SRename wa new_name => ws_rename W wa new_name
  | SCurrent wa => ws_current W wa
  | CAdd wa c cryosat => cf_add W resource wa c cryosat
  | CRemove wa ca yes => cf_remove W wa ca yes
  | CCopy wa ca new_name => cf_copy W wa ca new_name
  | CRename wa ca new_name => cf_rename W wa ca new_name
  | CCurrent wa ca => cf_current W wa ca
  | CEdit wa ca => cf_edit W resource wa ca
  | CUpgrade wa ca => cf_upgrade W upg newer wa ca
  | RPlan a => run_plan W resource fnmatch cwd a ;;; ret tt
  | ADelete w => api_delete W w
  | ADeleteConfig w c => api_delete_config W w c
  | Call o => exec W resource upg o
  end.
(** Commands one after the other, whether they succeed or fail. *)
Fixpoint session (ss : list step) (n : node) : node :=
  match ss with
  | [] => n
  | s :: r => session r (fst (run_step s n))
  end.
End Steps.

(** A bare call of the manager that deletes or renames does not update the
    selection; the commands do. *)
Definition no_delete (o : wop) : bool :=
  match o with
  | ODelete _ | ORename _ _ | ODeleteConfig _ _ | ORenameConfig _ _ _ => false
  | _ => true
  end.
(** All names in the command are ordinary. *)
Definition step_ordinary (s : step) : bool :=
  match s with
  | SAdd w => ordinary_arg (Some w)
  | SRemove wa _ | SCurrent wa => ordinary_arg wa
  | SCopy wa new_name => ordinary_arg wa && ordinary_arg new_name
  | SRename wa new_name => ordinary_arg wa && ordinary_arg (Some new_name)
  | CAdd wa c _ => ordinary_arg wa && ordinary c
  | CRemove wa ca _ | CCurrent wa ca | CEdit wa ca | CUpgrade wa ca => ordinary_arg wa && ordinary_arg ca
  | CCopy wa ca new_name => ordinary_arg wa && ordinary_arg ca && ordinary_arg new_name
  | CRename wa ca new_name => ordinary_arg wa && ordinary_arg ca && ordinary new_name
  | RPlan a => ordinary_arg (ra_ws a) && ordinary_arg (ra_config a)
  | ADelete w => ordinary w
  | ADeleteConfig w c => ordinary w && ordinary c
  | Call o => simple_names o && no_delete o &&
              forallb ordinary (ws_named o) && forallb ordinary (configs_named o)
  end.

(** What a product argument means (C58): a path if it has a directory part,
    else a file in the outputs of the workspace and configuration. *)
Definition intended (W cwd : path) (w c f : string) : path :=
  if has_char slash f then join cwd f else join (W ++ [w; "configs"; c; "outputs"]) f.

(** What a run has to do (C57): for each configuration build the processor
    once and then process every input. *)
Definition expected_events (job_for : string -> job) (configs : list string) (inputs : list path)
  : list event :=
  flat_map (fun c => Built (job_for c) :: map (Processed (job_for c)) inputs) configs.

(** Carrying out events one after the other (C57): the first failure stops. *)
Section Replay.
Variable mk : job -> list event -> M unit.
Variable pr : job -> path -> list event -> M unit.
Definition perform (e : event) : list event -> M unit :=
  match e with
  | Built j => mk j
  | Processed j p => pr j p
  end.
Fixpoint replay (es t : list event) (n : node) : list event * node * res err unit :=
  match es with
  | [] => (t, n, Ok tt)
  | e :: r => match perform e t n with
              | (n', Ok _) => replay r (t ++ [e]) n'
              | (n', Err x) => (t ++ [e], n', Err x)
              end
  end.
End Replay.
(** How a failure is reported. *)
Definition reported (r : list event * node * res err unit) : list event * node * res err unit :=
  match r with
  | (t, n, Err EWs) | (t, n, Err EProc) => (t, n, Err ECmd)
  | _ => r
  end.
