(** Vocabulary of the workspace statements: calls of the workspace manager,
    the names they mention, and what "unchanged" and "listed" mean. *)
From Coq Require Import Ascii String List Bool Sorted.
From Verif Require Import Common Dict FsModel WsModel.
Import ListNotations.
Open Scope string_scope.
Open Scope list_scope.

(** A call of the manager (every method that may change files, except
    delete_all_workspaces, whose purpose is to remove everything). *)
Inductive wop :=
| OCreate (w : string)
| ODelete (w : string)
| OCopy (w w' : string)
| ORename (w w' : string)
| OSetCurrent (w : string)
| OCreateConfig (w c : string) (cryosat : bool)
| ODeleteConfig (w c : string)
| OCopyConfig (w c c' : string)
| ORenameConfig (w c c' : string)
| OSetCurrentConfig (w c : string)
| OWriteConfig (w c key text : string)
| OUpgradeConfig (w c : string)
| OAddInputs (w : string) (ps : list path)
| ORemoveInputs (w : string) (names : list string)
| ORemoveOutputs (w c : string)
| ONotebook (fuel : nat) (w base text : string).

Section Exec.
Variable W : path.
Variable resource : bool -> string -> string.
Variable upg : string -> string -> option string.

Definition exec (o : wop) : M unit :=
  match o with
  | OCreate w => create_ws W w
  | ODelete w => delete_ws W w
  | OCopy w w' => copy_ws W w w'
  | ORename w w' => rename_ws W w w'
  | OSetCurrent w => set_current W w
  | OCreateConfig w c b => create_config W resource w c b
  | ODeleteConfig w c => delete_config W w c
  | OCopyConfig w c c' => copy_config W w c c'
  | ORenameConfig w c c' => rename_config W w c c'
  | OSetCurrentConfig w c => set_current_config W w c
  | OWriteConfig w c key text => write_config_file W w c key text
  | OUpgradeConfig w c => upgrade_all_config W upg w c
  | OAddInputs w ps => add_inputs W w ps
  | ORemoveInputs w names => remove_inputs W w names
  | ORemoveOutputs w c => remove_outputs W w c
  | ONotebook fuel w base text => make_notebook W fuel w base text ;;; ret tt
  end.

(** A history: each call runs on the tree the previous one left, whether it
    succeeded or failed. *)
Fixpoint history (ops : list wop) (n : node) : node :=
  match ops with
  | [] => n
  | o :: r => history r (fst (exec o n))
  end.
End Exec.

(** The workspaces a call names. *)
Definition ws_named (o : wop) : list string :=
  match o with
  | OCopy w w' | ORename w w' => [w; w']
  | OCreate w | ODelete w | OSetCurrent w
  | OCreateConfig w _ _ | ODeleteConfig w _ | OCopyConfig w _ _ | ORenameConfig w _ _
  | OSetCurrentConfig w _ | OWriteConfig w _ _ _ | OUpgradeConfig w _
  | OAddInputs w _ | ORemoveInputs w _ | ORemoveOutputs w _ | ONotebook _ w _ _ => [w]
  end.

(** The configurations a call names. *)
Definition configs_named (o : wop) : list string :=
  match o with
  | OCopyConfig _ c c' | ORenameConfig _ c c' => [c; c']
  | OCreateConfig _ c _ | ODeleteConfig _ c | OSetCurrentConfig _ c
  | OWriteConfig _ c _ _ | OUpgradeConfig _ c | ORemoveOutputs _ c => [c]
  | _ => []
  end.

(** A call inside a workspace (configurations, inputs, outputs, notebooks),
    not on the workspace as a whole. *)
Definition inside (o : wop) : bool :=
  match o with
  | OCreate _ | ODelete _ | OCopy _ _ | ORename _ _ => false
  | _ => true
  end.

(** One component of a path, or empty. *)
Definition simple (s : string) : bool := plain s || (s =? "")%string.

(** All names in the call are single components. *)
Definition simple_names (o : wop) : bool :=
  forallb plain (ws_named o) && forallb simple (configs_named o) &&
  match o with
  | OWriteConfig _ _ key _ => negb (has_char slash key)
  | OAddInputs _ ps => forallb (fun p => forallb plain p) ps
  | ORemoveInputs _ names => forallb simple names
  | ONotebook _ _ base _ => negb (has_char slash base)
  | _ => true
  end.

(** The directory of workspace [w] and of its configuration [c]. *)
Definition ws_dir (W : path) (w : string) : path := W ++ [w].
Definition config_dir (W : path) (w c : string) : path := W ++ [w; "configs"; c].

(** [l] lists exactly the names with property [P], each once, in order. *)
Definition lists (P : string -> Prop) (l : list string) : Prop :=
  (forall x, In x l <-> P x) /\ StronglySorted (fun a b => String.compare a b = Lt) l.

(** Name [x] of directory [p] that ends in ".nc" and is a file. *)
Definition nc_file (p : path) (n : node) (x : string) : Prop :=
  (exists b, x = (b ++ ".nc")%string) /\ is_file (p ++ [x]) n = true.
