(** What a selection and a description of a workspace should say. *)
From Coq Require Import Ascii String List Bool.
From Verif Require Import Common Dict FsModel WswModel.
Import ListNotations.
Local Open Scope string_scope.
Local Open Scope list_scope.

(** In directory [B] of the tree [n], [s] is the choice among the directories:
    "default" if there, else the first by name, else the empty name. *)
Definition chosen (B : path) (n : node) (s : string) : Prop :=
  (is_dir (B ++ ["default"]) n = true -> s = "default") /\
  (is_dir (B ++ ["default"]) n = false -> forall x, is_dir (B ++ [x]) n = true ->
     is_dir (B ++ [s]) n = true /\ (x = s \/ String.compare s x = Lt)) /\
  ((forall x, is_dir (B ++ [x]) n = false) -> s = "").

(** Names of directories are single components. *)
Definition plain_names (B : path) (n : node) : Prop := forall x, is_dir (B ++ [x]) n = true -> plain x = true.

(** An object describes workspace [w] of directory [W]. *)
Definition describes (W : path) (w : string) (o : wsobj) : Prop := o_dir o = W ++ [w] /\ o_name o = Some w.
