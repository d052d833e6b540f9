(** Vocabulary for C102-C103: files of a tree. *)
From Coq Require Import String List.
From Verif Require Import Common Dict FsModel.
Import ListNotations.
Open Scope string_scope.
Open Scope list_scope.

(** The tree has a file with this content at this path. *)
Definition file_at (n : node) (q : path) (s : string) : Prop := lookup q n = Some (NFile s).

(** The files of [n'] are those of [n], except at the paths of [l], where they
    are those given by [f]. *)
Definition files_changed (n n' : node) (l : list path) (f : path -> string -> Prop) : Prop :=
  forall q s, file_at n' q s <-> (In q l /\ f q s) \/ (~ In q l /\ file_at n q s).
