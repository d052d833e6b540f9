(** Which product a name on the command line means. *)
From Coq Require Import Ascii String List Bool.
From Verif Require Import Common FsModel.
Import ListNotations.
Open Scope string_scope.
Open Scope list_scope.

(** A name with a directory part is a path, seen from the current directory;
    otherwise it is the name of an output of a configuration. *)
Definition product_named (W cwd : path) (w c file : string) (p : path) : Prop :=
  (has_char "/"%char file = true /\ p = join cwd file) \/
  (has_char "/"%char file = false /\ p = W ++ [w; "configs"; c; "outputs"; file]).

(** The tree [n'] has one more notebook in the workspace; its name starts with
    [base], its text is [text]; nothing else changed. *)
Definition notebook_made (W : path) (w base text : string) (n n' : node) : Prop :=
  exists name, let file := W ++ [w; "notebooks"; name] in
    prefix (base ++ "-") name = true /\ exists_at file n = false /\ lookup file n' = Some (NFile text) /\
    (forall q s, lookup q n' = Some (NFile s) <-> q = file /\ s = text \/ lookup q n = Some (NFile s)).
