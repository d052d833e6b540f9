(** Vocabulary for C104-C105. *)
From Coq Require Import Ascii String List Bool.
From Verif Require Import Common FsModel.
Import ListNotations.
Open Scope string_scope.

(** [name] is the last component of [path]. *)
Definition last_component (path name : string) : Prop :=
  has_char "/"%char name = false /\
  (path = name \/ exists b, path = (b ++ "/" ++ name)%string).

(** [ext] is the extension of [name], [root] what precedes it: the extension
    starts with the last dot, and what precedes has a character other than a
    dot; without such a dot there is none. *)
Definition only_dots (s : string) : Prop := forall c, has_char c s = true -> c = "."%char.
Definition has_extension (name root ext : string) : Prop :=
  name = (root ++ ext)%string /\ ~ only_dots root /\
  exists b, ext = String "."%char b /\ has_char "."%char b = false.
Definition extension (name root ext : string) : Prop :=
  has_extension name root ext \/
  (root = name /\ ext = "" /\ forall r e, ~ has_extension name r e).

(** Two spellings of one path, seen from any directory. *)
Definition same_path (p q : string) : Prop := forall cwd, join cwd p = join cwd q.

(** A word, in upper or lower case letters. *)
Definition pdf_word (s : string) : Prop :=
  In s ["pdf"; "Pdf"; "pDf"; "pdF"; "PDf"; "PdF"; "pDF"; "PDF"].
Definition dir_word (s : string) : Prop :=
  In s ["dir"; "Dir"; "dIr"; "diR"; "DIr"; "DiR"; "dIR"; "DIR"].
(** A format was given. *)
Definition given (f : option string) (P : string -> Prop) : Prop := exists x, f = Some x /\ x <> "" /\ P x.
Definition not_given (f : option string) : Prop := f = None \/ f = Some "".
