(** Vocabulary of the naming statements. *)
From Coq Require Import Ascii String List Bool.
From Verif Require Import FsModel.
Open Scope string_scope.

(** [s] starts / ends with / contains [t]. *)
Definition starts (t s : string) : Prop := exists r, s = (t ++ r)%string.
Definition ends (t s : string) : Prop := exists r, s = (r ++ t)%string.
Definition contains (t s : string) : Prop := exists a b, s = (a ++ t ++ b)%string.

(** [file] is in directory part [dir] (empty or ending in a separator), its
    last component is [base] followed by an extension ([""] or a dot and
    characters that are not dots). *)
Definition named (file dir base ext : string) : Prop :=
  file = (dir ++ base ++ ext)%string /\
  (dir = "" \/ ends "/" dir) /\
  has_char slash base = false /\ has_char slash ext = false /\
  (* there is something besides dots before the extension *)
  (exists a c b, base = (a ++ String c b)%string /\ c <> "."%char) /\
  ((ext = "" /\ has_char "."%char base = false) \/
   exists e, ext = ("." ++ e)%string /\ has_char "."%char e = false).
