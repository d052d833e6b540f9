(** Model of the names of products (dedop/proc/sar/processor.py:137-156) and of
    the shortened titles (dedop/ui/workspace_manager.py:668-674). *)
From Coq Require Import Ascii String List Bool Arith.
From Verif Require Import Common Dict FsModel.
Import ListNotations.
Open Scope string_scope.
Open Scope list_scope.

(** [os.path.basename(s)]: what follows the last separator. *)
Definition basename (s : string) : string := last (split_slash s) "".

(** [s] cut before its last dot, [None] without a dot. *)
Fixpoint last_dot (s : string) : option (string * string) :=
  match s with
  | EmptyString => None
  | String c r =>
      match last_dot r with
      | Some (a, b) => Some (String c a, b)
      | None => if Ascii.eqb c "."%char then Some (EmptyString, s) else None
      end
  end.
Fixpoint all_dots (s : string) : bool :=
  match s with
  | EmptyString => true
  | String c r => Ascii.eqb c "."%char && all_dots r
  end.
(** [os.path.splitext(s)[0]] for [s] without a separator: leading dots do not
    start an extension. *)
Definition stem (s : string) : string :=
  match last_dot s with
  | Some (a, _) => if all_dots a then s else a
  | None => s
  end.

(** [s[n:]] *)
Definition drop (n : nat) (s : string) : string := substring n (String.length s - n) s.

(** dedop/proc/sar/processor.py:137-140 *)
Definition l1a_base (file : string) : string :=
  let b := stem (basename file) in
  if String.prefix "L1A" b then drop 3 b else b.
(** dedop/proc/sar/processor.py:142-148 ['_%s' % s] if [s] is not empty *)
Definition part (s : string) : string :=
  if (s =? "")%string then "" else ("_" ++ s)%string.
(** dedop/proc/sar/processor.py:151 *)
Definition l1bs_name (run file : string) : string :=
  ("L1BS" ++ part (l1a_base file) ++ part run ++ ".nc")%string.
(** dedop/proc/sar/processor.py:155 *)
Definition l1b_name (run file : string) : string :=
  ("L1B" ++ part (l1a_base file) ++ part run ++ ".nc")%string.
(** dedop/proc/sar/processor.py:152, 156 *)
Definition l1bs_path (out : path) (run file : string) : path := join out (l1bs_name run file).
Definition l1b_path (out : path) (run file : string) : path := join out (l1b_name run file).

(** dedop/ui/workspace_manager.py:668-674; [right]: mode 'r'.  [None]: an
    assertion fails. *)
Definition limit_title (right : bool) (name : string) (max_len : nat) : option string :=
  if (name =? "")%string then None
  else if (max_len <=? 3)%nat then None
  else if (String.length name <=? max_len)%nat then Some name
  else if right then Some ("..." ++ drop (String.length name - (max_len - 3)) name)%string
  else Some (substring 0 (max_len - 3) name ++ "...")%string.
