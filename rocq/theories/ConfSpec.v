(** Vocabulary for C39-C42 and C78, independent of the list bookkeeping of the
    upgrade and of the cache. *)
From Coq Require Import String List ZArith QArith Bool.
From Verif Require Import Common Dict ConfModel.
Import ListNotations.
Open Scope string_scope.
Open Scope list_scope.

(** What a changelog says, as data: per change a version and the touched
    parameters with what happened to them. *)
Inductive kind := Added | Modified | Removed.
Definition changelog := list (Q * list (string * kind)).

Definition code (k : kind) : string :=
  match k with Added => "+" | Modified => "*" | Removed => "-" end.

(** Its JSON form, with arbitrary comments. *)
Definition entry_json (e : string * kind) (comment : list json) : json :=
  JArr (JStr (fst e) :: JStr (code (snd e)) :: comment).
Definition entries_json (l : list (string * kind)) (js : list json) : Prop :=
  Forall2 (fun e j => exists comment, j = entry_json e comment) l js.
Definition change_json (c : Q * list (string * kind)) (j : json) : Prop :=
  exists d v js,
    j = JObj d /\ dget "version" d = Some v /\ num_of v = Some (fst c) /\
    dget "parameters" d = Some (JArr js) /\ entries_json (snd c) js.
Definition log_json (l : changelog) (js : list json) : Prop := Forall2 change_json l js.

(** The default configuration has version [dv] and changelog [log]. *)
Definition default_is (def : dict json) (dv : Q) (log : changelog) : Prop :=
  exists m v js,
    dget metainf def = Some (JObj m) /\
    dget "version" m = Some v /\ num_of v = Some dv /\
    dget "changelog" m = Some (JArr js) /\ log_json log js.

(** The version of a configuration: -1 without metadata. *)
Definition version_is (cfg : dict json) (q : Q) : Prop :=
  (dget metainf cfg = None /\ q = (-1 # 1)) \/
  (exists m v, dget metainf cfg = Some (JObj m) /\ dget "version" m = Some v /\ num_of v = Some q).

(** The last change of parameter [k] that is newer than version [cv]. *)
Fixpoint last_change (cv : Q) (log : changelog) (k : string) : option kind :=
  match log with
  | [] => None
  | (v, es) :: rest =>
      match last_change cv rest k with
      | Some x => Some x
      | None =>
          if Qle_bool v cv then None
          else (fix last (l : list (string * kind)) : option kind :=
                  match l with
                  | [] => None
                  | (k', x) :: r =>
                      match last r with
                      | Some y => Some y
                      | None => if k =? k' then Some x else None
                      end
                  end) es
      end
  end.

(** What upgrading must do to parameter [k]. *)
Definition upgraded_value (cv : Q) (log : changelog) (cur def : dict json) (k : string) : option json :=
  match last_change cv log k with
  | Some Added | Some Modified => dget k def
  | Some Removed => None
  | None => dget k cur
  end.

(** Documents whose parameters all have a value. *)
Definition wellformed (d : dict json) : Prop :=
  forall k j, In (k, j) d -> k <> metainf ->
  exists m v, j = JObj m /\ dget "value" m = Some v.

(** The value of parameter [k] in a document. *)
Definition value_in (d : dict json) (k : string) : option json :=
  if k =? metainf then None
  else match dget k d with
       | Some (JObj m) => dget "value" m
       | _ => None
       end.
