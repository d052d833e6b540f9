(** What a program prints by itself. *)
From Coq Require Import String List Arith Bool.
From Verif Require Import FetchModel.
Import ListNotations.
Local Open Scope string_scope.
Local Open Scope nat_scope.

(** It closes none of its streams. *)
Fixpoint decent (p : prog) : Prop :=
  match p with
  | Done | Raise => True
  | Print _ n | Complain _ n => decent n
  | CloseOut _ | CloseErr _ => False
  | Fetch b n => decent b /\ decent n
  end.
Fixpoint raises (p : prog) : bool :=
  match p with
  | Done => false | Raise => true
  | Print _ n | Complain _ n | CloseOut n | CloseErr n => raises n
  | Fetch b n => raises b || raises n
  end.
(** The texts printed outside blocks, up to an exception. *)
Fixpoint printed (p : prog) : string :=
  match p with
  | Done | Raise => ""
  | Print s n => (s ++ printed n)%string
  | Complain _ n | CloseOut n | CloseErr n => printed n
  | Fetch b n => if raises b then "" else printed n
  end.
Fixpoint complained (p : prog) : string :=
  match p with
  | Done | Raise => ""
  | Complain s n => (s ++ complained n)%string
  | Print _ n | CloseOut n | CloseErr n => complained n
  | Fetch b n => if raises b then "" else complained n
  end.
(** Two different streams that are open. *)
Definition ready (st : state) : Prop :=
  s_out st < length (streams st) /\ s_err st < length (streams st) /\ s_out st <> s_err st /\
  s_closed (at_ (s_out st) st) = false /\ s_closed (at_ (s_err st) st) = false.
