(** What a console monitor shows, from the calls made so far (last call first). *)
From Coq Require Import String Ascii List ZArith QArith Bool.
From Verif Require Import Common MonModel MonSpec.
Import ListNotations.

(** The task started last: its label and total. *)
Fixpoint running (h : list kcall) : option (text * option Q) :=
  match h with
  | [] => None
  | KStart (c :: l) t :: _ => Some (c :: l, t)
  | _ :: r => running r
  end.
(** The exception of the next call. *)
Definition outcome (h : list kcall) (c : kcall) : option merr :=
  match c with
  | KStart [] _ => Some EValue
  | KProgress (Some _) _ =>
      match running h with
      | None => Some EType
      | Some (_, Some t) => if Qeq_bool t 0 then Some EZeroDiv else None
      | Some (_, None) => None
      end
  | _ => None
  end.
(** The message given last, by a call that did not fail. *)
Fixpoint message (h : list kcall) : option text :=
  match h with
  | [] => None
  | KProgress w m :: r => match outcome r (KProgress w m) with None => m | Some _ => message r end
  | _ :: r => message r
  end.
Definition cancelled (h : list kcall) : bool := existsb (fun c => match c with KCancel => true | _ => false end) h.
Definition label_of (h : list kcall) : text := match running h with Some (l, _) => l | None => [] end.
(** The last words. *)
Definition last_words (h : list kcall) : text :=
  if cancelled h then txt "cancelled"
  else match message h with None => txt "done" | Some [] => txt "progress" | Some m => m end.
(** The words of a report: percentage (if any) and message. *)
Definition words (bar : nat) (p : option Z) (m : option text) : text :=
  match p, m with
  | None, (None | Some []) => txt "progress"
  | None, Some t => t
  | Some z, (None | Some []) => bar_text bar z ++ pct_text z
  | Some z, Some t => bar_text bar z ++ pct_text z ++ txt " " ++ t
  end.
