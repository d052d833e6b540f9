(** Vocabulary for C59, C60, C62. *)
From Coq Require Import String Ascii List ZArith QArith Qabs Bool Arith.
From Verif Require Import Common MonModel.
Import ListNotations.
Open Scope nat_scope.

(** Start/done calls of one monitor, [true] for a start. *)
Fixpoint proj (l : nat) (tr : list event) : list bool :=
  match tr with
  | [] => []
  | Started n _ _ :: r => if n =? l then true :: proj l r else proj l r
  | Finished n :: r => if n =? l then false :: proj l r else proj l r
  | Reported _ _ _ :: r => proj l r
  end.

(** Every start is matched by exactly one later done. *)
Inductive balanced : list bool -> Prop :=
| bal_nil : balanced []
| bal_wrap : forall a, balanced a -> balanced (true :: a ++ [false])
| bal_app : forall a b, balanced a -> balanced b -> balanced (a ++ b).

(** Amount of work told to the monitor of level [l]. *)
Fixpoint told (l : nat) (tr : list event) : Q :=
  match tr with
  | [] => 0
  | Reported n (Some x) _ :: r => if n =? l then (x + told l r)%Q else told l r
  | _ :: r => told l r
  end.

(** The task does not start its own monitor. *)
Fixpoint no_restart (t : task) : bool :=
  match t with
  | TStarting _ _ _ => false
  | TSeq a b | TTry a b | TIfCancelled a b => no_restart a && no_restart b
  | _ => true
  end.

(** All monitors of the list were started with a non-zero total. *)
Definition live (s : stack) : Prop :=
  Forall (fun c => exists t, c_total c = Some t /\ ~ (t == 0)%Q) s.

(** A terminal line: visible characters and cursor position. *)
Definition tline := (text * nat)%type.
Definition overwrite (cur : text) (pos : nat) (c : ascii) : text :=
  firstn pos (cur ++ repeat sp (pos - length cur)) ++ c :: skipn (S pos) cur.
Definition tput (t : tline) (c : ascii) : tline :=
  if Ascii.eqb c cr then (fst t, 0)
  else if Ascii.eqb c nl then ([], 0)
  else (overwrite (fst t) (snd t) c, S (snd t)).
Definition tputs (t : tline) (o : text) : tline := fold_left tput o t.

Definition plain (t : text) : Prop := ~ In cr t /\ ~ In nl t.
Definition plain_call (c : kcall) : Prop :=
  match c with
  | KStart l _ => plain l
  | KProgress _ (Some m) => plain m
  | _ => True
  end.

Fixpoint k_run (k : console) (cs : list kcall) : text * console :=
  match cs with
  | [] => ([], k)
  | c :: r => let '(o, k1, _) := k_step k c in
              let '(o2, k2) := k_run k1 r in (o ++ o2, k2)
  end.

(** The same console in multi-line mode. *)
Definition multiline (k : console) : console :=
  {| k_inline := false; k_bar := k_bar k; k_label := k_label k; k_worked := k_worked k;
     k_total := k_total k; k_pct := k_pct k; k_cancelled := k_cancelled k;
     k_last := k_last k; k_msg := k_msg k |}.

(** What a progress report shows: rounded percentage of the work so far (when
    an amount is given and a total is known) and the message. *)
Definition worked_sum (ws : list (option Q * option text)) : Q :=
  fold_left (fun y p => match fst p with Some x => (y + x)%Q | None => y end) ws 0%Q.
Definition shown (total : option Q) (worked : Q) (work : option Q) : option Z :=
  match work, total with Some _, Some t => Some (py_round (100 * worked / t)) | _, _ => None end.
(** What the [i]-th report since the start shows; [before] what was shown by
    the report before it ([m0]: last message before the start). *)
Definition shown_at (total : option Q) (ws : list (option Q * option text)) (i : nat)
  : option Z * option text :=
  match nth_error ws i with
  | Some (work, m) => (shown total (worked_sum (firstn (S i) ws)) work, m)
  | None => (None, None)
  end.
Definition shown_before (total : option Q) (m0 : option text) ws (i : nat) : option Z * option text :=
  match i with 0 => (None, m0) | S j => shown_at total ws j end.

(** A sequence of progress calls, all returning normally. *)
Fixpoint k_progs (k : console) (ws : list (option Q * option text)) : option (list text * console) :=
  match ws with
  | [] => Some ([], k)
  | (work, m) :: r =>
      match k_progress k work m with
      | (o, k1, None) =>
          match k_progs k1 r with Some (os, k2) => Some (o :: os, k2) | None => None end
      | _ => None
      end
  end.
Definition nearest (q : Q) (z : Z) : Prop := (Qabs (inject_Z z - q) <= 1 # 2)%Q.
