(** Progress monitors (util/monitor.py).  Definitions only.  Amounts of work
    are exact rationals. *)
From Coq Require Import String Ascii List ZArith QArith Bool Arith DecimalString.
From Verif Require Import Common.
Import ListNotations.
Open Scope nat_scope.

(** Exceptions: missing label (monitor.py 190-191, 235-236), division by
    [None] or by zero in [ChildMonitor.progress] (198), and exceptions of the
    task itself. *)
Inductive merr := EValue | EType | EZeroDiv | ETask (n : nat).

(** Calls observed on monitors.  [level] counts the ancestors of the monitor:
    the monitor the caller created has level 0.  [Started] is recorded when
    [start] returns normally, [Finished] when [done] is called, [Reported] when
    [progress] is called. *)
Inductive event :=
| Started (level : nat) (label : string) (total : option Q)
| Reported (level : nat) (work : option Q) (msg : option string)
| Finished (level : nat).

(** A [ChildMonitor] object (monitor.py 183-187). *)
Record child := { c_partial : Q; c_total : option Q; c_label : option string }.
Definition new_child (w : Q) : child := {| c_partial := w; c_total := None; c_label := None |}.

(** The monitor passed to a task is the list of its [ChildMonitor] objects up
    to the root; the root is any monitor whose [progress]/[done] do not raise
    and whose [start] rejects the empty label (like [ConsoleMonitor]). *)
Definition stack := list child.

(** The rest of the program state: trace of calls, cancellation flag of the
    root ([ConsoleMonitor._cancelled], 304-308). *)
Record world := { w_trace : list event; w_cancel : bool }.
Definition record (e : event) (w : world) : world :=
  {| w_trace := w_trace w ++ [e]; w_cancel := w_cancel w |}.

(** '%s: %s' % (label, msg) (monitor.py 199); [%s] of [None] is "None". *)
Definition sub_msg (label : option string) (msg : string) : string :=
  (match label with Some l => l | None => "None" end ++ ": " ++ msg)%string.

(** [progress] (monitor.py 160-161, 197-200): a child forwards the scaled work
    to its parent. *)
Fixpoint progress (s : stack) (work : option Q) (msg : option string) (w : world)
  : world * option merr :=
  let w := record (Reported (length s) work msg) w in
  match s with
  | [] => (w, None)
  | c :: parents =>
      let pmsg := option_map (sub_msg (c_label c)) msg in
      match work with
      | None => progress parents None pmsg w
      | Some x =>
          match c_total c with
          | None => (w, Some EType)
          | Some t =>
              if Qeq_bool t 0 then (w, Some EZeroDiv)
              else progress parents (Some (c_partial c * (x / t))%Q) pmsg w
          end
      end
  end.

Definition zero_if (total : option Q) : option Q :=
  match total with Some _ => Some 0%Q | None => None end.

(** [start] (monitor.py 189-195; root: 234-244).  Returns the updated
    monitor. *)
Definition start (s : stack) (label : string) (total : option Q) (w : world)
  : world * stack * option merr :=
  if (label =? "")%string then (w, s, Some EValue)
  else
    match s with
    | [] => (record (Started 0 label total) w, s, None)
    | c :: parents =>
        let c' := {| c_partial := c_partial c; c_total := total; c_label := Some label |} in
        let '(w1, e) := progress parents (zero_if total) (Some label) w in
        match e with
        | Some x => (w1, c' :: parents, Some x)
        | None => (record (Started (length s) label total) w1, c' :: parents, None)
        end
    end.

(** [done] (monitor.py 202-204; root: 257-264). *)
Definition done (s : stack) (w : world) : world * option merr :=
  let w := record (Finished (length s)) w in
  match s with
  | [] => (w, None)
  | c :: parents => progress parents (zero_if (c_total c)) (c_label c) w
  end.

(** Tasks: programs that use the monitor they are given as documented
    (monitor.py 48-64).  [TStarting] is [with monitor.starting(...)],
    [TChild w t] is [t(monitor=monitor.child(w))], [TIfCancelled] tests
    [monitor.is_cancelled()]. *)
Inductive task :=
| TReturn
| TRaise (n : nat)
| TProgress (work : option Q) (msg : option string)
| TSeq (a b : task)
| TTry (a handler : task)
| TStarting (label : string) (total : option Q) (body : task)
| TChild (work : Q) (body : task)
| TCancel
| TIfCancelled (a b : task).

(** [cancel] / [is_cancelled] on a monitor with given ancestors
    (monitor.py 206-210): delegated up to the root. *)
Fixpoint cancel (s : stack) (w : world) : world :=
  match s with
  | [] => {| w_trace := w_trace w; w_cancel := true |}
  | _ :: parents => cancel parents w
  end.
Fixpoint is_cancelled (s : stack) (w : world) : bool :=
  match s with [] => w_cancel w | _ :: parents => is_cancelled parents w end.

(** Execution.  [TStarting] follows [Monitor.starting] (monitor.py 72-87):
    when [start] raises the body is not run and [done] not called; otherwise
    [done] is called whatever the body does, and an exception of [done]
    replaces the outcome. *)
Fixpoint run (t : task) (s : stack) (w : world) : world * stack * option merr :=
  match t with
  | TReturn => (w, s, None)
  | TRaise n => (w, s, Some (ETask n))
  | TProgress work msg => let '(w1, e) := progress s work msg w in (w1, s, e)
  | TSeq a b =>
      let '(w1, s1, e) := run a s w in
      match e with Some x => (w1, s1, Some x) | None => run b s1 w1 end
  | TTry a h =>
      let '(w1, s1, e) := run a s w in
      match e with Some _ => run h s1 w1 | None => (w1, s1, None) end
  | TStarting label total body =>
      let '(w1, s1, e) := start s label total w in
      match e with
      | Some x => (w1, s1, Some x)
      | None =>
          let '(w2, s2, r) := run body s1 w1 in
          let '(w3, e3) := done s2 w2 in
          (w3, s2, match e3 with Some x => Some x | None => r end)
      end
  | TChild wk body =>
      let '(w1, _, e) := run body (new_child wk :: s) w in (w1, s, e)
  | TCancel => (cancel s w, s, None)
  | TIfCancelled a b => if is_cancelled s w then run a s w else run b s w
  end.

(** Note: in [TChild] the ancestors cannot be changed by the body, since a
    [ChildMonitor] only calls [progress]/[cancel]/[is_cancelled] of its parent;
    the returned ancestors are dropped by definition here and
    [MonProofs.run_tail] shows that nothing is lost. *)

(** * Console monitor (monitor.py 222-312) *)
Definition text := list ascii.
Definition txt (s : string) : text := list_ascii_of_string s.
Definition cr : ascii := "013"%char.
Definition nl : ascii := "010"%char.
Definition sp : ascii := " "%char.

Record console := {
  k_inline : bool;              (* _stay_in_line *)
  k_bar : nat;                  (* _progress_bar_size, 0 for None *)
  k_label : text;
  k_worked : option Q;
  k_total : option Q;
  k_pct : option Z;
  k_cancelled : bool;
  k_last : nat;                 (* _last_line_len, 0 for None *)
  k_msg : option text
}.
Definition console_init (inline : bool) (bar : nat) : console :=
  {| k_inline := inline; k_bar := bar; k_label := []; k_worked := None; k_total := None;
     k_pct := None; k_cancelled := false; k_last := 0; k_msg := None |}.

(** Python [round]: to nearest, ties to even. *)
Definition py_round (q : Q) : Z :=
  let n := Qnum q in let d := Zpos (Qden q) in
  let f := (n / d)%Z in
  let r2 := (2 * (n mod d))%Z in
  if (r2 <? d)%Z then f
  else if (d <? r2)%Z then (f + 1)%Z
  else if Z.even f then f else (f + 1)%Z.

(** [int(x)]: truncation toward zero. *)
Definition py_int (q : Q) : Z := Z.quot (Qnum q) (Zpos (Qden q)).

(** '%3d%%' % percentage. *)
Definition dec (z : Z) : text := txt (NilZero.string_of_int (Z.to_int z)).
Definition pct_text (p : Z) : text :=
  let d := dec p in repeat sp (3 - length d) ++ d ++ txt "%".

(** 273-276: [int(size * percentage / 100 + 0.5)]; a negative repeat count is
    the empty string in Python. *)
Definition bar_text (size : nat) (p : Z) : text :=
  match size with
  | 0 => []
  | _ =>
    let done_count := py_int (inject_Z (Z.of_nat size * p) / 100 + (1 # 2))%Q in
    let remaining := (Z.of_nat size - done_count)%Z in
    txt "[" ++ repeat "#"%char (Z.to_nat done_count) ++ repeat "-"%char (Z.to_nat remaining) ++ txt "] "
  end.

(** 278-285.  [msg] is tested for truth: the empty message counts as none. *)
Definition truthy (m : option text) : option text :=
  match m with Some (c :: t) => Some (c :: t) | _ => None end.
Definition line_of (k : console) (p : option Z) (m : option text) : text :=
  match p, truthy m with
  | Some z, Some t => k_label k ++ txt ": " ++ bar_text (k_bar k) z ++ pct_text z ++ txt " " ++ t
  | Some z, None => k_label k ++ txt ": " ++ bar_text (k_bar k) z ++ pct_text z
  | None, Some t => k_label k ++ txt ": " ++ t
  | None, None => k_label k ++ txt ": progress"
  end.

(** [_report_progress] (266-298): text written and new state. *)
Definition report (k : console) (p : option Z) (m : option text) : text * console :=
  let line := line_of k p m in
  if k_inline k then
    (cr :: line ++ (if k_last k =? 0 then [] else repeat sp (k_last k - length line)),
     {| k_inline := true; k_bar := k_bar k; k_label := k_label k; k_worked := k_worked k;
        k_total := k_total k; k_pct := k_pct k; k_cancelled := k_cancelled k;
        k_last := length line; k_msg := k_msg k |})
  else (line ++ [nl], k).

(** [_calc_percentage] (300-302).  Division by a total of zero raises. *)
Definition calc_pct (k : console) : res merr (option Z) :=
  match k_worked k, k_total k with
  | Some x, Some t => if Qeq_bool t 0 then Err EZeroDiv else Ok (Some (py_round (100 * x / t)))
  | _, _ => Ok None
  end.

(** [start] (234-244). *)
Definition k_start (k : console) (label : text) (total : option Q) : text * console * option merr :=
  match label with
  | [] => ([], k, Some EValue)
  | _ =>
    let k1 := {| k_inline := k_inline k; k_bar := k_bar k; k_label := label; k_worked := Some 0%Q;
                 k_total := total; k_pct := None; k_cancelled := k_cancelled k;
                 k_last := k_last k; k_msg := k_msg k |} in
    let '(o, k2) := report k1 None (Some (txt "started")) in (o, k2, None)
  end.

Definition opt_eqb {A} (eqb : A -> A -> bool) (a b : option A) : bool :=
  match a, b with
  | Some x, Some y => eqb x y
  | None, None => true
  | _, _ => false
  end.
Fixpoint text_eqb (a b : text) : bool :=
  match a, b with
  | [], [] => true
  | x :: a', y :: b' => Ascii.eqb x y && text_eqb a' b'
  | _, _ => false
  end.

Definition set_pm (k : console) (p : option Z) (m : option text) : console :=
  {| k_inline := k_inline k; k_bar := k_bar k; k_label := k_label k; k_worked := k_worked k;
     k_total := k_total k; k_pct := p; k_cancelled := k_cancelled k; k_last := k_last k; k_msg := m |}.
Definition set_worked (k : console) (x : Q) : console :=
  {| k_inline := k_inline k; k_bar := k_bar k; k_label := k_label k; k_worked := Some x;
     k_total := k_total k; k_pct := k_pct k; k_cancelled := k_cancelled k; k_last := k_last k;
     k_msg := k_msg k |}.

(** [progress] (246-255).  Before any [start], [None += work] raises. *)
Definition k_progress (k : console) (work : option Q) (m : option text) : text * console * option merr :=
  match work with
  | None =>
      let '(o, k2) := if negb (opt_eqb Z.eqb None (k_pct k)) || negb (opt_eqb text_eqb m (k_msg k))
                      then report k None m else ([], k) in
      (o, set_pm k2 None m, None)
  | Some x =>
      match k_worked k with
      | None => ([], k, Some EType)
      | Some y =>
          let k1 := set_worked k (y + x)%Q in
          match calc_pct k1 with
          | Err e => ([], k1, Some e)
          | Ok p =>
              let '(o, k2) := if negb (opt_eqb Z.eqb p (k_pct k1)) || negb (opt_eqb text_eqb m (k_msg k1))
                              then report k1 p m else ([], k1) in
              (o, set_pm k2 p m, None)
          end
      end
  end.

(** [done] (257-264). *)
Definition k_done (k : console) : text * console :=
  let m := if k_cancelled k then txt "cancelled"
           else match k_msg k with None => txt "done" | Some t => t end in
  let '(o, k2) := report k None (Some m) in
  (o ++ (if k_inline k then [nl] else []), k2).

Inductive kcall := KStart (label : text) (total : option Q) | KProgress (work : option Q) (m : option text) | KDone | KCancel.

Definition set_cancelled (k : console) : console :=
  {| k_inline := k_inline k; k_bar := k_bar k; k_label := k_label k; k_worked := k_worked k;
     k_total := k_total k; k_pct := k_pct k; k_cancelled := true; k_last := k_last k; k_msg := k_msg k |}.

Definition k_step (k : console) (c : kcall) : text * console * option merr :=
  match c with
  | KStart l t => k_start k l t
  | KProgress w m => k_progress k w m
  | KDone => let '(o, k') := k_done k in (o, k', None)
  | KCancel => ([], set_cancelled k, None)
  end.
