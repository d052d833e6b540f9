(** Fetching what is printed (dedop/util/fetchstd.py 7-39).  Definitions only. *)
From Coq Require Import String List Arith Bool.
Import ListNotations.
Local Open Scope string_scope.

(** What a program does to the streams: printing to either, raising an exception,
    closing either, and a block [with fetch_std_streams()] followed by more. *)
Inductive prog :=
| Done
| Raise
| Print (s : string) (next : prog)
| Complain (s : string) (next : prog)
| CloseOut (next : prog)
| CloseErr (next : prog)
| Fetch (body next : prog).

(** A stream: its text, and whether it has been closed.  All streams made so far, and
    those that [sys.stdout] and [sys.stderr] name. *)
Record stream := mk_stream { s_text : string; s_closed : bool }.
Record state := mk_state { streams : list stream; s_out : nat; s_err : nat }.
Definition at_ (i : nat) (st : state) : stream := nth i (streams st) (mk_stream "" true).
Fixpoint update (l : list stream) (i : nat) (x : stream) : list stream :=
  match l, i with [], _ => [] | _ :: r, O => x :: r | y :: r, S i => y :: update r i x end.
Definition set_stream (i : nat) (x : stream) (st : state) : state := mk_state (update (streams st) i x) (s_out st) (s_err st).
(** [write] and [flush] raise ValueError on a closed stream: [None]. *)
Definition write (i : nat) (s : string) (st : state) : option state :=
  if s_closed (at_ i st) then None else Some (set_stream i (mk_stream (s_text (at_ i st) ++ s) false) st).
Definition flushes (st : state) : bool := negb (s_closed (at_ (s_out st) st)) && negb (s_closed (at_ (s_err st) st)).
Definition close (i : nat) (st : state) : state := set_stream i (mk_stream (s_text (at_ i st)) true) st.
(** 28-29: two new streams take the place of the present ones. *)
Definition redirected (st : state) : state :=
  mk_state (streams st ++ [mk_stream "" false; mk_stream "" false]) (length (streams st)) (S (length (streams st))).

(** The state after the program, and whether it raised.  Of a [with] block: 22-23,
    25-29, the body, then the [finally] part 33-38, which does not get to the old
    streams when flushing raises. *)
Fixpoint run (p : prog) (st : state) : state * bool :=
  match p with
  | Done => (st, false)
  | Raise => (st, true)
  | Print s next => match write (s_out st) s st with Some st' => run next st' | None => (st, true) end
  | Complain s next => match write (s_err st) s st with Some st' => run next st' | None => (st, true) end
  | CloseOut next => run next (close (s_out st) st)
  | CloseErr next => run next (close (s_err st) st)
  | Fetch body next =>
      if flushes st then
        let '(st1, raised) := run body (redirected st) in
        if flushes st1 then
          let st2 := mk_state (streams st1) (s_out st) (s_err st) in
          if raised then (st2, true) else run next st2
        else (st1, true)
      else (st, true)
  end.
