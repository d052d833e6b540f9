(** What the theorems about the commands that show something say. *)
From Coq Require Import Ascii String List Bool Arith NArith ZArith.
From Verif Require Import Common Dict FsModel FsProofs WsModel WsSpec.
Import ListNotations.
Open Scope string_scope.
Open Scope list_scope.

(** [l] enumerates the files of the tree [n] with their contents, each once. *)
Definition enumerates (n : node) (l : list (path * string)) : Prop :=
  NoDup (map fst l) /\ forall p s, In (p, s) l <-> lookup p n = Some (NFile s).
(** the number of characters in them *)
Definition weight (l : list (path * string)) : N :=
  fold_right (fun e t => (N.of_nat (String.length (snd e)) + t)%N) 0%N l.
(** the files below the directory [p] hold [t] characters *)
Definition weighs (p : path) (n : node) (t : N) : Prop :=
  exists x l, lookup p n = Some x /\ enumerates x l /\ weight l = t.

Fixpoint blanks (s : string) : Prop :=
  match s with
  | EmptyString => True
  | String c r => c = " "%char /\ blanks r
  end.
(** the line [l] shows name [x] under number [i], right-aligned to three
    places *)
Definition numbers (i : nat) (x l : string) : Prop :=
  exists b, l = (b ++ dec i ++ ": " ++ x)%string /\ blanks b /\
    String.length b + String.length (dec i) = Nat.max 3 (String.length (dec i)).
(** the lines after the heading show the names from 1 on, in order *)
Definition shows (names lines : list string) : Prop :=
  List.length lines = List.length names /\
  forall i x, nth_error names i = Some x -> exists l, nth_error lines i = Some l /\ numbers (S i) x l.

(** the first line of the marker file of directory [B], if it is not empty *)
Definition marked (B : path) (n : node) (x : string) : Prop :=
  exists t, lookup (B ++ [".current"]) n = Some (NFile t) /\ readline t = x /\ x <> "".
Definition unmarked (B : path) (n : node) : Prop := forall x, ~ marked B n x.
(** what the status says about the current workspace and configuration *)
Definition selection (W : path) (n : node) (w c : string) : Prop :=
  (unmarked W n /\ w = "(not set)" /\ c = "(not set)") \/
  (marked W n w /\ is_dir (W ++ [w]) n = true /\
   ((unmarked (W ++ [w; "configs"]) n /\ c = "(not set)") \/
    (marked (W ++ [w; "configs"]) n c /\ is_dir (W ++ [w; "configs"; c]) n = true))).
