(** What can be read off the text about a workspace. *)
From Coq Require Import String Ascii List NArith.
From Verif Require Import Common FigModel InfoModel.
Import ListNotations.
Local Open Scope string_scope.
Local Open Scope list_scope.

(** A text without line breaks. *)
Fixpoint one_line (s : string) : Prop := match s with "" => True | String c r => c <> newline /\ one_line r end.
(** All names are such texts. *)
Definition neat (d : disk) (i : info) : Prop :=
  one_line (i_dir i) /\ one_line (i_config i) /\ (forall x, In x (i_spaces i) \/ In x (i_configs i) -> one_line x) /\
  forall p l x, d_list d p = Some l -> In x l -> one_line x.
(** The files of a directory with their sizes in MiB, rounded down. *)
Definition holds (d : disk) (dir : string) (l : list (string * N)) : Prop :=
  exists names, d_list d dir = Some names /\ length l = length names /\
    forall k p m, nth_error l k = Some (p, m) -> exists x n, nth_error names k = Some x /\ p = os_join dir x /\ d_size d p = Some n /\
      (m * 2 ^ 20 <= n < (m + 1) * 2 ^ 20)%N.
(** The line of a file. *)
Definition shown (e : string * N) : string := ("  " ++ fst e ++ String (ascii_of_nat 9) (String (ascii_of_nat 9) (decimal (snd e) ++ " MiB")))%string.
Definition same_marks (c c' : string) (l : list string) : Prop := forall x, In x l -> (x = c <-> x = c').
