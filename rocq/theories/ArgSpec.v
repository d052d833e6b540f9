(** What a command line is meant to say. *)
From Coq Require Import String Ascii List Arith Bool.
From Verif Require Import Common ArgModel.
Import ListNotations.
Open Scope string_scope.
Open Scope list_scope.

(** A word that does not begin with a minus sign. *)
Definition word (s : string) : Prop := forall r, s <> String "-" r.

(** One option as the user means it. *)
Inductive item :=
| IFlag (o : opt)
| IValue (o : opt) (v : string)
| IMany (o : opt) (vs : list string).
Definition item_opt (i : item) : opt := match i with IFlag o | IValue o _ | IMany o _ => o end.
Definition item_value (i : item) : value :=
  match i with IFlag _ => VBool true | IValue _ v => VStr v | IMany _ vs => VList vs end.
Definition item_kind (i : item) : kind :=
  match i with IFlag _ => Flag | IValue _ _ => Value | IMany _ _ => Many end.
(** The ways to write the name of an option. *)
Inductive spelt (o : opt) : string -> Prop :=
| spelt_short c : o_short o = Some c -> spelt o (String "-" (String c ""))
| spelt_long : spelt o ("--" ++ o_long o)%string.
(** The ways to write an option. *)
Inductive written : item -> list string -> Prop :=
| w_flag o s : spelt o s -> written (IFlag o) [s]
| w_value o s v : spelt o s -> word v -> written (IValue o v) [s; v]
| w_equal o v : written (IValue o v) [("--" ++ o_long o ++ "=" ++ v)%string]
| w_joined o c d r : o_short o = Some c -> d <> "="%char ->
    written (IValue o (String d r)) [String "-" (String c (String d r))]
| w_many o s vs : spelt o s -> Forall word vs -> written (IMany o vs) (s :: vs).
Inductive all_written : list item -> list string -> Prop :=
| aw_nil : all_written [] []
| aw_cons i its ws ws' : written i ws -> all_written its ws' -> all_written (i :: its) (ws ++ ws').

(** The options belong to the parser. *)
Definition belongs (P : parser) (its : list item) : Prop :=
  Forall (fun i => In (item_opt i) (p_opts P) /\ o_kind (item_opt i) = item_kind i) its.
(** The last option does not take all words that follow. *)
Definition closed (its : list item) : Prop :=
  forall its' o vs, its <> its' ++ [IMany o vs].

(** How many words a positional takes. *)
Inductive fits : nargs -> list string -> value -> Prop :=
| f_one s : fits One [s] (VStr s)
| f_none : fits Opt [] VNone
| f_opt s : fits Opt [s] (VStr s)
| f_star l : fits Star l (VList l)
| f_plus s l : fits Plus (s :: l) (VList (s :: l)).
(** [l] is shared among the positionals, in order; [ms] are their values. *)
Inductive shared : list pos -> list string -> list (list string) -> list value -> Prop :=
| sh_nil : shared [] [] [] []
| sh_cons p ps a l m parts ms : fits (a_nargs p) a m -> shared ps l parts ms ->
    shared (p :: ps) (a ++ l) (a :: parts) (m :: ms).
(** earlier positionals come first *)
Inductive at_least : list (list string) -> list (list string) -> Prop :=
| al_nil : at_least [] []
| al_more a b r r' : length b < length a -> at_least (a :: r) (b :: r')
| al_same a b r r' : length a = length b -> at_least r r' -> at_least (a :: r) (b :: r').
Definition best (ps : list pos) (l : list string) (parts : list (list string)) (ms : list value) : Prop :=
  shared ps l parts ms /\ forall parts' ms', shared ps l parts' ms' -> at_least parts parts'.

(** What an option ends up as: the last mention counts. *)
Fixpoint mentioned (d : string) (its : list item) : option value :=
  match its with
  | [] => None
  | i :: r => match mentioned d r with
              | Some v => Some v
              | None => if o_dest (item_opt i) =? d then Some (item_value i) else None
              end
  end.
Definition unmentioned (k : kind) : value := match k with Flag => VBool false | _ => VNone end.
Definition means (P : parser) (its : list item) (ms : list value) (n : ns) : Prop :=
  (forall o, In o (p_opts P) ->
     n (o_dest o) = Some (match mentioned (o_dest o) its with Some v => v | None => unmentioned (o_kind o) end)) /\
  map (fun p => n (a_dest p)) (p_pos P) = map Some ms.

(** Parsers whose options and attributes are told apart by their names. *)
Fixpoint no_equal (s : string) : bool :=
  match s with "" => true | String c r => negb (Ascii.eqb c "="%char) && no_equal r end.
Definition distinct (P : parser) : Prop :=
  NoDup (map o_long (opts_of P)) /\
  (forall o o' c, In o (opts_of P) -> In o' (opts_of P) -> o_short o = Some c -> o_short o' = Some c -> o = o') /\
  (forall o, In o (opts_of P) -> o_long o <> "" /\ no_equal (o_long o) = true /\ o_short o <> Some "-"%char) /\
  (forall o, In o (p_opts P) -> o_kind o <> Help) /\
  NoDup (map o_dest (p_opts P) ++ map a_dest (p_pos P)).
