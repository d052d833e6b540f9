(** Parameter declarations of algorithm classes (util/parameter.py,
    proc/sar/base_algorithm.py) and the tool configuration (util/config.py).
    Definitions only. *)
From Coq Require Import String List ZArith Bool Arith.
From Verif Require Import Common Dict.
Import ListNotations.

Section Params.
Context {V : Type}.

(** A [Parameter] (parameter.py 6-35), reduced to what the collection uses:
    name, [default_value], and [value_set] when it is not [None]. *)
Record decl := { d_name : string; d_default : V; d_value_set : option V }.

(** A Python class: identity, the [@Parameter] decorators in the order they are
    applied (bottom-up), and its bases.  A class without bases stands for one
    derived directly from [object]; [object] itself declares nothing. *)
Inductive pycls := Cls (id : nat) (decls : list decl) (bases : list pycls).

Definition c_id (c : pycls) : nat := let '(Cls i _ _) := c in i.
Definition c_decls (c : pycls) : list decl := let '(Cls _ d _) := c in d.
Definition c_bases (c : pycls) : list pycls := let '(Cls _ _ b) := c in b.

(** [Parameter.__call__] (50-54): the class's own [parameters] dictionary. *)
Definition own (c : pycls) : option (dict decl) :=
  match c_decls c with
  | [] => None
  | l => Some (fold_left (fun d p => dset (d_name p) p d) l [])
  end.

(** Python's method resolution order (C3 linearisation, language semantics). *)
Definition nonempty {A} (l : list A) : bool := match l with [] => false | _ => true end.
Definition memc (c : pycls) (l : list pycls) : bool := existsb (fun x => c_id x =? c_id c) l.
Definition candidate (ls : list (list pycls)) : option pycls :=
  find (fun h => negb (existsb (fun l => memc h (tl l)) ls))
       (flat_map (fun l => match l with [] => [] | x :: _ => [x] end) ls).
Definition drop_head (h : pycls) (l : list pycls) : list pycls :=
  match l with
  | [] => []
  | x :: r => if c_id x =? c_id h then r else l
  end.
Fixpoint merge (fuel : nat) (ls : list (list pycls)) : option (list pycls) :=
  match fuel with
  | O => None
  | S f =>
      let ls := filter nonempty ls in
      match ls with
      | [] => Some []
      | _ => match candidate ls with
             | None => None
             | Some h => option_map (cons h) (merge f (map (drop_head h) ls))
             end
      end
  end.

(** [None]: the class cannot be created (inconsistent hierarchy). *)
Fixpoint mro (c : pycls) : option (list pycls) :=
  let '(Cls _ _ bases) := c in
  match (fix go (l : list pycls) : option (list (list pycls)) :=
           match l with
           | [] => Some []
           | b :: r => match mro b, go r with
                       | Some m, Some ms => Some (m :: ms)
                       | _, _ => None
                       end
           end) bases with
  | None => None
  | Some ms =>
      let ls := ms ++ [bases] in
      option_map (cons c) (merge (S (length (concat ls))) ls)
  end.

(** [hasattr(clazz, 'parameters')] / [clazz.parameters]: the dictionary of the
    first class in resolution order that has one. *)
Fixpoint first_own (l : list pycls) : option (dict decl) :=
  match l with
  | [] => None
  | c :: r => match own c with Some d => Some d | None => first_own r end
  end.
Definition attr (c : pycls) : option (dict decl) :=
  match mro c with Some m => first_own m | None => None end.

(** [Parameter.get_parameter] (56-64). *)
Fixpoint get_parameter (c : pycls) (name : string) : option decl :=
  let here := match attr c with Some d => dget name d | None => None end in
  match here with
  | Some p => Some p
  | None =>
      let '(Cls _ _ bases) := c in
      (fix go (l : list pycls) : option decl :=
         match l with
         | [] => None
         | b :: r => match get_parameter b name with Some p => Some p | None => go r end
         end) bases
  end.

(** [Parameter._collect_parameters_from_class] (78-85) and [get_parameters]
    (66-76). *)
Fixpoint collect (c : pycls) (acc : dict decl) : dict decl :=
  let '(Cls _ _ bases) := c in
  let acc := (fix go (l : list pycls) (acc : dict decl) : dict decl :=
                match l with
                | [] => acc
                | b :: r => go r (collect b acc)
                end) bases acc in
  match attr c with Some d => dupdate acc d | None => acc end.
Definition get_parameters (c : pycls) : dict decl := collect c [].

(** [BaseAlgorithm.collect_parameter_values] (base_algorithm.py 28-40): [cnf]
    is [getattr(self.cnf, name)], [None] when it raises. *)
Definition collect_values (cnf : string -> option V) (c : pycls) : dict V :=
  fold_left (fun attrs p =>
      let attrs := match d_value_set p with Some v => dset (d_name p) v attrs | None => attrs end in
      dset (d_name p) (match cnf (d_name p) with Some v => v | None => d_default p end) attrs)
    (map snd (get_parameters c)) [].
End Params.
Arguments decl : clear implicits.
Arguments pycls : clear implicits.

(** * Tool configuration (util/config.py) *)
Section Tool.
Context {V : Type}.

(** What executing a configuration file does (69-85): assignments, an
    [Exception], or another way out such as [SystemExit]. *)
Inductive content := Loads (d : dict V) | Fails | Exits.
(** A path: nothing, a directory, a file. *)
Inductive path := Nothing | Directory | File (c : content).

(** The file system seen by a query: user and local file, and what writing the
    default file does to the user file ([write_default_config_file], 88-103;
    [None] as error: it is one of [IOError], [OSError], reported by printing;
    [w_after] is the user file afterwards, possibly partly written). *)
Record fsys := { user_file : path; local_file : path; w_after : path }.

(** [get_config] (35-66) with the module variable [_CONFIG]; [None] result:
    the interpreter exit of a configuration file escapes. *)
Definition get_config (fs : fsys) (g : option (dict V)) : option (dict V) * option (dict V) :=
  match g with
  | Some d => (g, Some d)
  | None =>
      let user := match user_file fs with Nothing => w_after fs | p => p end in
      match match user with
            | File (Loads d) => Some d
            | File Exits => None
            | _ => Some []
            end with
      | None => (Some [], None)
      | Some d =>
          match local_file fs with
          | File (Loads l) => let d' := dupdate d l in (Some d', Some d')
          | File Exits => (Some d, None)
          | _ => (Some d, Some d)
          end
      end
  end.

Inductive answer := Value (v : V) | NameError | Exited.

(** [get_config_value] (22-32). *)
Definition get_value (fs : fsys) (name : string) (default : V) (g : option (dict V))
  : option (dict V) * answer :=
  if (name =? "")%string then (g, NameError)
  else
    let '(g1, r) := get_config fs g in
    match r with
    | None => (g1, Exited)
    | Some d => (g1, Value (match dget name d with Some v => v | None => default end))
    end.

(** A sequence of queries, each with the files as they are at that time. *)
Fixpoint queries (l : list (fsys * string * V)) (g : option (dict V)) : list answer :=
  match l with
  | [] => []
  | (fs, name, default) :: r =>
      let '(g1, a) := get_value fs name default g in a :: queries r g1
  end.
End Tool.
