(** A file system as a finite tree, POSIX path handling, and the operations of
    [os], [os.path] and [shutil] that dedop/ui/workspace_manager.py uses.

    This file is Python / operating system semantics, not repository code.
    Simplifications: no symbolic links, no permissions, no I/O faults and no
    other process changing the tree, so an operation fails only for a
    structural reason (missing parent, file in place of a directory, existing
    target).  File contents are strings.  [..] is resolved lexically.  File
    names are arbitrary non-empty strings (no length limit, NUL is not
    special). *)
From Coq Require Import Ascii String List Bool Arith.
From Coq Require Import DecimalString.
From Verif Require Import Common Dict.
Import ListNotations.
Open Scope string_scope.
Open Scope list_scope.

Inductive node :=
| NFile (content : string)
| NDir (entries : dict node).

(** An absolute, resolved path: the components below the root. *)
Definition path := list string.

Definition path_eqb (p q : path) : bool :=
  if list_eq_dec string_dec p q then true else false.

Fixpoint is_prefix (p q : path) : bool :=
  match p, q with
  | [], _ => true
  | a :: p', b :: q' => (a =? b)%string && is_prefix p' q'
  | _ :: _, [] => false
  end.

(** * Path strings: [str.split('/')] and [os.path.join] + resolution *)

Definition slash : ascii := "/"%char.

Fixpoint split_slash (s : string) : list string :=
  match s with
  | EmptyString => [EmptyString]
  | String c r =>
      if Ascii.eqb c slash then EmptyString :: split_slash r
      else match split_slash r with
           | [] => [String c EmptyString]
           | h :: t => String c h :: t
           end
  end.

Fixpoint resolve (base : path) (comps : list string) : path :=
  match comps with
  | [] => base
  | c :: r =>
      if (c =? "") || (c =? ".") then resolve base r
      else if c =? ".." then resolve (removelast base) r
      else resolve (base ++ [c]) r
  end.

(** [os.path.join(base, s)]: an absolute [s] replaces [base]. *)
Definition join (base : path) (s : string) : path :=
  match s with
  | String c _ => if Ascii.eqb c slash then resolve [] (split_slash s)
                  else resolve base (split_slash s)
  | EmptyString => base
  end.

Fixpoint has_char (c : ascii) (s : string) : bool :=
  match s with
  | EmptyString => false
  | String a r => Ascii.eqb c a || has_char c r
  end.

(** A name that is one component of a path. *)
Definition plain (s : string) : bool :=
  negb (has_char slash s) && negb (s =? "") && negb (s =? ".") && negb (s =? "..").

(** * Reading the tree *)

Fixpoint lookup (p : path) (n : node) : option node :=
  match p with
  | [] => Some n
  | c :: r => match n with
              | NFile _ => None
              | NDir d => match dget c d with
                          | Some ch => lookup r ch
                          | None => None
                          end
              end
  end.

Definition exists_at (p : path) (n : node) : bool :=
  match lookup p n with Some _ => true | None => false end.
Definition is_dir (p : path) (n : node) : bool :=
  match lookup p n with Some (NDir _) => true | _ => false end.
Definition is_file (p : path) (n : node) : bool :=
  match lookup p n with Some (NFile _) => true | _ => false end.
(** [os.listdir]: [None] is an OSError.  The order is the order of the entries
    in the tree, i.e. arbitrary. *)
Definition listdir (p : path) (n : node) : option (list string) :=
  match lookup p n with Some (NDir d) => Some (keys d) | _ => None end.
Definition nonempty_dir (p : path) (n : node) : bool :=
  match lookup p n with Some (NDir (_ :: _)) => true | _ => false end.

(** * Changing the tree *)

Definition ddel {V} (k : string) (d : dict V) : dict V :=
  filter (fun kv => negb (k =? fst kv)%string) d.

(** Replace what is at [p] by [v] ([None]: remove).  [mk]: create missing
    parent directories.  [None]: a parent is missing or is a file. *)
Fixpoint write (mk : bool) (p : path) (v : option node) (n : node) : option node :=
  match p with
  | [] => v
  | c :: r =>
      match n with
      | NFile _ => None
      | NDir d =>
          match r with
          | [] => Some (NDir (match v with Some x => dset c x d | None => ddel c d end))
          | _ :: _ =>
              match dget c d with
              | Some ch => match write mk r v ch with
                           | Some ch' => Some (NDir (dset c ch' d))
                           | None => None
                           end
              | None => if mk then
                          match write mk r v (NDir []) with
                          | Some ch' => Some (NDir (dset c ch' d))
                          | None => None
                          end
                        else None
              end
          end
      end
  end.

(** [os.makedirs(p)] for a missing [p]. *)
Definition makedirs (p : path) (n : node) : option node := write true p (Some (NDir [])) n.
(** [os.mkdir(p)] *)
Definition mkdir (p : path) (n : node) : option node :=
  if exists_at p n then None else write false p (Some (NDir [])) n.
(** [shutil.rmtree(p)] *)
Definition rmtree (p : path) (n : node) : option node :=
  if is_dir p n then write false p None n else None.
(** [os.remove(p)] *)
Definition remove (p : path) (n : node) : option node :=
  if is_file p n then write false p None n else None.
(** [open(p, 'w').write(s)] *)
Definition write_file (p : path) (s : string) (n : node) : option node :=
  if is_dir p n then None else write false p (Some (NFile s)) n.
(** [open(p, 'r+')], write, truncate: the file must exist. *)
Definition rewrite_file (p : path) (s : string) (n : node) : option node :=
  if is_file p n then write false p (Some (NFile s)) n else None.
Definition read_file (p : path) (n : node) : option string :=
  match lookup p n with Some (NFile s) => Some s | _ => None end.
(** [shutil.copytree(src, dst)]: fails if [dst] exists; makes parents. *)
Definition copytree (src dst : path) (n : node) : option node :=
  match lookup src n with
  | Some (NDir d) => if exists_at dst n then None else write true dst (Some (NDir d)) n
  | _ => None
  end.
(** [os.rename(src, dst)] (POSIX rename): replaces a file by a file and an
    empty directory by a directory. *)
Definition os_rename (src dst : path) (n : node) : option node :=
  match lookup src n with
  | None => None
  | Some x =>
      if path_eqb src dst then Some n
      else if is_prefix src dst then None
      else match lookup dst n, x with
           | None, _ | Some (NFile _), NFile _ | Some (NDir []), NDir _ =>
               match write false dst (Some x) n with
               | Some n1 => write false src None n1
               | None => None
               end
           | _, _ => None
           end
  end.
(** [shutil.move(src, dst)]: into [dst] if it is a directory; if the rename
    fails a directory is copied (not into itself) and removed.  A file is
    copied by [copy2], which fails in the cases where the rename fails. *)
Definition move (src dst : path) (n : node) : option node :=
  match lookup src n with
  | None => None
  | Some _ =>
      if is_dir dst n && path_eqb src dst then os_rename src dst n
      else
        let into := is_dir dst n in
        let real := if into then dst ++ [last src ""] else dst in
        if into && exists_at real n then None
        else match os_rename src real n with
             | Some n' => Some n'
             | None =>
                 if is_dir src n then
                   if is_prefix src real then None
                   else match copytree src real n with
                        | Some n1 => rmtree src n1
                        | None => None
                        end
                 else None
             end
  end.
(** [shutil.copy(src, dst)]: into [dst] if it is a directory; fails for a
    directory as source and for a file copied onto itself. *)
Definition copy_file (src dst : path) (n : node) : option node :=
  let real := if is_dir dst n then dst ++ [last src ""] else dst in
  if path_eqb src real then None
  else match lookup src n with
       | Some (NFile s) => write_file real s n
       | _ => None
       end.

(** * Computations on a tree that may fail *)

Inductive err :=
| EWs      (* WorkspaceError *)
| EOs      (* OSError not caught by the manager *)
| EType    (* TypeError, e.g. [x in None] *)
| EValue   (* ValueError / KeyError from reading a configuration *)
| EProc    (* ProcessorException *)
| ECmd.    (* cate.util.cli.CommandError *)

Definition M (A : Type) := node -> node * res err A.
Definition ret {A} (a : A) : M A := fun n => (n, Ok a).
Definition fail {A} (e : err) : M A := fun n => (n, Err e).
Definition bindM {A B} (m : M A) (f : A -> M B) : M B :=
  fun n => match m n with
           | (n', Ok a) => f a n'
           | (n', Err e) => (n', Err e)
           end.
Definition thenM {A B} (m : M A) (k : M B) : M B := bindM m (fun _ => k).
(** read the current tree *)
Definition look {A} (f : node -> A) : M A := fun n => (n, Ok (f n)).
(** perform a file operation; its failure is reported as [e] *)
Definition fs (e : err) (f : node -> option node) : M unit :=
  fun n => match f n with Some n' => (n', Ok tt) | None => (n, Err e) end.
Definition need {A} (e : err) (o : option A) : M A :=
  match o with Some a => ret a | None => fail e end.
(** [for x in l: f x] *)
Fixpoint forM {A} (f : A -> M unit) (l : list A) : M unit :=
  match l with
  | [] => ret tt
  | x :: r => thenM (f x) (forM f r)
  end.

Notation "x <- m ;; k" := (bindM m (fun x => k)) (at level 61, m at next level, right associativity).
Notation "m ;;; k" := (thenM m k) (at level 61, right associativity).

(** * Strings *)

(** [sorted(names)]: by code points. *)
Fixpoint insert_s (x : string) (l : list string) : list string :=
  match l with
  | [] => [x]
  | y :: r => if (x <=? y)%string then x :: l else y :: insert_s x r
  end.
Fixpoint sort_s (l : list string) : list string :=
  match l with
  | [] => []
  | x :: r => insert_s x (sort_s r)
  end.

(** ['%d' % n] *)
Definition dec (n : nat) : string := NilEmpty.string_of_uint (Nat.to_uint n).

(** [s.endswith(e)] *)
Definition ends_with (e s : string) : bool :=
  let k := String.length s - String.length e in
  (String.length e <=? String.length s)%nat &&
  (substring k (String.length e) s =? e)%string.

(** [x in l] for strings *)
Definition mem_s (x : string) (l : list string) : bool := existsb (String.eqb x) l.

Definition nl : ascii := ascii_of_nat 10.
Definition cr : ascii := ascii_of_nat 13.

(** [fp.readline()] of a file opened in text mode (universal newlines). *)
Fixpoint readline (s : string) : string :=
  match s with
  | EmptyString => EmptyString
  | String c r => if Ascii.eqb c nl || Ascii.eqb c cr then String nl EmptyString
                  else String c (readline r)
  end.
