(** Configuration documents: loading (conf/auxiliary_file_reader.py), typed
    parameter access (conf/auxiliary_parameter.py) and upgrading
    (ui/workspace_manager.py).  Definitions only. *)
From Coq Require Import String List ZArith QArith Bool.
From Verif Require Import Common Dict.
Import ListNotations.
Open Scope string_scope.
Open Scope list_scope.

(** A parsed JSON document ([json.load]; objects have distinct keys because
    the parser keeps the last of equal keys).  Numbers are exact rationals;
    NaN and infinities are left out. *)
Inductive json :=
| JNull
| JBool (b : bool)
| JNum (q : Q)
| JStr (s : string)
| JArr (l : list json)
| JObj (d : dict json).

(** Exceptions: [KeyError], [TypeError]/[AttributeError],
    [IncompatibleAuxiliaryFileError], [MissingParameterError],
    [ParameterTypeError], any other exception of a conversion. *)
Inductive cerr := EKey | EType | EIncompatible | EMissing | EParamType | EConv.

(** Python's numeric reading of a value: booleans are 0 and 1. *)
Definition num_of (j : json) : option Q :=
  match j with
  | JNum q => Some q
  | JBool b => Some (if b then 1 else 0)
  | _ => None
  end.

Definition metainf : string := "__metainf__".

(** * auxiliary_file_reader.py *)

(** [get_version] (64-74).  For a document that is not an object the exception
    raised later is not distinguished: it is reported as [EType] here
    (lists and strings pass this test as version -1 and then fail at
    [.items()], line 50, or at the version test, line 46). *)
Definition get_version (doc : json) : res cerr json :=
  match doc with
  | JObj d =>
      match dget metainf d with
      | None => Ok (JNum (-1 # 1))
      | Some (JObj m) =>
          match dget "version" m with Some v => Ok v | None => Err EKey end
      | Some _ => Err EType
      end
  | _ => Err EType
  end.

(** [param['value']] (61). *)
Definition param_value (p : json) : res cerr json :=
  match p with
  | JObj m => match dget "value" m with Some v => Ok v | None => Err EKey end
  | _ => Err EType
  end.

(** A file class: its [_fileversion] and the names of the parameters declared
    in the class body itself ([_get_parameters], 76-86: [vars(cls)]). *)
Record fclass := { f_version : Z; f_declared : list string }.

Definition declares (c : fclass) (name : string) : bool :=
  existsb (String.eqb name) (f_declared c).

(** The loop over the items (50-61): values and the names warned about. *)
Fixpoint read_items (c : fclass) (items : dict json) (acc : dict json) (warned : list string)
  : res cerr (dict json * list string) :=
  match items with
  | [] => Ok (acc, warned)
  | (name, p) :: rest =>
      if name =? metainf then read_items c rest acc warned
      else
        let warned := if declares c name then warned else warned ++ [name] in
        match param_value p with
        | Err e => Err e
        | Ok v => read_items c rest (dset name v acc) warned
        end
  end.

(** [_read_file] (35-62).  Building the error message compares the version
    with 0 (auxiliary_errors.py 59), which fails for non-numbers. *)
Definition read_file (c : fclass) (doc : json) : res cerr (dict json * list string) :=
  match get_version doc with
  | Err e => Err e
  | Ok v =>
      match num_of v with
      | None => Err EType
      | Some q =>
          if Qeq_bool q (inject_Z (f_version c)) then
            match doc with
            | JObj d => read_items c d [] []
            | _ => Err EType
            end
          else Err EIncompatible
      end
  end.

(** [__init__] (19-33): the file if given, then the keyword arguments. *)
Definition load (c : fclass) (doc : option json) (kwargs : dict json)
  : res cerr (dict json * list string) :=
  match doc with
  | None => Ok (dupdate [] kwargs, [])
  | Some j =>
      match read_file c j with
      | Err e => Err e
      | Ok (d, w) => Ok (dupdate d kwargs, w)
      end
  end.

(** [__getitem__] (88-94). *)
Definition getitem (c : fclass) (data : dict json) (name : string) : res cerr json :=
  if declares c name then
    match dget name data with Some v => Ok v | None => Err EMissing end
  else Err EMissing.

(** * auxiliary_parameter.py *)

Section Access.
(** Python values: JSON values and other objects (enum members, arrays). *)
Context {V : Type}.
Variable none : V.                    (** Python [None] *)
Variable is_none : V -> bool.

(** A descriptor.  [p_cast] and [p_type] stand for the [cast] and [type]
    attributes computed in [__init__] (16-35); [p_array] marks
    [AuxiliaryParameterArray], whose [p_cast] is [np.asarray] followed by
    [np.reshape] (113-117) and which has neither type test nor cache. *)
Record aparam := {
  p_name : string;
  p_cast : option (V -> res cerr V);
  p_type : option (V -> bool);
  p_optional : bool;
  p_default : V;
  p_array : bool
}.

(** [AuxiliaryParameter.__init__] (16-35): a cast defaults to the type; a
    parameter with a default is optional. *)
Definition mk_param (name : string) (type : option ((V -> res cerr V) * (V -> bool)))
    (cast : option (V -> res cerr V)) (optional : bool) (default : V) : aparam :=
  {| p_name := name;
     p_cast := match cast with Some f => Some f | None => option_map fst type end;
     p_type := option_map snd type;
     p_optional := optional || negb (is_none default);
     p_default := default;
     p_array := false |}.

(** The objects alive: class and data of each instance. *)
Record object := { o_class : fclass; o_data : dict V }.

(** The value caches of all descriptors (35, 49-50, 60): descriptors and
    instances are compared by identity, here by number. *)
Record state := { s_objects : list object; s_cache : list ((nat * nat) * V) }.

Fixpoint cached (pi : nat * nat) (c : list ((nat * nat) * V)) : option V :=
  match c with
  | [] => None
  | (k, v) :: r => if (fst pi =? fst k)%nat && (snd pi =? snd k)%nat then Some v else cached pi r
  end.

(** [__getitem__] (auxiliary_file_reader.py 88-94) and [_retreive_value]
    (auxiliary_parameter.py 63-73). *)
Definition retrieve (p : aparam) (o : object) : res cerr V :=
  match (if declares (o_class o) (p_name p) then dget (p_name p) (o_data o) else None) with
  | Some v => Ok v
  | None => if p_optional p then Ok (p_default p) else Err EMissing
  end.

(** The computation of a value without the cache (52-58, 111-118). *)
Definition compute (p : aparam) (o : object) : res cerr V :=
  bind (retrieve p o) (fun v =>
  bind (match p_cast p with
        | Some f => if is_none v then Ok v else f v
        | None => Ok v
        end) (fun v =>
  if p_array p then Ok v
  else match p_type p with
       | Some isinst => if isinst v then Ok v else Err EParamType
       | None => Ok v
       end)).

(** The programs considered: reads of parameter [p] of object [i], and
    assignments to the data dictionary of an object. *)
Inductive op := Get (p i : nat) | Put (i : nat) (name : string) (v : V).

Variable params : list aparam.

(** [__get__] (37-61; arrays 99-118); [None] when descriptor or object do not
    exist. *)
Definition get (p i : nat) (s : state) : state * option (res cerr V) :=
  match nth_error params p, nth_error (s_objects s) i with
  | Some d, Some o =>
      if p_array d then (s, Some (compute d o))
      else
        match cached (p, i) (s_cache s) with
        | Some v => (s, Some (Ok v))
        | None =>
            match compute d o with
            | Ok v => ({| s_objects := s_objects s; s_cache := ((p, i), v) :: s_cache s |}, Some (Ok v))
            | Err e => (s, Some (Err e))
            end
        end
  | _, _ => (s, None)
  end.

Fixpoint set_nth {A} (l : list A) (i : nat) (x : A) : list A :=
  match l, i with
  | [], _ => []
  | _ :: r, O => x :: r
  | y :: r, S j => y :: set_nth r j x
  end.

Definition exec (o : op) (s : state) : state * option (res cerr V) :=
  match o with
  | Get p i => get p i s
  | Put i name v =>
      match nth_error (s_objects s) i with
      | None => (s, None)
      | Some ob =>
          ({| s_objects := set_nth (s_objects s) i
                {| o_class := o_class ob; o_data := dset name v (o_data ob) |};
              s_cache := s_cache s |}, None)
      end
  end.

Fixpoint execs (l : list op) (s : state) : state * list (option (res cerr V)) :=
  match l with
  | [] => (s, [])
  | o :: r =>
      let '(s1, a) := exec o s in
      let '(s2, b) := execs r s1 in
      (s2, a :: b)
  end.
End Access.

(** * workspace_manager.py: upgrading *)

(** [l.remove(k)]: the first occurrence only. *)
Fixpoint remove1 (k : string) (l : list string) : list string :=
  match l with
  | [] => []
  | x :: r => if k =? x then r else x :: remove1 k r
  end.
Definition inb (k : string) (l : list string) : bool := existsb (String.eqb k) l.

(** One entry of a change's parameter list (342-349): key and code.  Entries
    other than lists starting with two strings raise or are outside the
    model ([EType]). *)
Definition change_entry (j : json) : res cerr (string * string) :=
  match j with
  | JArr (JStr k :: JStr c :: _) => Ok (k, c)
  | _ => Err EType
  end.

Fixpoint map_res {A B} (f : A -> res cerr B) (l : list A) : res cerr (list B) :=
  match l with
  | [] => Ok []
  | x :: r => bind (f x) (fun y => bind (map_res f r) (fun ys => Ok (y :: ys)))
  end.

(** One change of the changelog (338-341): skipped when not newer than the
    file; otherwise its entries. *)
Definition change_entries (current : Q) (j : json) : res cerr (list (string * string)) :=
  match j with
  | JObj d =>
      match dget "version" d with
      | None => Err EKey
      | Some v =>
          match num_of v with
          | None => Err EType
          | Some q =>
              if Qle_bool q current then Ok []
              else match dget "parameters" d with
                   | None => Err EKey
                   | Some (JArr l) => map_res change_entry l
                   | Some _ => Err EType
                   end
          end
      end
  | _ => Err EType
  end.

(** Updating the two lists (342-349). *)
Definition apply_entry (st : list string * list string) (e : string * string)
  : list string * list string :=
  let '(added, removed) := st in
  let '(k, c) := e in
  if (c =? "*") || (c =? "+") then
    (if inb k added then added else added ++ [k], if inb k removed then remove1 k removed else removed)
  else if c =? "-" then
    (if inb k added then remove1 k added else added, if inb k removed then removed else removed ++ [k])
  else (added, removed).

(** [current_config['__metainf__']['version']] with [KeyError] read as -1
    (327-330). *)
Definition current_version (cur : dict json) : res cerr Q :=
  match dget metainf cur with
  | None => Ok (-1 # 1)
  | Some (JObj m) =>
      match dget "version" m with
      | None => Ok (-1 # 1)
      | Some v => match num_of v with Some q => Ok q | None => Err EType end
      end
  | Some _ => Err EType
  end.

(** [default_config['__metainf__']['version']] and ['changelog'] (331, 336). *)
Definition default_meta (def : dict json) : res cerr (dict json) :=
  match dget metainf def with
  | None => Err EKey
  | Some (JObj m) => Ok m
  | Some _ => Err EType
  end.
Definition default_version (def : dict json) : res cerr Q :=
  bind (default_meta def) (fun m =>
  match dget "version" m with
  | None => Err EKey
  | Some v => match num_of v with Some q => Ok q | None => Err EType end
  end).
Definition default_changelog (def : dict json) : res cerr (list json) :=
  bind (default_meta def) (fun m =>
  match dget "changelog" m with
  | None => Err EKey
  | Some (JArr l) => Ok l
  | Some _ => Err EType
  end).

Fixpoint copy_keys (ks : list string) (def cur : dict json) : res cerr (dict json) :=
  match ks with
  | [] => Ok cur
  | k :: r =>
      match dget k def with
      | None => Err EKey
      | Some v => copy_keys r def (dset k v cur)
      end
  end.

(** [_do_upgrade_config] (325-353).  Exceptions leave the file unwritten, so
    the partly changed dictionary is of no interest. *)
Definition do_upgrade (cur def : dict json) : res cerr (dict json) :=
  bind (current_version cur) (fun cv =>
  bind (default_version def) (fun dv =>
  if Qle_bool dv cv then Ok cur
  else
    bind (default_changelog def) (fun log =>
    bind (map_res (change_entries cv) log) (fun entries =>
    let '(added, removed) := fold_left apply_entry (concat entries) ([], []) in
    bind (copy_keys added def cur) (fun c1 =>
    let c2 := fold_left (fun c k => if dmem k c then dpop k c else c) removed c1 in
    match dget metainf def with
    | None => Err EKey
    | Some m => Ok (dset metainf m c2)
    end))))).

(** [get_config_version] (290-292). *)
Definition config_version (cfg : dict json) : res cerr json := get_version (JObj cfg).
