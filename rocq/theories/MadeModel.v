(** Model of what "dedop run" leaves in the file system: the processor of
    dedop/proc/sar/processor.py and the one for tests of
    dedop/model/processor.py, as steps of the run command (CliModel.run).

    Simplifications: what a product says is given by an arbitrary function
    [chain] of the three configuration texts, the name of the input and its
    content (times of day are printed, not written); a product appears with
    its final content (the file is created empty and filled while
    processing), also when processing fails half way ([o_err]). *)
From Coq Require Import Ascii String List Bool Arith.
From Verif Require Import Common Dict FsModel WsModel NameModel CliModel.
Import ListNotations.
Open Scope string_scope.
Open Scope list_scope.

(** What processing one input gives: the two products and an exception that
    ended it early. *)
Record outcome := { o_l1b : string; o_l1bs : string; o_err : option err }.

Definition texts := (string * string * string)%type.

Section Made.
(** Building a processor from its texts (CHD, CNF, CST) may fail. *)
Variable usable : texts -> option err.
(** Processing; [Err]: before the products are created (the input cannot be
    opened). *)
Variable chain : texts -> string -> string -> res err outcome.

Definition read (p : path) : M string := s <- look (read_file p) ;; need EOs s.
(** dedop/proc/sar/processor.py:56-58 *)
Definition read_texts (j : job) : M texts :=
  c <- read (j_cst j) ;; h <- read (j_chd j) ;; f <- read (j_cnf j) ;; ret (h, f, c).
(** dedop/proc/sar/processor.py:40-104 *)
Definition build (j : job) (_ : list event) : M unit :=
  t <- read_texts j ;; match usable t with Some e => fail e | None => ret tt end.

(** [os.makedirs(p, exist_ok=True)] *)
Definition make_dir (p : path) : M unit :=
  d <- look (is_dir p) ;;
  if d then ret tt
  else ex <- look (exists_at p) ;; if ex then fail EOs else fs EOs (makedirs p).
(** dedop/data/output/netcdf_writer.py:96-100: make the folder, create the
    file *)
Definition make (p : path) (s : string) : M unit :=
  make_dir (removelast p) ;;; fs EOs (write_file p s).
(** dedop/proc/sar/processor.py:106-176, 278-347.  The texts are read again here
    although the processor keeps them from its construction; a run does not
    change them (C127_exactly). *)
Definition processing (j : job) (p : path) (_ : list event) : M unit :=
  s <- read p ;;
  t <- read_texts j ;;
  match chain t (last p "") s with
  | Err e => fail e
  | Ok o =>
      make (l1b_path (j_out j) (j_name j) (last p "")) (o_l1b o) ;;;
      (if j_skip j then ret tt
       else make (l1bs_path (j_out j) (j_name j) (last p "")) (o_l1bs o)) ;;;
      match o_err o with Some e => fail e | None => ret tt end
  end.
End Made.

(** * dedop/model/processor.py: DummyProcessor *)

(** [s.upper()] (ASCII) *)
Definition up (c : ascii) : ascii :=
  let k := nat_of_ascii c in
  if (97 <=? k)%nat && (k <=? 122)%nat then ascii_of_nat (k - 32) else c.
Fixpoint upper (s : string) : string :=
  match s with
  | EmptyString => EmptyString
  | String c r => String (up c) (upper r)
  end.
(** [t in s] *)
Fixpoint within (t s : string) : bool :=
  String.prefix t s || match s with EmptyString => false | String _ r => within t r end.
(** dedop/model/processor.py:63-67 *)
Definition dummy_total (skip : bool) : nat := 100 + (if skip then 0 else 1) + 1.
(** dedop/model/processor.py:70-75: records processed until cancelled;
    [true]: not cancelled *)
Fixpoint dummy_records (cancel : nat -> bool) (k i : nat) : nat * bool :=
  match k with
  | O => (0, true)
  | S k' => if cancel i then (0, false)
            else let '(w, c) := dummy_records cancel k' (S i) in (S w, c)
  end.
(** dedop/model/processor.py:69-90: the work reported *)
Definition dummy_work (cancel : nat -> bool) (skip : bool) : nat :=
  let '(w, c) := dummy_records cancel 100 0 in
  if c then w + (if skip then 0 else 1) + 1 else w.
(** dedop/model/processor.py:84, 88 *)
Definition dummy_name (kind run file : string) : string :=
  (kind ++ "_" ++ l1a_base file ++ "_" ++ run ++ ".nc")%string.
(** dedop/model/processor.py:52-90 *)
Definition dummy (cancel : nat -> bool) (j : job) (p : path) (_ : list event) : M unit :=
  if within "ERR" (upper (last p "")) then fail EProc
  else if snd (dummy_records cancel 100 0) then
    make_dir (j_out j) ;;;
    (if j_skip j then ret tt
     else fs EOs (write_file (join (j_out j) (dummy_name "L1BS" (j_name j) (last p ""))) "")) ;;;
    fs EOs (write_file (join (j_out j) (dummy_name "L1B" (j_name j) (last p ""))) "")
  else ret tt.
