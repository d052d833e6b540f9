(** Model of the commands of dedop/cli/main.py that only show something: the
    lists, the versions and the status.  Definitions only.

    A command returns the lines it prints.  Simplifications: argument parsing
    is left out, as in CliModel; the texts of the configuration file location,
    of the workspaces directory and of an operating system error are given by
    parameters.  A file's size is the number of its characters. *)
From Coq Require Import Ascii String List Bool Arith NArith ZArith.
From Coq Require Import DecimalString.
From Verif Require Import Common Dict FsModel WsModel CliModel.
Import ListNotations.
Open Scope string_scope.
Open Scope list_scope.

(** [str(n)] and ['%d' % n] for an integer *)
Definition decN (n : N) : string := NilEmpty.string_of_uint (N.to_uint n).
Definition decZ (z : Z) : string := NilEmpty.string_of_int (Z.to_int z).
(** ['%3d' % n] *)
Definition pad3 (n : nat) : string :=
  let s := dec n in
  match String.length s with
  | 1 => "  " ++ s
  | 2 => " " ++ s
  | _ => s
  end%string.
(** [', '.join(names)] *)
Fixpoint commas (l : list string) : string :=
  match l with
  | [] => ""
  | [x] => x
  | x :: r => x ++ ", " ++ commas r
  end%string.

(** dedop/cli/main.py:97-104 on a directory: the sizes of the files, and of
    the directories, one after the other *)
Fixpoint size (n : node) : N :=
  match n with
  | NFile s => N.of_nat (String.length s)
  | NDir d => (fix go (d : dict node) : N :=
                 match d with
                 | [] => 0%N
                 | (_, x) :: r => (size x + go r)%N
                 end) d
  end.
(** dedop/cli/main.py:97-104; [None]: [os.scandir] raises an OSError *)
Definition dir_size (p : path) (n : node) : option N :=
  match lookup p n with
  | Some (NDir d) => Some (size (NDir d))
  | _ => None
  end.
(** dedop/cli/main.py:1064 [size >> 20] *)
Definition mebi (n : N) : N := N.shiftr n 20.

(** dedop/cli/main.py:342-344, 598-600, 791-793, 998-1000 *)
Fixpoint lines_from (i : nat) (l : list string) : list string :=
  match l with
  | [] => []
  | x :: r => (pad3 i ++ ": " ++ x)%string :: lines_from (S i) r
  end.
(** dedop/cli/main.py:335-344 and the like: the heading depends on the number *)
Definition listing (none one many : string) (l : list string) : list string :=
  match List.length l with
  | 0 => none
  | 1 => ("1 " ++ one)%string
  | k => (dec k ++ " " ++ many)%string
  end :: lines_from 1 l.

Section Show.
Variable W : path.
(** [fnmatch.fnmatch(name, pattern)] *)
Variable fnmatch : string -> string -> bool.
(** dedop/ui/workspace_manager.py:290-292: the version in the text of a
    configuration file ([-1] without one; [None]: unusable text) *)
Variable version : string -> option Z.
(** dedop/cli/main.py:1074-1075, 1066: texts *)
Variables location W_text error_text : string.

(** dedop/cli/main.py:332-344 *)
Definition ws_list : M (list string) :=
  l <- get_ws_names W ;;
  ret (listing "no workspaces" "workspace:" "workspaces:" l).
(** dedop/cli/main.py:585-600 *)
Definition cf_list (wa : option string) : M (list string) :=
  w <- get_ws_name W wa ;;
  w <- need ECmd w ;;
  l <- get_config_names W w ;;
  let q := ("in workspace """ ++ w ++ """")%string in
  ret (listing ("no DDP configurations " ++ q) ("DDP configuration " ++ q ++ ":") ("DDP configurations " ++ q ++ ":")
         (match l with Some l => l | None => [] end)).
(** dedop/cli/main.py:777-793 *)
Definition in_list (wa : option string) (pt : pattern) : M (list string) :=
  w <- get_ws_name W wa ;;
  w <- need ECmd w ;;
  l <- get_input_names W fnmatch w pt ;;
  let q := ("in workspace """ ++ w ++ """")%string in
  ret (listing ("no inputs " ++ q) ("input " ++ q ++ ":") ("inputs " ++ q ++ ":") l).
(** dedop/cli/main.py:981-1000 *)
Definition out_list (wa ca : option string) (pt : pattern) : M (list string) :=
  wc <- get_ws_config W wa ca ;;
  w <- need ECmd (fst wc) ;;
  c <- need ECmd (given (snd wc)) ;;
  l <- get_output_names W fnmatch w c pt ;;
  let q := ("created with config """ ++ c ++ """ in workspace """ ++ w ++ """")%string in
  ret (listing ("no outputs " ++ q) ("output " ++ q ++ ":") ("outputs " ++ q ++ ":") l).

(** dedop/cli/main.py:107-111: one line *)
Definition version_line (name : string) (v : Z) : string :=
  ("    " ++ name ++ ".json: " ++ (if (-1 <? v)%Z then "version " ++ decZ v else "no-version"))%string.
(** dedop/ui/workspace_manager.py:290-298: the texts are read one after the
    other *)
Definition get_version (w c key : string) : M Z :=
  s <- look (read_file (config_file W w c key)) ;;
  s <- need EOs s ;; need EValue (version s).
(** dedop/cli/main.py:615-624; without any configuration name: TypeError *)
Definition cf_version (wa ca : option string) : M (list string) :=
  wc <- get_ws_config W wa ca ;;
  w <- need ECmd (fst wc) ;;
  c <- need EType (snd wc) ;;
  a <- get_version w c "CHD" ;; b <- get_version w c "CNF" ;; d <- get_version w c "CST" ;;
  ret [("Workspace name : " ++ w)%string; ("Config name    : " ++ c)%string; "";
       "Config versions:"; version_line "CHD" a; version_line "CNF" b; version_line "CST" d].

(** dedop/cli/main.py:1074-1079 *)
Definition report (loc size names w c : string) : list string :=
  [("configuration location:     " ++ location)%string;
   ("workspaces location:        " ++ loc)%string;
   ("workspaces total size:      " ++ size)%string;
   ("workspace names:            " ++ names)%string;
   ("current workspace:          " ++ w)%string;
   ("current DDP configuration:  " ++ c)%string].
(** dedop/cli/main.py:1041-1079 *)
Definition status (long : bool) : M (list string) :=
  let first := if long then ["warning: option ""--long"" not yet supported"] else [] in
  ex <- look (exists_at W) ;;
  if ex then
    names <- get_ws_names W ;;
    let shown := match names with [] => "(not set)" | _ => commas names end in
    cur <- get_current W ;;
    wc <- match given cur with
          | Some w => c <- get_current_config W w ;;
                      ret (w, match given c with Some c => c | None => "(not set)" end)
          | None => ret ("(not set)", "(not set)")
          end ;;
    total <- look (dir_size W) ;;
    let text := match total with
                | Some t => (decN (mebi t) ++ " MiB")%string
                | None => ("(error: " ++ error_text ++ ")")%string
                end in
    ret (first ++ report W_text text shown (fst wc) (snd wc))
  else
    ret (first ++ report "(not yet created)" "(not yet created)" "(not yet created)" "(not set)" "(not set)").
End Show.
