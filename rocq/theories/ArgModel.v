(** The command line (dedop/cli/main.py).  The parsers the commands configure
    are tables; the reading of a line by the standard library's argparse
    (Python 3.6: [ArgumentParser.parse_args], [_parse_optional],
    [_get_option_tuples], [consume_optional], [consume_positionals],
    [_match_arguments_partial], [_get_values]) is a function of a table and
    the words of the line.

    Simplifications.  The separator "--" and flags written together ("-qs")
    lead to [POut]: nothing is said about them.  All usage errors are one
    outcome.  No option of these parsers looks like a negative number, has a
    type, choices or a default of its own. *)
From Coq Require Import String Ascii List Arith Bool.
From Verif Require Import Common.
Import ListNotations.
Open Scope string_scope.

(** [nargs] of a positional: none, '?', '*', '+'. *)
Inductive nargs := One | Opt | Star | Plus.
(** [action='store_true'], one value, [nargs='*'], and the help option every
    parser has. *)
Inductive kind := Flag | Value | Many | Help.
Record opt := { o_short : option ascii; o_long : string; o_dest : string; o_kind : kind }.
Record pos := { a_dest : string; a_nargs : nargs }.
Record parser := { p_opts : list opt; p_pos : list pos }.

Inductive value := VNone | VBool (b : bool) | VStr (s : string) | VList (l : list string).
(** The attributes of the namespace. *)
Definition ns := string -> option value.
Definition set (n : ns) (d : string) (v : value) : ns :=
  fun d' => if d' =? d then Some v else n d'.

(** * Kinds of words *)

Inductive tok :=
| TArg (s : string)                             (* 'A' *)
| TOpt (o : opt) (explicit : option string)     (* 'O', known, with the part after '=' *)
| TUnknown                                      (* 'O', unknown *)
| TAmb                                          (* several options begin like this *)
| TOut.

Definition help_opt : opt :=
  {| o_short := Some "h"%char; o_long := "help"; o_dest := "help"; o_kind := Help |}.
Definition opts_of (P : parser) : list opt := help_opt :: p_opts P.
Definition short_is (c : ascii) (o : opt) : bool :=
  match o_short o with Some d => Ascii.eqb c d | None => false end.
(** before and after the first '=' *)
Fixpoint cut_eq (s : string) : string * option string :=
  match s with
  | "" => ("", None)
  | String c r => if Ascii.eqb c "="%char then ("", Some r)
                  else let '(a, b) := cut_eq r in (String c a, b)
  end.
Fixpoint has_blank (s : string) : bool :=
  match s with
  | "" => false
  | String c r => Ascii.eqb c " "%char || has_blank r
  end.
Definition digit (c : ascii) : bool :=
  (Nat.leb 48 (nat_of_ascii c) && Nat.leb (nat_of_ascii c) 57)%bool.
Fixpoint digits (s : string) : bool :=
  match s with "" => true | String c r => digit c && digits r end.
(** the part after the minus of '^-\d+$|^-\d*\.\d+$' *)
Fixpoint number (s : string) : bool :=
  match s with
  | "" => false
  | String c r =>
      if Ascii.eqb c "."%char then negb (r =? "") && digits r
      else digit c && ((r =? "") || number r)
  end.
Definition other (r : string) : tok :=
  if number r then TArg (String "-" r)
  else if has_blank r then TArg (String "-" r) else TUnknown.

(** A word that begins with two minus signs; [r] is the rest. *)
Definition lex_long (P : parser) (r : string) : tok :=
  if r =? "" then TOut else
  let '(nm, ex) := cut_eq r in
  match find (fun o => o_long o =? r) (opts_of P) with
  | Some o => TOpt o None
  | None =>
  match ex, find (fun o => o_long o =? nm) (opts_of P) with
  | Some v, Some o => TOpt o (Some v)
  | _, _ =>
  match filter (fun o => prefix nm (o_long o)) (opts_of P) with
  | [o] => TOpt o ex
  | [] => other (String "-" r)
  | _ => TAmb
  end end end.
(** A word that begins with one minus sign; [c] is the next character. *)
Definition lex_short (P : parser) (c : ascii) (r : string) : tok :=
  match find (short_is c) (opts_of P) with
  | None => other (String c r)
  | Some o =>
      match r with
      | "" => TOpt o None
      | String d t =>
          match o_kind o with
          | Value | Many => TOpt o (Some (if Ascii.eqb d "="%char then t else r))
          | Flag | Help => TOut
          end
      end
  end.
Definition lex (P : parser) (s : string) : tok :=
  match s with
  | String "-" (String "-" r) => lex_long P r
  | String "-" (String c r) => lex_short P c r
  | _ => TArg s
  end.

(** * Sharing words among positionals *)

(** The numbers of words a positional may take out of [n], best first. *)
Fixpoint down (n : nat) : list nat := match n with 0 => [0] | S m => S m :: down m end.
Definition counts (a : nargs) (n : nat) : list nat :=
  match a with
  | One => if Nat.leb 1 n then [1] else []
  | Opt => if Nat.leb 1 n then [1; 0] else [0]
  | Star => down n
  | Plus => filter (Nat.leb 1) (down n)
  end.
Fixpoint first_some {A} (l : list (option A)) : option A :=
  match l with [] => None | Some x :: _ => Some x | None :: r => first_some r end.
(** The greedy regular expression: every positional takes as much as it can,
    as long as those after it can be served. *)
Fixpoint share (sh : list nargs) (n : nat) : option (list nat) :=
  match sh with
  | [] => Some []
  | a :: r => first_some (map (fun k => option_map (cons k) (share r (n - k))) (counts a n))
  end.
(** [_match_arguments_partial]: as many positionals as possible. *)
Fixpoint partly (i : nat) (sh : list nargs) (n : nat) : list nat :=
  match share (firstn i sh) n with
  | Some c => c
  | None => match i with 0 => [] | S j => partly j sh n end
  end.
(** [_get_values] *)
Definition pos_value (a : nargs) (l : list string) : value :=
  match a, l with
  | One, s :: _ | Opt, s :: _ => VStr s
  | Opt, [] | One, [] => VNone
  | Star, _ | Plus, _ => VList l
  end.
Fixpoint give (ps : list pos) (c : list nat) (l : list string) (n : ns) : ns :=
  match ps, c with
  | p :: ps', k :: c' => give ps' c' (skipn k l) (set n (a_dest p) (pos_value (a_nargs p) (firstn k l)))
  | _, _ => n
  end.
(** [consume_positionals]: positionals left, words used, namespace. *)
Definition consume (ps : list pos) (l : list string) (n : ns) : list pos * nat * ns :=
  let c := partly (length ps) (map a_nargs ps) (length l) in
  (skipn (length c) ps, list_sum c, give ps c l n).

(** * Reading a line *)

Inductive outcome :=
| POk (n : ns)
| PErr                                          (* usage error *)
| PHelp                                         (* help is shown *)
| POut.                                         (* outside the model *)

(** the words up to the next option *)
Fixpoint run_of (ts : list tok) : list string :=
  match ts with TArg s :: r => s :: run_of r | _ => [] end.
Definition is_arg (t : tok) : bool := match t with TArg _ => true | _ => false end.
Definition needed (p : pos) : bool := match a_nargs p with One | Plus => true | _ => false end.

(** [parse_known_args]; [ex]: some words were not understood. *)
Fixpoint go (fuel : nat) (ts : list tok) (ps : list pos) (n : ns) (ex : bool) : outcome :=
  match fuel with
  | 0 => PErr
  | S f =>
      if forallb is_arg ts then
        let l := run_of ts in
        let '(ps', k, n') := consume ps l n in
        if existsb needed ps' then PErr
        else if ex || negb (Nat.eqb k (length l)) then PErr else POk n'
      else
        match ts with
        | TArg _ :: _ =>
            let l := run_of ts in
            let '(ps', k, n') := consume ps l n in
            if Nat.ltb 0 k then go f (skipn k ts) ps' n' ex
            else go f (skipn (length l) ts) ps' n' true
        | TOpt o e :: r =>
            match o_kind o, e with
            | Help, None => PHelp
            | Flag, None => go f r ps (set n (o_dest o) (VBool true)) ex
            | Help, Some _ | Flag, Some _ => PErr
            | Value, Some v => go f r ps (set n (o_dest o) (VStr v)) ex
            | Value, None =>
                match r with
                | TArg v :: r' => go f r' ps (set n (o_dest o) (VStr v)) ex
                | _ => PErr
                end
            | Many, Some v => go f r ps (set n (o_dest o) (VList [v])) ex
            | Many, None =>
                let l := run_of r in
                go f (skipn (length l) r) ps (set n (o_dest o) (VList l)) ex
            end
        | TUnknown :: r => go f r ps n true
        | _ => PErr
        end
  end.

(** The namespace before the first word. *)
Definition default_of (k : kind) : value := match k with Flag => VBool false | _ => VNone end.
Definition start (P : parser) : ns :=
  fold_left (fun n o => set n (o_dest o) (default_of (o_kind o))) (p_opts P)
    (fold_left (fun n p => set n (a_dest p) VNone) (p_pos P) (fun _ => None)).
Definition is_out (t : tok) : bool := match t with TOut => true | _ => false end.
Definition is_amb (t : tok) : bool := match t with TAmb => true | _ => false end.
Definition parse (P : parser) (argv : list string) : outcome :=
  let ts := map (lex P) argv in
  if existsb is_out ts then POut
  else if existsb is_amb ts then PErr
  else go (S (length ts)) ts (p_pos P) (start P) false.

(** * The parsers *)

Definition flag (c : ascii) (l d : string) : opt :=
  {| o_short := Some c; o_long := l; o_dest := d; o_kind := Flag |}.
Definition val (c : ascii) (l d : string) : opt :=
  {| o_short := Some c; o_long := l; o_dest := d; o_kind := Value |}.
Definition p_ (d : string) (a : nargs) : pos := {| a_dest := d; a_nargs := a |}.
Definition mk (os : list opt) (ps : list pos) : parser := {| p_opts := os; p_pos := ps |}.

(** main.py 453-456, 717-720 and 852-858 *)
Definition w_opt : opt := val "w" "workspace" "workspace_name".
Definition c_opt : opt := val "c" "config" "config_name".
Definition y_opt : opt := flag "y" "yes" "yes".
Definition q_opt : opt := flag "q" "quiet" "quiet".
Definition ws_pos (a : nargs) : pos := p_ "workspace_name" a.
Definition cf_pos (a : nargs) : pos := p_ "config_name" a.

(** Sub-commands: the method that is executed, the names it goes by and its
    parser.  main.py 215-244 *)
Definition sub := (string * list string * parser)%type.
Definition ws_table : list sub := [
  ("add", ["add"], mk [] [ws_pos One]);
  ("remove", ["remove"; "rm"], mk [y_opt] [ws_pos Opt]);
  ("copy", ["copy"; "cp"], mk [] [ws_pos Opt; p_ "new_name" Opt]);
  ("rename", ["rename"; "rn"], mk [] [ws_pos Opt; p_ "new_name" One]);
  ("current", ["current"; "cur"], mk [] [ws_pos Opt]);
  ("list", ["list"; "ls"], mk [] [])].
(** main.py 389-451 *)
Definition cf_table : list sub := [
  ("add", ["add"], mk [w_opt; {| o_short := None; o_long := "cryosat-adapted";
                                 o_dest := "cryosat_adapted"; o_kind := Flag |}] [cf_pos One]);
  ("remove", ["remove"; "rm"], mk [y_opt; w_opt] [cf_pos Opt]);
  ("edit", ["edit"; "ed"], mk [w_opt] [cf_pos Opt]);
  ("copy", ["copy"; "cp"], mk [w_opt] [cf_pos Opt; p_ "new_name" Opt]);
  ("rename", ["rename"; "rn"], mk [w_opt] [cf_pos Opt; p_ "new_name" One]);
  ("info", ["info"; "i"], mk [w_opt] [cf_pos Opt]);
  ("current", ["current"; "cur"], mk [w_opt] [cf_pos Opt]);
  ("list", ["list"; "ls"], mk [w_opt] []);
  ("upgrade", ["upgrade"; "up"], mk [w_opt] [cf_pos Opt]);
  ("version", ["version"; "v"], mk [w_opt] [cf_pos Opt])].
(** main.py 690-714 *)
Definition in_table : list sub := [
  ("add", ["add"], mk [w_opt; q_opt] [p_ "inputs" Plus]);
  ("remove", ["remove"; "rm"], mk [w_opt; q_opt] [p_ "inputs" Star]);
  ("list", ["list"; "ls"], mk [w_opt] [p_ "pattern" Opt])].
(** main.py 808-868 *)
Definition out_table : list sub := [
  ("clean", ["clean"; "cl"], mk [w_opt; c_opt; q_opt] []);
  ("list", ["list"; "ls"], mk [w_opt; c_opt] [p_ "pattern" Opt]);
  ("open", ["open"; "op"], mk [w_opt; c_opt] []);
  ("inspect", ["inspect"; "ins"], mk [w_opt; c_opt] [p_ "l1b_filename" One]);
  ("compare", ["compare"; "cmp"],
     mk [w_opt; c_opt; val "W" "workspace-2" "workspace_name_2"; val "C" "config-2" "config_name_2"]
        [p_ "l1b_filename_1" One; p_ "l1b_filename_2" Opt])].
(** main.py 138-153 *)
Definition run_parser : parser :=
  mk [flag "s" "skip-l1bs" "skip_l1bs"; q_opt; w_opt; c_opt;
      {| o_short := Some "i"%char; o_long := "inputs"; o_dest := "inputs"; o_kind := Many |};
      val "o" "output" "output_dir"; flag "a" "all-configs" "all_configs"] [].
(** main.py 1036-1038 *)
Definition status_parser : parser := mk [flag "l" "long" "long"] [].

(** The commands with sub-commands and their aliases (main.py 212, 387, 688,
    806). *)
Definition groups : list (string * list string * list sub) := [
  ("workspace", ["workspace"; "w"], ws_table);
  ("config", ["config"; "c"], cf_table);
  ("input", ["input"; "i"], in_table);
  ("output", ["output"; "o"], out_table)].
(** The commands without (main.py 136, 1007, 1032; those that only show a
    text, 1055-1235, are left out, and so are the options of [dedop] itself). *)
Definition plain : list (string * list string * parser) := [
  ("run", ["run"; "r"], run_parser);
  ("status", ["status"; "s"], status_parser);
  ("notebook", ["notebook"], mk [] [])].

Definition named (x : string) (l : list string) : bool := existsb (String.eqb x) l.
(** What is executed: the group, the sub-command and the namespace.  A
    sub-command takes all words after its name; without one, help is shown
    (main.py 246-250, 458-462, 722-726, 870-874). *)
Inductive request :=
| Do (cmd sub : string) (n : ns)
| Usage
| Shown
| Outside.
Definition asked (cmd sub : string) (r : outcome) : request :=
  match r with POk n => Do cmd sub n | PErr => Usage | PHelp => Shown | POut => Outside end.
Definition dedop (argv : list string) : request :=
  match argv with
  | [] => Outside
  | x :: r =>
      match find (fun g => named x (snd (fst g))) groups with
      | Some (g, _, t) =>
          match r with
          | [] => Shown
          | y :: r' =>
              match find (fun s => named y (snd (fst s))) t with
              | Some (s, _, P) => asked g s (parse P r')
              | None => if prefix "-" y then Outside else Usage
              end
          end
      | None =>
          match find (fun g => named x (snd (fst g))) plain with
          | Some (g, _, P) => asked g "" (parse P r)
          | None => Outside
          end
      end
  end.

(** The attributes the execute methods read (main.py 66-82, 158-198, 254-340,
    464-680, 728-785, 876-1000, 1040-1043). *)
Definition read_of (cmd sub : string) : list string :=
  match cmd, sub with
  | "run", _ => ["workspace_name"; "config_name"; "all_configs"; "inputs"; "output_dir"; "skip_l1bs"; "quiet"]
  | "status", _ => ["long"]
  | "workspace", "remove" => ["workspace_name"; "yes"]
  | "workspace", "copy" | "workspace", "rename" => ["workspace_name"; "new_name"]
  | "workspace", "list" => []
  | "workspace", _ => ["workspace_name"]
  | "config", "add" => ["workspace_name"; "config_name"; "cryosat_adapted"]
  | "config", "remove" => ["workspace_name"; "config_name"; "yes"]
  | "config", "copy" | "config", "rename" => ["workspace_name"; "config_name"; "new_name"]
  | "config", "list" => ["workspace_name"]
  | "config", _ => ["workspace_name"; "config_name"]
  | "input", "list" => ["workspace_name"; "pattern"]
  | "input", _ => ["workspace_name"; "inputs"; "quiet"]
  | "output", "clean" => ["workspace_name"; "config_name"; "quiet"]
  | "output", "list" => ["workspace_name"; "config_name"; "pattern"]
  | "output", "inspect" => ["workspace_name"; "config_name"; "l1b_filename"]
  | "output", "compare" => ["workspace_name"; "config_name"; "workspace_name_2"; "config_name_2";
                            "l1b_filename_1"; "l1b_filename_2"]
  | "output", _ => ["workspace_name"; "config_name"]
  | _, _ => []
  end.

(** * Confirmations *)

(** [str.lower] on ASCII *)
Definition lower (c : ascii) : ascii :=
  let k := nat_of_ascii c in
  if (Nat.leb 65 k && Nat.leb k 90)%bool then ascii_of_nat (k + 32) else c.
Fixpoint lowers (s : string) : string :=
  match s with "" => "" | String c r => String (lower c) (lowers r) end.
(** [str.strip] on ASCII: blank, tab to carriage return, and the separators
    28 to 31 *)
Definition white (c : ascii) : bool :=
  let k := nat_of_ascii c in
  (Nat.eqb k 32 || (Nat.leb 9 k && Nat.leb k 13) || (Nat.leb 28 k && Nat.leb k 31))%bool.
Fixpoint lstrip (s : string) : string :=
  match s with "" => "" | String c r => if white c then lstrip r else s end.
Fixpoint rstrip (s : string) : string :=
  match s with
  | "" => ""
  | String c r => match rstrip r with
                  | "" => if white c then "" else String c ""
                  | t => String c t
                  end
  end.
(** main.py 61-63: [_input] with the default 'yes' *)
Definition input_ (typed default : string) : string :=
  let a := rstrip (lstrip typed) in if a =? "" then default else a.
(** main.py 266-270, 480-484, 763-764, 885-886 *)
Definition confirmed (given : bool) (typed : string) : bool :=
  lowers (if given then "yes" else input_ typed "yes") =? "yes".
