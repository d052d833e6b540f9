(** Notebooks made for a product and the command that opens them
    (ui/workspace_manager.py 467-490, 518-595).  Definitions only.

    Texts are strings of characters below 256. *)
From Coq Require Import Ascii String List Bool Arith.
From Verif Require Import Common FsModel.
Import ListNotations.
Open Scope string_scope.

Definition bs : ascii := ascii_of_nat 92.
Definition dq : ascii := ascii_of_nat 34.
Definition sq : ascii := ascii_of_nat 39.
Definition str (c : ascii) : string := String c "".

(** * Python text (library, not repository code) *)

Definition hex_digit (n : nat) : ascii := if (n <? 10)%nat then ascii_of_nat (48 + n) else ascii_of_nat (87 + n).
(** One character in [repr] of a text quoted with [q]. *)
Definition py_esc (q c : ascii) : string :=
  let n := nat_of_ascii c in
  if Ascii.eqb c bs || Ascii.eqb c q then String bs (str c)
  else if (n =? 9)%nat then String bs "t"
  else if (n =? 10)%nat then String bs "n"
  else if (n =? 13)%nat then String bs "r"
  else if (n <? 32)%nat || (126 <? n)%nat && (n <? 161)%nat || (n =? 173)%nat
       then String bs (String "x" (String (hex_digit (n / 16)) (str (hex_digit (n mod 16)))))
  else str c.
Fixpoint smap (f : ascii -> string) (s : string) : string :=
  match s with EmptyString => "" | String c r => f c ++ smap f r end.
Definition py_quote (s : string) : ascii := if has_char sq s && negb (has_char dq s) then dq else sq.
(** [repr(s)] *)
Definition py_repr (s : string) : string :=
  let q := py_quote s in String q (smap (py_esc q) s ++ str q).
(** [s.replace(old, new)], [old] not empty: [k] characters are still to be
    skipped. *)
Fixpoint replace_from (old new : string) (k : nat) (s : string) : string :=
  match s with
  | EmptyString => ""
  | String c r =>
      match k with
      | S k' => replace_from old new k' r
      | O => if prefix old s then new ++ replace_from old new (String.length old - 1) r
             else String c (replace_from old new 0 r)
      end
  end.
Definition replace (old new s : string) : string := replace_from old new 0 s.

(** * The notebook text *)

(** [repr(l1b_path).replace('\\', '\\\\')] (470, 482-483) *)
Definition inserted (p : string) : string := replace (str bs) (String bs (str bs)) (py_repr p).
Definition tok : string := "__L1B_FILE_PATH__".
Definition tok1 : string := "__L1B_FILE_PATH_1__".
Definition tok2 : string := "__L1B_FILE_PATH_2__".
(** [inspect_l1b_product] (468-470) *)
Definition inspect_text (template p : string) : string := replace tok (inserted p) template.
(** [compare_l1b_products] (480-483) *)
Definition compare_text (template p1 p2 : string) : string :=
  replace tok2 (inserted p2) (replace tok1 (inserted p1) template).
(** The lines of the templates with a path, from after their opening quote
    (ui/data/notebooks/inspect-template.ipynb 56, compare-template.ipynb 55-56) *)
Definition inspect_line : string := "insp = inspect_l1b_product(__L1B_FILE_PATH__)" ++ str dq.
Definition compare_line1 : string := "comp = compare_l1b_products(__L1B_FILE_PATH_1__," ++ str bs ++ "n" ++ str dq.
Definition compare_line2 : string := "                            __L1B_FILE_PATH_2__)" ++ str dq.

(** * The command (518-595) *)

(** [str.format] with the fields of 577-580.  [None] is an exception; fields
    with attributes, conversions or formats are left out. *)
Section Format.
Variable field : string -> option string.
Definition lbrace : ascii := ascii_of_nat 123.
Definition rbrace : ascii := ascii_of_nat 125.
Definition cons_o (c : ascii) (o : option string) : option string := option_map (String c) o.
(** [acc]: the field name being read *)
Fixpoint format_from (acc : option string) (s : string) : option string :=
  match acc, s with
  | None, EmptyString => Some ""
  | Some _, EmptyString => None
  | None, String c r =>
      if Ascii.eqb c lbrace then
        match r with
        | String d r' => if Ascii.eqb d lbrace then cons_o lbrace (format_from None r') else format_from (Some "") r
        | EmptyString => None
        end
      else if Ascii.eqb c rbrace then
        match r with
        | String d r' => if Ascii.eqb d rbrace then cons_o rbrace (format_from None r') else None
        | EmptyString => None
        end
      else cons_o c (format_from None r)
  | Some f, String c r =>
      if Ascii.eqb c rbrace then
        match field f with
        | Some v => option_map (fun x => v ++ x) (format_from None r)
        | None => None
        end
      else if Ascii.eqb c lbrace then None
      else format_from (Some (f ++ str c)) r
  end.
End Format.

(** The terminals found on the path: 557-567 (Linux) *)
Inductive terminal := Konsole | Gnome | Xterm | NoTerminal.

Definition quoted (s : string) : string := str dq ++ s ++ str dq.
(** 525, 528-530 *)
Definition notebook_command (dir : string) (path : option string) : string :=
  "jupyter notebook --notebook-dir " ++ quoted dir ++
  match path with Some p => " " ++ quoted p | None => "" end.
(** 526-527, 530 *)
Definition notebook_command_with_prefix (prefix dir : string) (path : option string) : string :=
  prefix ++ "/bin/" ++ notebook_command dir path.

(** 557-569: with no terminal the command itself is used as the template. *)
Definition launch_template (t : terminal) (command : string) : string :=
  match t with
  | Konsole => "konsole -p tabtitle=" ++ quoted "{title}" ++ " -e '{command}' & disown"
  | Gnome => "gnome-terminal -e '{command}'"
  | Xterm => "xterm  -T " ++ quoted "{title}" ++ " -e '{command}'"
  | NoTerminal => command
  end.

(** 532-580, nothing configured, on Linux; no template above has a command
    file.  [None]: the exception of [format], which nothing catches. *)
Definition launch_command (t : terminal) (prefix title dir : string) (path : option string) : option string :=
  let command := notebook_command_with_prefix prefix dir path in
  format_from (fun f => if f =? "title" then Some ("DeDop - " ++ title)
                        else if f =? "command" then Some command
                        else if f =? "command_file" then Some ""
                        else if f =? "prefix" then Some prefix
                        else None)
    None (launch_template t command).
