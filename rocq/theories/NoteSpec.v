(** Vocabulary for C106-C107: readers of JSON, Python and shell text. *)
From Coq Require Import Ascii String List Bool Arith.
From Verif Require Import Common FsModel.
Import ListNotations.
Open Scope string_scope.

Definition bslash : ascii := ascii_of_nat 92.
Definition dquote : ascii := ascii_of_nat 34.
Definition squote : ascii := ascii_of_nat 39.

Definition also (c : ascii) (o : option (string * string)) : option (string * string) :=
  match o with Some (x, r) => Some (String c x, r) | None => None end.

(** The JSON string that starts after an opening quote, and the text after its
    closing quote.  Characters given by number are left out. *)
Definition json_char (c : ascii) : option ascii :=
  match nat_of_ascii c with
  | 34 => Some dquote | 92 => Some bslash | 47 => Some "/"%char
  | 98 => Some (ascii_of_nat 8) | 102 => Some (ascii_of_nat 12) | 110 => Some (ascii_of_nat 10)
  | 114 => Some (ascii_of_nat 13) | 116 => Some (ascii_of_nat 9)
  | _ => None
  end.
Fixpoint json_string (s : string) : option (string * string) :=
  match s with
  | EmptyString => None
  | String c r =>
      if Ascii.eqb c dquote then Some ("", r)
      else if Ascii.eqb c bslash then
        match r with
        | String d r' => match json_char d with Some x => also x (json_string r') | None => None end
        | EmptyString => None
        end
      else if (nat_of_ascii c <? 32)%nat then None
      else also c (json_string r)
  end.

(** A Python text literal, and the text after it.  Only the escapes named here
    are read. *)
Definition hex_value (c : ascii) : option nat :=
  let n := nat_of_ascii c in
  if (48 <=? n)%nat && (n <=? 57)%nat then Some (n - 48)
  else if (97 <=? n)%nat && (n <=? 102)%nat then Some (n - 87)
  else None.
Definition py_char (c : ascii) : option ascii :=
  match nat_of_ascii c with
  | 34 => Some dquote | 39 => Some squote | 92 => Some bslash
  | 110 => Some (ascii_of_nat 10) | 114 => Some (ascii_of_nat 13) | 116 => Some (ascii_of_nat 9)
  | _ => None
  end.
Fixpoint py_body (q : ascii) (s : string) : option (string * string) :=
  match s with
  | EmptyString => None
  | String c r =>
      if Ascii.eqb c q then Some ("", r)
      else if Ascii.eqb c bslash then
        match r with
        | String d r' =>
            if Ascii.eqb d "x" then
              match r' with
              | String a (String b r'') =>
                  match hex_value a, hex_value b with
                  | Some x, Some y => also (ascii_of_nat (16 * x + y)) (py_body q r'')
                  | _, _ => None
                  end
              | _ => None
              end
            else match py_char d with Some x => also x (py_body q r') | None => None end
        | EmptyString => None
        end
      else if (nat_of_ascii c =? 10)%nat then None
      else also c (py_body q r)
  end.
Definition py_literal (s : string) : option (string * string) :=
  match s with
  | String q r => if Ascii.eqb q dquote || Ascii.eqb q squote then py_body q r else None
  | EmptyString => None
  end.

(** The words of a shell command without expansions, operators or patterns;
    [None] for any other text. *)
Definition sh_plain (c : ascii) : bool :=
  let n := nat_of_ascii c in
  ((48 <=? n)%nat && (n <=? 57)%nat) || ((65 <=? n)%nat && (n <=? 90)%nat) || ((97 <=? n)%nat && (n <=? 122)%nat)
  || existsb (Ascii.eqb c) ["-"; "_"; "."; "/"; "+"; ","; ":"; "@"]%char.
Inductive quoting := Bare | Double | Single.
Definition extend (w : option string) (c : ascii) : option string :=
  Some (match w with Some x => x | None => "" end ++ String c "")%string.
Definition finish (w : option string) (l : list string) : list string :=
  match w with Some x => x :: l | None => l end.
Fixpoint sh_read (m : quoting) (w : option string) (s : string) : option (list string) :=
  match s with
  | EmptyString => match m with Bare => Some (finish w []) | _ => None end
  | String c r =>
      match m with
      | Bare =>
          if Ascii.eqb c " " then option_map (finish w) (sh_read Bare None r)
          else if Ascii.eqb c dquote then sh_read Double (Some (match w with Some x => x | None => "" end)) r
          else if Ascii.eqb c squote then sh_read Single (Some (match w with Some x => x | None => "" end)) r
          else if sh_plain c then sh_read Bare (extend w c) r
          else None
      | Double =>
          if Ascii.eqb c dquote then sh_read Bare w r
          else if Ascii.eqb c bslash || Ascii.eqb c "$" || Ascii.eqb c "`" then None
          else sh_read Double (extend w c) r
      | Single =>
          if Ascii.eqb c squote then sh_read Bare w r
          else sh_read Single (extend w c) r
      end
  end.
Definition sh_words (s : string) : option (list string) := sh_read Bare None s.

Definition all_chars (P : ascii -> bool) (s : string) : Prop := forall c, has_char c s = true -> P c = true.
(** Fit for double quotes *)
Definition calm (c : ascii) : bool :=
  negb (Ascii.eqb c dquote || Ascii.eqb c bslash || Ascii.eqb c "$" || Ascii.eqb c "`").
Definition no_brace (c : ascii) : bool := negb (Ascii.eqb c "{" || Ascii.eqb c "}").
Definition no_single (c : ascii) : bool := negb (Ascii.eqb c squote).
Definition no_quote (c : ascii) : bool := negb (Ascii.eqb c squote || Ascii.eqb c dquote).
