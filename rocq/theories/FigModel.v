(** Writing figures (ui/figurewriter.py).  Definitions only.

    Paths are strings of single-byte characters on a POSIX system. *)
From Coq Require Import Ascii String List Bool Arith.
From Verif Require Import Common FsModel.
Import ListNotations.
Open Scope string_scope.

(** * os.path (Python library, not repository code) *)

(** [os.path.split] before trailing slashes are removed: up to and including
    the last slash, and the rest. *)
Fixpoint split_last (s : string) : string * string :=
  match s with
  | EmptyString => ("", "")
  | String c r =>
      let (h, t) := split_last r in
      if h =? "" then (if Ascii.eqb c slash then (String c "", t) else ("", String c t))
      else (String c h, t)
  end.
(** [h.rstrip('/')] *)
Fixpoint rstrip (s : string) : string :=
  match s with
  | EmptyString => ""
  | String c r => if (rstrip r =? "") && Ascii.eqb c slash then "" else String c (rstrip r)
  end.
Definition dirname (p : string) : string :=
  let h := fst (split_last p) in if rstrip h =? "" then h else rstrip h.
Definition basename (p : string) : string := snd (split_last p).
Definition ends_slash (s : string) : bool := ends_with "/" s.
(** [os.path.join(a, b)] *)
Definition os_join (a b : string) : string :=
  match b with
  | String c _ => if Ascii.eqb c slash then b
                  else if (a =? "") || ends_slash a then a ++ b else a ++ "/" ++ b
  | EmptyString => if (a =? "") || ends_slash a then a else a ++ "/"
  end.
Definition dot : ascii := "."%char.
(** At the last dot: what is before it, and from it on. *)
Fixpoint last_dot (s : string) : option (string * string) :=
  match s with
  | EmptyString => None
  | String c r =>
      match last_dot r with
      | Some (a, e) => Some (String c a, e)
      | None => if Ascii.eqb c dot then Some ("", s) else None
      end
  end.
(** [os.path.splitext] of a name without slash: leading dots do not start an
    extension. *)
Fixpoint splitext (t : string) : string * string :=
  match t with
  | EmptyString => ("", "")
  | String c r =>
      if Ascii.eqb c dot then let (a, e) := splitext r in (String c a, e)
      else match last_dot t with Some (a, e) => (a, e) | None => (t, "") end
  end.
(** [str.lower()] of ASCII text *)
Definition lower_char (c : ascii) : ascii :=
  let n := nat_of_ascii c in
  if (65 <=? n)%nat && (n <=? 90)%nat then ascii_of_nat (n + 32) else c.
Fixpoint lower (s : string) : string :=
  match s with EmptyString => "" | String c r => String (lower_char c) (lower r) end.

(** * FigureWriter.__init__ (figurewriter.py 15-50) *)

Inductive fmt := Pdf | Dir.
Inductive ferr :=
| ENoPath          (* 20-21 *)
| EFormat          (* 33-34 *)
| ENoBase          (* 44-45 *)
| EExtension       (* 48-49 *)
| ENoName.         (* savefig, 65-66 *)

(** 23-31.  [os.path.splitext(output_path)] has the extension of the last
    component. *)
Definition wanted_format (path : string) (f : option string) : string :=
  let guess := let e := snd (splitext (basename path)) in
               if (1 <? String.length e)%nat then lower (substring 1 (String.length e - 1) e) else "dir" in
  match f with
  | Some x => if x =? "" then guess else lower x
  | None => guess
  end.

Definition fwriter (path : string) (f : option string) : res ferr (fmt * string) :=
  if path =? "" then Err ENoPath
  else
    let o := wanted_format path f in
    if o =? "pdf" then
      let (root, ext) := splitext (basename path) in
      if root =? "" then Err ENoBase
      else if ext =? "" then Ok (Pdf, os_join (dirname path) (root ++ ".pdf"))
      else if (ext =? ".pdf") || (ext =? ".PDF") then Ok (Pdf, os_join (dirname path) (root ++ ext))
      else Err EExtension
    else if o =? "dir" then Ok (Dir, path)
    else Err EFormat.

(** * Saving (figurewriter.py 60-88) *)

(** Figures are opaque.  A file is the list of figures in it; making the
    directories (69-71) is left out, and the pages of a pdf count as written
    when they are added. *)
Section Save.
Variable F : Type.

Definition disk := string -> option (list F).
Definition put (d : disk) (p : string) (v : list F) : disk := fun q => if q =? p then Some v else d q.

Record wstate := { s_fmt : fmt; s_path : string; s_open : bool; s_disk : disk }.

Inductive action := Save (name : option string) (fig : F) | Close.

(** [savefig] (60-83): [PdfPages(file_path)] starts an empty file. *)
Definition savefig (w : wstate) (name : option string) (fig : F) : res ferr wstate :=
  match s_fmt w with
  | Pdf =>
      let old := if s_open w then match s_disk w (s_path w) with Some l => l | None => [] end else [] in
      Ok {| s_fmt := Pdf; s_path := s_path w; s_open := true;
            s_disk := put (s_disk w) (s_path w) (old ++ [fig]) |}
  | Dir =>
      match name with
      | None => Err ENoName
      | Some x => if x =? "" then Err ENoName
                  else Ok {| s_fmt := Dir; s_path := s_path w; s_open := s_open w;
                             s_disk := put (s_disk w) (os_join (s_path w) x) [fig] |}
      end
  end.

(** [close] (85-88) *)
Definition close (w : wstate) : wstate :=
  {| s_fmt := s_fmt w; s_path := s_path w; s_open := false; s_disk := s_disk w |}.

Definition step (w : wstate) (a : action) : res ferr wstate :=
  match a with Save n f => savefig w n f | Close => Ok (close w) end.
Fixpoint steps (w : wstate) (l : list action) : res ferr wstate :=
  match l with [] => Ok w | a :: r => bind (step w a) (fun w' => steps w' r) end.

Definition new_writer (m : fmt) (p : string) (d : disk) : wstate :=
  {| s_fmt := m; s_path := p; s_open := false; s_disk := d |}.

(** [L1bProductComparator.close] (compare.py 141-145): both inspectors and the
    plots hold the same writer. *)
Definition comparator_close : list action := [Close; Close; Close].
End Save.
