(** The commands of [CliModel] that a command line asks for. *)
From Coq Require Import String Ascii List Arith Bool.
From Verif Require Import Common FsModel WsModel WsSpec CliModel CliSpec ArgModel.
Import ListNotations.
Open Scope string_scope.

(** an attribute that is None or a string; that is a truth value; that is
    None or a list *)
Definition str_at (n : ns) (d : string) : option (option string) :=
  match n d with Some VNone => Some None | Some (VStr s) => Some (Some s) | _ => None end.
Definition bool_at (n : ns) (d : string) : option bool :=
  match n d with Some (VBool b) => Some b | _ => None end.
Definition list_at (n : ns) (d : string) : option (list string) :=
  match n d with Some VNone => Some [] | Some (VList l) => Some l | _ => None end.
Definition must {A} (x : option (option A)) : option A := match x with Some (Some a) => Some a | _ => None end.
Definition let_ {A B} (x : option A) (f : A -> option B) : option B :=
  match x with Some a => f a | None => None end.
Notation "x <~ e ;; k" := (let_ e (fun x => k)) (at level 61, e at next level, right associativity).

(** What is to be done. *)
Inductive order :=
| Step (s : step)
| InAdd (wa : option string) (inputs : list string)
| InRemove (wa : option string) (inputs : list string) (yes : bool)
| OutClean (wa ca : option string) (yes : bool)
| OutInspect (wa ca : option string) (file : string)
| OutCompare (wa ca w2 c2 : option string) (file1 : string) (file2 : option string).

(** The attributes the execute methods read, and what they call the functions
    of [CliModel] with (dedop/cli/main.py 158-190, 254-330, 464-560, 608-620,
    728-765, 876-886, 917-975); [typed] is the answer if one is asked for.
    Commands that only show something are left out. *)
Definition order_of (cmd sub : string) (n : ns) (typed : string) : option order :=
  let w := str_at n "workspace_name" in
  let c := str_at n "config_name" in
  let new := str_at n "new_name" in
  match cmd, sub with
  | "workspace", "add" => w <~ must w ;; Some (Step (SAdd w))
  | "workspace", "remove" => w <~ w ;; y <~ bool_at n "yes" ;; Some (Step (SRemove w (confirmed y typed)))
  | "workspace", "copy" => w <~ w ;; m <~ new ;; Some (Step (SCopy w m))
  | "workspace", "rename" => w <~ w ;; m <~ must new ;; Some (Step (SRename w m))
  | "workspace", "current" => w <~ w ;; Some (Step (SCurrent w))
  | "config", "add" => w <~ w ;; c <~ must c ;; b <~ bool_at n "cryosat_adapted" ;; Some (Step (CAdd w c b))
  | "config", "remove" =>
      w <~ w ;; c <~ c ;; y <~ bool_at n "yes" ;; Some (Step (CRemove w c (confirmed y typed)))
  | "config", "copy" => w <~ w ;; c <~ c ;; m <~ new ;; Some (Step (CCopy w c m))
  | "config", "rename" => w <~ w ;; c <~ c ;; m <~ must new ;; Some (Step (CRename w c m))
  | "config", "current" => w <~ w ;; c <~ c ;; Some (Step (CCurrent w c))
  | "config", "edit" => w <~ w ;; c <~ c ;; Some (Step (CEdit w c))
  | "config", "upgrade" => w <~ w ;; c <~ c ;; Some (Step (CUpgrade w c))
  | "run", _ =>
      w <~ w ;; c <~ c ;; i <~ list_at n "inputs" ;; o <~ str_at n "output_dir" ;;
      a <~ bool_at n "all_configs" ;; s <~ bool_at n "skip_l1bs" ;;
      Some (Step (RPlan {| ra_ws := w; ra_config := c; ra_inputs := i; ra_out := o; ra_all := a; ra_skip := s |}))
  | "input", "add" => w <~ w ;; i <~ list_at n "inputs" ;; Some (InAdd w i)
  | "input", "remove" =>
      w <~ w ;; i <~ list_at n "inputs" ;; q <~ bool_at n "quiet" ;; Some (InRemove w i (confirmed q typed))
  | "output", "clean" => w <~ w ;; c <~ c ;; q <~ bool_at n "quiet" ;; Some (OutClean w c (confirmed q typed))
  | "output", "inspect" => w <~ w ;; c <~ c ;; f <~ must (str_at n "l1b_filename") ;; Some (OutInspect w c f)
  | "output", "compare" =>
      w <~ w ;; c <~ c ;; w2 <~ str_at n "workspace_name_2" ;; c2 <~ str_at n "config_name_2" ;;
      f <~ must (str_at n "l1b_filename_1") ;; g <~ str_at n "l1b_filename_2" ;;
      Some (OutCompare w c w2 c2 f g)
  | _, _ => None
  end.
Definition says (argv : list string) (typed : string) : option order :=
  match dedop argv with Do cmd sub n => order_of cmd sub n typed | _ => None end.
