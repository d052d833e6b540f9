(** The text about a workspace (dedop/ui/workspace_info.py).  Definitions only. *)
From Coq Require Import String Ascii List ZArith NArith Bool DecimalString.
From Verif Require Import Common FigModel.
Import ListNotations.
Local Open Scope string_scope.
Local Open Scope list_scope.

Definition newline : ascii := ascii_of_nat 10.
Definition tab : string := String (ascii_of_nat 9) "".
(** Python's ['\n'.join(l)]. *)
Fixpoint join_lines (l : list string) : string :=
  match l with
  | [] => ""
  | [s] => s
  | s :: r => (s ++ String newline (join_lines r))%string
  end.
(** workspace_info.py 4-14; a list and [None] are treated alike there when empty. *)
Record info := mk_info {
  i_dir : string; i_current : string; i_spaces : list string; i_config : string; i_configs : list string }.
(** The file system: [os.listdir] of a directory ([None]: no directory), and
    [os.path.getsize] ([None]: OSError). *)
Record disk := mk_disk { d_list : string -> option (list string); d_size : string -> option N }.

(** 22-28, 43-48: the entries of a list, the current one marked. *)
Definition marked (current : string) (l : list string) (none : string) : list string :=
  match l with
  | [] => [none]
  | _ => map (fun x => if (x =? current)%string then (" *" ++ x)%string else ("  " ++ x)%string) l
  end.
(** 35-36, 57-58: one file; [>> 20]. *)
Definition decimal (n : N) : string := NilZero.string_of_uint (N.to_uint n).
Definition file_line (path : string) (n : N) : string :=
  ("  " ++ path ++ tab ++ tab ++ decimal (N.shiftr n 20) ++ " MiB")%string.
Fixpoint file_lines (d : disk) (dir : string) (l : list string) : option (list string) :=
  match l with
  | [] => Some []
  | x :: r =>
      let p := os_join dir x in
      match d_size d p, file_lines d dir r with
      | Some n, Some t => Some (file_line p n :: t)
      | _, _ => None
      end
  end.
(** 32-38 *)
Definition input_lines (d : disk) (i : info) : option (list string) :=
  let dir := os_join (i_dir i) "inputs" in
  match d_list d dir with Some l => file_lines d dir l | None => Some ["(no inputs yet)"] end.
(** 51-60; an empty text is no configuration. *)
Definition output_lines (d : disk) (i : info) : option (list string) :=
  if (i_config i =? "")%string then Some ["(no outputs yet)"]
  else
    let dir := os_join (os_join (os_join (i_dir i) "configs") (i_config i)) "outputs" in
    match d_list d dir with Some l => file_lines d dir l | None => Some [] end.
(** 16-63; [None]: OSError. *)
Definition info_lines (d : disk) (i : info) : option (list string) :=
  match input_lines d i, output_lines d i with
  | Some a, Some b =>
      Some (["Workspaces:"] ++ marked (i_current i) (i_spaces i) "(no workspaces yet)" ++ [""; "Inputs:"] ++ a ++
            [""; "DDP configurations:"] ++ marked (i_config i) (i_configs i) "(no DDP configurations yet)" ++ [""; "Outputs:"] ++ b ++ [""])
  | _, _ => None
  end.
Definition info_string (d : disk) (i : info) : option string := option_map join_lines (info_lines d i).
