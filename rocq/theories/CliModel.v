(** Model of the commands of dedop/cli/main.py and of the services of
    dedop/webapi/websocket.py that act on workspaces.

    Simplifications: the console output is left out; an interactive question
    is an argument [yes] (the answer); argument parsing is left out: an
    optional argument is an [option string].  The processor, the editor, the
    notebook server and [glob.glob] are external: the processor is given by
    arbitrary functions [mk] and [pr], the others have no effect on the tree. *)
From Coq Require Import Ascii String List Bool Arith.
From Verif Require Import Common Dict FsModel WsModel NameModel.
Import ListNotations.
Open Scope string_scope.
Open Scope list_scope.

(** Python truth of an optional string. *)
Definition given (o : option string) : option string :=
  match o with
  | Some s => if (s =? "")%string then None else Some s
  | None => None
  end.

(** [except <sel>: raise CommandError(error)] *)
Definition catch {A} (sel : err -> bool) (m : M A) : M A :=
  fun n => match m n with
           | (n', Err e) => (n', Err (if sel e then ECmd else e))
           | r => r
           end.
Definition is_ws (e : err) : bool := match e with EWs => true | _ => false end.
Definition is_ws_proc (e : err) : bool := match e with EWs | EProc => true | _ => false end.
Definition is_ws_os (e : err) : bool := match e with EWs | EOs => true | _ => false end.

(** dedop/cli/main.py:373, 672 ['%s_%d' % (new_name, index)] *)
Definition numbered (new_name : string) (i : nat) : string := (new_name ++ "_" ++ dec i)%string.
(** dedop/cli/main.py:371-376, 670-675: the unbounded loop is cut after [fuel]
    rounds ([None]). *)
Fixpoint unique_loop (names : list string) (new_name : string) (fuel i : nat) (valid : string)
  : option string :=
  match fuel with
  | O => None
  | S f => if mem_s valid names then unique_loop names new_name f (S i) (numbered new_name i)
           else Some valid
  end.
(** dedop/cli/main.py:368-376.  More rounds than names are never needed (C54). *)
Definition unique_name (names : list string) (new_name : string) : option string :=
  unique_loop names new_name (S (List.length names)) 2 new_name.

Section Cli.
Variable W : path.
Variable resource : bool -> string -> string.
Variable upg : string -> string -> option string.
Variable fnmatch : string -> string -> bool.
(** dedop/cli/main.py:114-123: is the packaged file newer than this text? *)
Variable newer : string -> string -> option bool.
(** [glob.glob] for the given patterns: the matching files *)
Variable glob : list string -> node -> list path.
(** current working directory *)
Variable cwd : path.
(** dedop/ui/workspace_manager.py:468-470, 480-483 text of the notebooks *)
Variable inspect_text : path -> string.
Variable compare_text : path -> path -> string.

(** dedop/cli/main.py:66-71 *)
Definition get_ws_name (wa : option string) : M (option string) :=
  match given wa with
  | Some w => ret (Some w)
  | None => c <- get_current W ;; ret (given c)
  end.
(** dedop/cli/main.py:74-82: the second component may be an empty string only
    when there is no workspace *)
Definition get_ws_config (wa ca : option string) : M (option string * option string) :=
  w <- get_ws_name wa ;;
  match w, given ca with
  | Some w', None => c <- get_current_config W w' ;; ret (w, c)
  | _, _ => ret (w, ca)
  end.

(** * dedop workspace *)

(** dedop/cli/main.py:360-365 *)
Definition set_current_ws (w : option string) : M unit :=
  match given w with
  | Some w' => set_current W w'
  | None => set_current W ""
  end.
(** dedop/cli/main.py:350-357 *)
Definition create_workspace (w : string) (exists_ok : bool) : M string :=
  ex <- ws_exists W "default" ;;
  if exists_ok && ex then ret w
  else create_ws W w ;;; set_current_ws (Some w) ;;; ret w.
(** dedop/cli/main.py:346-348 *)
Definition create_default_workspace : M string := create_workspace "default" true.

(** the first command to follow 'default', else the first name, else none *)
Definition fallback (names : list string) : option string :=
  if mem_s "default" names then Some "default"
  else match names with x :: _ => Some x | [] => None end.

(** dedop/cli/main.py:254-259 *)
Definition ws_add (w : string) : M unit :=
  catch is_ws (create_workspace w false ;;; ret tt).
(** dedop/cli/main.py:262-284 *)
Definition ws_remove (wa : option string) (yes : bool) : M unit :=
  w <- get_ws_name wa ;;
  match w with
  | None => fail ECmd
  | Some w =>
      if yes then
        catch is_ws
          (delete_ws W w ;;;
           c <- get_current W ;;
           match c with
           | Some c' => if (w =? c')%string then
                          names <- get_ws_names W ;; set_current_ws (fallback names)
                        else ret tt
           | None => ret tt
           end)
      else ret tt
  end.
(** dedop/cli/main.py:368-376 *)
Definition unique_ws (new_name : string) : M string :=
  names <- get_ws_names W ;; need EValue (unique_name names new_name).
(** dedop/cli/main.py:287-299 *)
Definition ws_copy (wa new_name : option string) : M unit :=
  w <- get_ws_name wa ;;
  match w with
  | None => fail ECmd
  | Some w =>
      nn <- unique_ws (match given new_name with Some x => x | None => (w ++ "_1")%string end) ;;
      catch is_ws (copy_ws W w nn)
  end.
(** dedop/cli/main.py:302-314 *)
Definition ws_rename (wa : option string) (new_name : string) : M unit :=
  w <- get_ws_name wa ;;
  match w with
  | None => fail ECmd
  | Some w =>
      nn <- unique_ws new_name ;;
      catch is_ws
        (rename_ws W w nn ;;;
         c <- get_current W ;;
         match c with
         | Some c' => if (w =? c')%string then set_current_ws (Some nn) else ret tt
         | None => ret tt
         end)
  end.
(** dedop/cli/main.py:317-329 *)
Definition ws_current (wa : option string) : M unit :=
  catch is_ws (match given wa with
               | Some w => set_current_ws (Some w)
               | None => get_current W ;;; ret tt
               end).

(** * dedop config *)

(** dedop/cli/main.py:651-665 *)
Definition set_current_cfg (w : string) (c : option string) : M unit :=
  match given c with
  | Some c' => set_current_config W w c'
  | None => set_current_config W w ""
  end.
(** dedop/cli/main.py:631-648; [None] as name: TypeError in os.path.join *)
Definition create_cfg (wa : option string) (c : option string) (exist_ok cryosat : bool) : M string :=
  w <- match wa with Some w => ret w | None => create_default_workspace end ;;
  match c with
  | None => if exist_ok then fail EType else assert_ws W w ;;; fail EType
  | Some c =>
      ex <- config_exists W w c ;;
      if exist_ok && ex then ret c
      else create_config W resource w c cryosat ;;; set_current_cfg w (Some c) ;;; ret c
  end.
(** dedop/cli/main.py:627-628 *)
Definition create_default_config (w : string) : M string := create_cfg (Some w) (Some "default") true false.

(** dedop/cli/main.py:468-474 *)
Definition cf_add (wa : option string) (c : string) (cryosat : bool) : M unit :=
  wc <- get_ws_config wa (Some c) ;;
  catch is_ws (create_cfg (fst wc) (snd wc) false cryosat ;;; ret tt).
(** the workspace and configuration must be known:
    dedop/cli/main.py:479-483, 508-512, 527-531, ... *)
Definition known (wa ca : option string) : M (string * string) :=
  wc <- get_ws_config wa ca ;;
  match fst wc, given (snd wc) with
  | Some w, Some c => ret (w, c)
  | _, _ => fail ECmd
  end.
(** dedop/cli/main.py:477-503; get_config_names may return None *)
Definition cf_remove (wa ca : option string) (yes : bool) : M unit :=
  wc <- known wa ca ;;
  let '(w, c) := wc in
  if yes then
    catch is_ws
      (delete_config W w c ;;;
       cur <- get_current_config W w ;;
       match cur with
       | Some c' => if (c =? c')%string then
                      names <- get_config_names W w ;;
                      names <- need EType names ;;
                      set_current_cfg w (fallback names)
                    else ret tt
       | None => ret tt
       end)
  else ret tt.
(** dedop/cli/main.py:668-675: [x in None] is a TypeError *)
Definition unique_config (w new_name : string) : M string :=
  names <- get_config_names W w ;;
  names <- need EType names ;;
  need EValue (unique_name names new_name).
(** dedop/cli/main.py:506-522 *)
Definition cf_copy (wa ca new_name : option string) : M unit :=
  wc <- known wa ca ;;
  let '(w, c) := wc in
  nn <- unique_config w (match given new_name with Some x => x | None => (c ++ "_copy")%string end) ;;
  catch is_ws (copy_config W w c nn).
(** dedop/cli/main.py:525-540 *)
Definition cf_rename (wa ca : option string) (new_name : string) : M unit :=
  wc <- known wa ca ;;
  let '(w, c) := wc in
  nn <- unique_config w new_name ;;
  catch is_ws
    (rename_config W w c nn ;;;
     cur <- get_current_config W w ;;
     match cur with
     | Some c' => if (c =? c')%string then set_current_cfg w (Some nn) else ret tt
     | None => ret tt
     end).
(** dedop/cli/main.py:543-558 (the editor is external) *)
Definition cf_edit (wa ca : option string) : M unit :=
  wc <- get_ws_config wa ca ;;
  catch is_ws_os
    (w <- match fst wc with Some w => ret w | None => create_default_workspace end ;;
     match given (snd wc) with
     | Some _ => ret tt
     | None => create_default_config w ;;; ret tt
     end).
(** dedop/cli/main.py:561-577 *)
Definition cf_current (wa ca : option string) : M unit :=
  wc <- get_ws_config wa ca ;;
  let w := match fst wc with Some w => w | None => "default" end in
  catch is_ws
    (match given (snd wc) with
     | Some c => set_current_cfg w (Some c)
     | None => get_current_config W w ;;; ret tt
     end).
(** dedop/cli/main.py:114-123: all three texts are read first *)
Definition require_upgrade (w c : string) : M bool :=
  let get key := s <- look (read_file (config_file W w c key)) ;;
                 s <- need EOs s ;; need EValue (newer key s) in
  a <- get "CHD" ;; b <- get "CNF" ;; d <- get "CST" ;; ret (a || b || d).
(** dedop/cli/main.py:604-614; without any configuration name: TypeError *)
Definition cf_upgrade (wa ca : option string) : M unit :=
  wc <- get_ws_config wa ca ;;
  match fst wc with
  | None => fail ECmd
  | Some w =>
      c <- need EType (snd wc) ;;
      up <- require_upgrade w c ;;
      if up then upgrade_all_config W upg w c else ret tt
  end.

(** * dedop input *)

(** dedop/cli/main.py:728-748; [inputs] has at least one element *)
Definition in_add (wa : option string) (inputs : list string) : M unit :=
  w <- get_ws_name wa ;;
  ps <- look (glob inputs) ;;
  match ps with
  | [] => fail ECmd
  | _ :: _ =>
      catch is_ws
        (w <- match w with Some w => ret w | None => create_default_workspace end ;;
         add_inputs W w ps)
  end.
(** dedop/cli/main.py:751-775 *)
Definition in_remove (wa : option string) (inputs : list string) (yes : bool) : M unit :=
  w <- get_ws_name wa ;;
  match w with
  | None => fail ECmd
  | Some w =>
      l <- get_input_names W fnmatch w (match inputs with [] => POne "*.nc" | l => PMany l end) ;;
      match l with
      | [] => fail ECmd
      | _ :: _ => if yes then catch is_ws (remove_inputs W w l) else ret tt
      end
  end.

(** * dedop output *)

(** dedop/cli/main.py:875-898 *)
Definition out_clean (wa ca : option string) (yes : bool) : M unit :=
  wc <- known wa ca ;;
  let '(w, c) := wc in
  l <- get_output_names W fnmatch w c PNone ;;
  match l with
  | [] => fail ECmd
  | _ :: _ => if yes then catch is_ws (remove_outputs W w c) else ret tt
  end.

(** [ntpath.basename] of an absolute path of the tree: what follows the last
    backslash of its last component. *)
Fixpoint after_backslash (s : string) : string :=
  match s with
  | EmptyString => EmptyString
  | String c r => if has_char "\"%char r then after_backslash r
                  else if Ascii.eqb c "\"%char then r else s
  end.
Definition nt_base (p : path) : string := after_backslash (last p "").

(** More rounds than existing notebooks are never needed (C55): the number of
    entries of the directory. *)
Definition entries (p : path) (n : node) : nat :=
  match listdir p n with Some l => List.length l | None => 0 end.
Definition launch (w base text : string) : M unit :=
  fuel <- look (fun n => S (entries (notebooks_path W w) n)) ;;
  make_notebook W fuel w base text ;;; ret tt.

(** a product argument with a directory part is a path:
    [os.path.dirname(s)] is not empty *)
Definition has_dirname (s : string) : bool := has_char slash s.
(** [os.path.abspath(s)] *)
Definition abspath (s : string) : path := join cwd s.

(** dedop/cli/main.py:916-935 *)
Definition out_inspect (wa ca : option string) (file : string) : M unit :=
  wc <- get_ws_config wa ca ;;
  catch is_ws
    (w <- match fst wc with Some w => ret w | None => create_default_workspace end ;;
     p <- (if has_dirname file then ret (abspath file)
           else match given (snd wc) with
                | None => fail ECmd
                | Some c => ret (join (outputs_path W w c) file)
                end) ;;
     ex <- look (exists_at p) ;;
     if ex then launch w ("inspect-" ++ nt_base p)%string (inspect_text p) else fail ECmd).

(** dedop/cli/main.py:938-978: the two products that are compared, and the
    workspace of the notebook.  l.962 tests [l1b_filename_1], and a missing
    second name reaches os.path.abspath / os.path.join: TypeError. *)
Definition compare_paths (w1 : string) (c1 w2 c2 : option string) (file1 : string) (file2 : option string)
  : M (path * path) :=
  let w2 := match given w2 with Some x => x | None => w1 end in
  let c2 := match given c2 with Some x => Some x | None => c1 end in
  p1 <- (if has_dirname file1 then ret (abspath file1)
         else match given c1 with
              | None => fail ECmd
              | Some c => ret (join (outputs_path W w1 c) file1)
              end) ;;
  ex <- look (exists_at p1) ;;
  if negb ex then fail ECmd
  else
    p2 <- (if has_dirname file1 then
             match file2 with Some f => ret (abspath f) | None => fail EType end
           else match given c2 with
                | None => fail ECmd
                | Some c => match file2 with
                            | Some f => ret (join (outputs_path W w2 c) f)
                            | None => fail EType
                            end
                end) ;;
    ex2 <- look (exists_at p2) ;;
    if negb ex2 then fail ECmd else ret (p1, p2).
Definition out_compare (wa ca w2 c2 : option string) (file1 : string) (file2 : option string) : M unit :=
  wc <- get_ws_config wa ca ;;
  catch is_ws
    (w <- match fst wc with Some w => ret w | None => create_default_workspace end ;;
     ps <- compare_paths w (snd wc) w2 c2 file1 file2 ;;
     let '(p1, p2) := ps in
     launch w ("compare-" ++ nt_base p1 ++ "-" ++ nt_base p2)%string (compare_text p1 p2)).

(** * dedop run *)

(** dedop/cli/main.py:183-196: what the processor is built from *)
Record job := {
  j_name : string;
  j_chd : path; j_cnf : path; j_cst : path;
  j_out : path;
  j_skip : bool }.
(** what happens in a run: a processor is built, an input is processed *)
Inductive event :=
| Built (j : job)
| Processed (j : job) (input : path).

(** computations that record events; events happen even if they fail *)
Definition T (A : Type) := list event -> node -> list event * node * res err A.
Definition retT {A} (a : A) : T A := fun t n => (t, n, Ok a).
Definition bindT {A B} (m : T A) (f : A -> T B) : T B :=
  fun t n => match m t n with
             | (t', n', Ok a) => f a t' n'
             | (t', n', Err e) => (t', n', Err e)
             end.
Definition lift {A} (m : M A) : T A :=
  fun t n => let '(n', r) := m n in (t, n', r).
Definition catchT {A} (sel : err -> bool) (m : T A) : T A :=
  fun t n => match m t n with
             | (t', n', Err e) => (t', n', Err (if sel e then ECmd else e))
             | r => r
             end.
(** an external step: recorded, then performed; its effect may depend on
    everything that happened before *)
Definition external (f : list event -> M unit) (e : event) : T unit :=
  fun t n => let '(n', r) := f t n in (t ++ [e], n', r).
Fixpoint forT {A} (f : A -> T unit) (l : list A) : T unit :=
  match l with
  | [] => retT tt
  | x :: r => bindT (f x) (fun _ => forT f r)
  end.

(** building a processor and processing one input *)
Variable mk : job -> list event -> M unit.
Variable pr : job -> path -> list event -> M unit.

Record run_args := {
  ra_ws : option string; ra_config : option string; ra_inputs : list string;
  ra_out : option string; ra_all : bool; ra_skip : bool }.

(** dedop/cli/main.py:184-189 *)
Definition job_of (a : run_args) (w c : string) : job := {|
  j_name := c;
  j_chd := config_file W w c "CHD"; j_cnf := config_file W w c "CNF"; j_cst := config_file W w c "CST";
  j_out := match given (ra_out a) with Some o => abspath o | None => outputs_path W w c end;
  j_skip := ra_skip a |}.
(** dedop/cli/main.py:158-181: workspace, configurations and inputs.  A
    relative input is relative to the working directory. *)
Definition run_plan (a : run_args) : M (string * list string * list path) :=
  match ra_all a, given (ra_config a) with
  | true, Some _ => fail ECmd
  | _, _ =>
      wc <- get_ws_config (ra_ws a) (ra_config a) ;;
      w <- match fst wc with Some w => ret w | None => create_default_workspace end ;;
      cs <- (if ra_all a then
               l <- get_config_names W w ;;
               match l with None | Some [] => fail ECmd | Some l' => ret l' end
             else match given (snd wc) with
                  | Some c => ret [c]
                  | None => c <- create_default_config w ;; ret [c]
                  end) ;;
      ps <- match ra_inputs a with
            | [] => get_input_paths W fnmatch w
            | l => ret (map abspath l)
            end ;;
      match ps with [] => fail ECmd | _ :: _ => ret (w, cs, ps) end
  end.
(** dedop/cli/main.py:183-199 *)
Definition run_jobs (a : run_args) (w : string) (cs : list string) (ps : list path) : T unit :=
  forT (fun c => let j := job_of a w c in
                 bindT (external (mk j) (Built j))
                   (fun _ => forT (fun p => external (pr j p) (Processed j p)) ps)) cs.
(** dedop/cli/main.py:155-202 *)
Definition run (a : run_args) : T unit :=
  catchT is_ws_proc
    (bindT (lift (run_plan a)) (fun plan => let '(w, cs, ps) := plan in run_jobs a w cs ps)).

(** * Web services *)

(** dedop/webapi/websocket.py:25-27 *)
Definition api_new (w : string) : M unit := create_ws W w.
(** dedop/webapi/websocket.py:29-37 *)
Definition api_delete (w : string) : M unit :=
  delete_ws W w ;;;
  names <- get_ws_names W ;;
  set_current W (match fallback names with Some x => x | None => "" end).
(** dedop/webapi/websocket.py:39-41 *)
Definition api_copy (w w' : string) : M unit := copy_ws W w w'.
(** dedop/webapi/websocket.py:43-45 *)
Definition api_rename (w w' : string) : M unit := rename_ws W w w'.
(** dedop/webapi/websocket.py:51-53 *)
Definition api_set_current (w : string) : M unit := set_current W w.
(** dedop/webapi/websocket.py:73-81 *)
Definition api_delete_config (w c : string) : M unit :=
  delete_config W w c ;;;
  names <- get_config_names W w ;;
  names <- need EType names ;;
  set_current_config W w (match fallback names with Some x => x | None => "" end).
(** dedop/webapi/websocket.py:115-121 *)
Definition api_job (name w c : string) (out : path) : job := {|
  j_name := name;
  j_chd := config_file W w c "CHD"; j_cnf := config_file W w c "CNF"; j_cst := config_file W w c "CST";
  j_out := out; j_skip := false |}.

End Cli.
