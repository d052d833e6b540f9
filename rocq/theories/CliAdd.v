(** C102: what the command that adds inputs does. *)
From Coq Require Import Ascii String List Bool Arith Lia.
From Verif Require Import Common Dict FsModel FsProofs WsModel WsSpec WsProofs WsProps IoSpec IoProofs IoProps CliModel.
Import ListNotations.
Open Scope string_scope.
Open Scope list_scope.

(** All files that the patterns mean are added to the workspace named, under the
    conditions of [C102_add_partial]; if they mean none, nothing changes. *)
Theorem C102_add_command_partial : forall W glob w inputs l n, plain w = true ->
  glob inputs n = map (fun e : path * string * string => fst (fst e) ++ [snd (fst e)]) l ->
  is_dir (ws_dir W w) n = true -> is_file (ws_dir W w ++ ["inputs"]) n = false ->
  NoDup (map (fun e => snd (fst e)) l) ->
  (forall b x s, In (b, x, s) l -> plain x = true /\ file_at n (b ++ [x]) s /\
     b <> ws_dir W w ++ ["inputs"] /\ is_dir (ws_dir W w ++ ["inputs"] ++ [x]) n = false) ->
  (l = [] -> in_add W glob (Some w) inputs n = (n, Err ECmd)) /\
  (l <> [] -> exists n', in_add W glob (Some w) inputs n = (n', Ok tt) /\
     files_changed n n' (map (fun e => ws_dir W w ++ ["inputs"] ++ [snd (fst e)]) l)
       (fun q t => exists b x, In (b, x, t) l /\ q = ws_dir W w ++ ["inputs"] ++ [x])).
Proof.
  intros W glob w inputs l n Pw G D F ND H.
  assert (NE : (w =? "")%string = false) by (unfold plain in Pw; rewrite !andb_true_iff in Pw; destruct Pw as (((_ & Pw) & _) & _); now apply negb_true_iff in Pw).
  assert (R : in_add W glob (Some w) inputs n = match glob inputs n with [] => (n, Err ECmd) | _ :: _ => catch is_ws (add_inputs W w (glob inputs n)) n end).
  { unfold in_add, get_ws_name, given. rewrite NE. unfold bindM, ret, look. destruct (glob inputs n); reflexivity. }
  split; intros L.
  - rewrite R, G, L. reflexivity.
  - destruct (C102_add_partial W w l n Pw D F ND H) as (n' & A & FC & _). exists n'. split; [|exact FC].
    rewrite R, G. destruct l as [|e l]; [congruence|]. cbn [map]. unfold catch. cbn [map] in A. unfold path in *. rewrite A. reflexivity.
Qed.
Print Assumptions C102_add_command_partial.

Example C102_add_command_example : exists n',
  in_add ex_W (fun _ _ => [["home"; "l1a.nc"]]) (Some "a") ["/home/*.nc"] ex_tree = (n', Ok tt) /\
  file_at n' (ex_W ++ ["a"; "inputs"; "l1a.nc"]) "data".
Proof. eexists. split; vm_compute; reflexivity. Qed.
