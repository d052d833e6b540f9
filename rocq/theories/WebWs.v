(** C48, C49: copying and renaming workspaces over the web interface. *)
From Coq Require Import Ascii String List Bool.
From Verif Require Import Common Dict FsModel WsModel WsSpec WsProps CliModel.
Import ListNotations.
Open Scope string_scope.
Open Scope list_scope.

(** A web client that copies a workspace gets a second one with the same content; one that renames
    it finds the content under the new name only; the rest stays. *)
Theorem C49_web_partial : forall W w w' n d, plain w = true -> plain w' = true ->
  lookup (ws_dir W w) n = Some (NDir d) -> exists_at (ws_dir W w') n = false ->
  (exists n', api_copy W w w' n = (n', Ok tt) /\
     lookup (ws_dir W w') n' = Some (NDir d) /\ lookup (ws_dir W w) n' = Some (NDir d) /\
     (forall q, is_prefix (ws_dir W w') q = false -> is_prefix q (ws_dir W w') = false -> lookup q n' = lookup q n)) /\
  (exists n', api_rename W w w' n = (n', Ok tt) /\
     lookup (ws_dir W w') n' = Some (NDir d) /\ exists_at (ws_dir W w) n' = false /\
     (forall q, is_prefix (ws_dir W w) q = false -> is_prefix q (ws_dir W w) = false ->
                is_prefix (ws_dir W w') q = false -> is_prefix q (ws_dir W w') = false -> lookup q n' = lookup q n)).
Proof.
  intros W w w' n d Hw Hw' L N. split; [exact (C48_workspace W w w' n d Hw Hw' L N)|].
  apply (C49_workspace_partial W w w' n (NDir d) Hw Hw'); [|exact L|exact N].
  intros <-. unfold exists_at in N. rewrite L in N. discriminate.
Qed.
Print Assumptions C49_web_partial.
Example C49_web_example :
  lookup ["home"; "ws"; "c"; "inputs"; "a.nc"] (fst (api_rename ex_W "b" "c" ex_tree)) = Some (NFile "a") /\
  exists_at ["home"; "ws"; "b"] (fst (api_rename ex_W "b" "c" ex_tree)) = false /\
  lookup ["home"; "ws"; "c"; "inputs"; "a.nc"] (fst (api_copy ex_W "b" "c" ex_tree)) = Some (NFile "a") /\
  exists_at ["home"; "ws"; "b"] (fst (api_copy ex_W "b" "c" ex_tree)) = true.
Proof. repeat split; reflexivity. Qed.
