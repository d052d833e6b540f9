(** C51: deleting all workspaces. *)
From Coq Require Import String List Bool.
From Verif Require Import Common Dict FsModel FsProofs WsModel WsSpec WsProofs WsProps.
Import ListNotations.
Local Open Scope string_scope.
Local Open Scope list_scope.

(** Nothing is left in the directory of the workspaces, nothing outside it changes, and no workspace
    is current any more; without that directory nothing happens. *)
Theorem C51_all : forall W n, W <> [] ->
  (is_dir W n = true -> exists n', delete_all W n = (n', Ok tt) /\ (forall q, exists_at (W ++ q) n' = false) /\
     (forall q, is_prefix W q = false -> is_prefix q W = false -> lookup q n' = lookup q n) /\
     get_current W n' = (n', Ok None)) /\
  (is_dir W n = false -> delete_all W n = (n, Ok tt)).
Proof.
  intros W n HW. split; intros D.
  - unfold delete_all, bindM, look. rewrite D. unfold fs.
    revert D. rewrite (app_removelast_last "" HW). set (b := removelast W). set (x := last W ""). intros D.
    unfold is_dir in D. destruct (lookup (b ++ [x]) n) as [[s|d]|] eqn:L; try discriminate.
    destruct (rmtree_spec b x n d L) as [n' [E [L1 O]]]. exists n'. rewrite E. split; [reflexivity|].
    assert (G : forall q, exists_at ((b ++ [x]) ++ q) n' = false) by (intros q; unfold exists_at; rewrite lookup_app, L1; reflexivity).
    split; [exact G|]. split; [intros q A1 A2; apply O; intros P [<-|[]]; split; assumption|].
    unfold get_current, current_file, readline_at, look. rewrite (join_plain _ ".current" eq_refl). unfold read_file. rewrite lookup_app, L1. reflexivity.
  - unfold delete_all, bindM, look. rewrite D. reflexivity.
Qed.
Print Assumptions C51_all.
Example C51_all_example : is_dir ex_W ex_tree = true /\ snd (delete_all ex_W ex_tree) = Ok tt /\
  exists_at (ws_dir ex_W "a") ex_tree = true /\ exists_at (ws_dir ex_W "a") (fst (delete_all ex_W ex_tree)) = false /\
  exists_at ["home"; "l1a.nc"] (fst (delete_all ex_W ex_tree)) = true.
Proof. repeat split; reflexivity. Qed.
