(** C126: the names of the workspaces can be read back from the status. *)
From Coq Require Import Ascii String List Bool.
From Verif Require Import ShowModel.
Import ListNotations.
Open Scope string_scope.

(** No comma in a text. *)
Definition no_comma (s : string) : Prop := ~ In ","%char (list_ascii_of_string s).

Lemma cut_unique : forall x y a b, no_comma x -> no_comma y -> x ++ String "," a = y ++ String "," b -> x = y /\ a = b.
Proof.
  induction x as [|c x IH]; intros [|d y] a b X Y E; cbn in E.
  - injection E as ->. auto.
  - injection E as <- _. elim Y. now left.
  - injection E as -> _. elim X. now left.
  - injection E as -> E. destruct (IH y a b) as (-> & ->); auto; intros H; [apply X|apply Y]; now right.
Qed.
Lemma no_cut : forall x y a, no_comma x -> x <> y ++ String "," a.
Proof.
  intros x y a X ->. apply X. clear X. induction y as [|c y IH]; cbn; auto.
Qed.

(** Two lists of names without commas that are shown alike are the same list. *)
Theorem C126_names : forall l l', (forall x, In x l -> x <> "" /\ no_comma x) -> (forall x, In x l' -> x <> "" /\ no_comma x) ->
  commas l = commas l' -> l = l'.
Proof.
  induction l as [|x l IH]; intros [|y l'] H H' E.
  - reflexivity.
  - exfalso. destruct (H' y (or_introl eq_refl)) as (N & _). destruct l'; cbn in E; [congruence|]. destruct y; [now elim N|discriminate].
  - exfalso. destruct (H x (or_introl eq_refl)) as (N & _). destruct l; cbn in E; [congruence|]. destruct x; [now elim N|discriminate].
  - destruct (H x (or_introl eq_refl)) as (_ & X). destruct (H' y (or_introl eq_refl)) as (_ & Y).
    destruct l as [|x2 l], l' as [|y2 l'].
    + cbn in E. congruence.
    + exfalso. apply (no_cut x y (" " ++ commas (y2 :: l')) X). exact E.
    + exfalso. apply (no_cut y x (" " ++ commas (x2 :: l)) Y). symmetry. exact E.
    + change (x ++ String "," (" " ++ commas (x2 :: l)) = y ++ String "," (" " ++ commas (y2 :: l'))) in E.
      apply cut_unique in E as (-> & E); auto. f_equal. apply IH.
      * intros z I. apply H. now right.
      * intros z I. apply H'. now right.
      * cbn [append] in E. injection E as E. exact E.
Qed.
Print Assumptions C126_names.

(** A name with a comma can look like two names. *)
Theorem C126_names_refuted : commas ["a, b"] = commas ["a"; "b"] /\ ["a, b"] <> ["a"; "b"].
Proof. split; [reflexivity|discriminate]. Qed.
Print Assumptions C126_names_refuted.

Example C126_example_names : commas ["north"; "south"; "tests"] = "north, south, tests" /\
  forall x, In x ["north"; "south"; "tests"] -> x <> "" /\ no_comma x.
Proof.
  split; [reflexivity|]. intros x I. split.
  - intros ->. cbn in I. intuition discriminate.
  - cbn in I. destruct I as [<-|[<-|[<-|[]]]]; unfold no_comma; cbn; intuition discriminate.
Qed.
