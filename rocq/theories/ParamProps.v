(** C43-C45: algorithm parameters and tool configuration. *)
From Coq Require Import String List Bool Arith.
From Verif Require Import Common Dict ParamModel ParamSpec ParamProofs.
Import ListNotations.
Open Scope string_scope.
Open Scope list_scope.

(** C43: every declared parameter, of any hierarchy Python accepts, is an
    attribute of the instance. *)
Theorem C43_available : forall V (cnf : string -> option V) c name,
  creatable c ->
  (declared c name <-> exists v, dget name (collect_values cnf c) = Some v).
Proof.
  intros V cnf c name Hc. rewrite values_dget. unfold get_parameters.
  pose proof (collect_found c [] name Hc) as H. cbn [dget] in H. split.
  - intro Hd. destruct (dget name (collect c [])) as [p|] eqn:E.
    + eexists. reflexivity.
    + exfalso. apply (proj2 H); [left; exact Hd|reflexivity].
  - intros [v Hv]. destruct (dget name (collect c [])) as [p|] eqn:E; [|discriminate].
    destruct (proj1 H ltac:(congruence)) as [Hd|Hd]; [exact Hd|congruence].
Qed.
Print Assumptions C43_available.

(** Its value: the configuration's, else the default of the nearest
    declaration. *)
Theorem C43_value : forall V (cnf : string -> option V) c name p,
  hierarchy c -> nearest c name = Some p ->
  dget name (collect_values cnf c) =
  Some (match cnf name with Some v => v | None => d_default p end).
Proof.
  intros V cnf c name p Hc Hn. rewrite values_dget. unfold get_parameters.
  rewrite collect_nearest by exact Hc. rewrite Hn. cbn [option_map]. unfold value_for.
  assert (Hp : d_name p = name); [|rewrite Hp; reflexivity].
  assert (E : dget name (collect c []) = Some p).
  { rewrite collect_nearest by exact Hc. rewrite Hn. reflexivity. }
  destruct (collect_ok c []) as [A B]; [constructor|intros ? ? []|].
  apply B. apply dget_some_in. exact E.
Qed.
Print Assumptions C43_value.

(** C44: for single inheritance both lookups give the nearest declaration; in
    every hierarchy they find the same names ... *)
Theorem C44_single_partial : forall V (c : pycls V) name, hierarchy c ->
  get_parameter c name = dget name (get_parameters c) /\ get_parameter c name = nearest c name.
Proof.
  intros V c name H. unfold get_parameters. rewrite collect_nearest by exact H.
  rewrite get_parameter_nearest by exact H. cbn [dget]. split; [|reflexivity].
  destruct (nearest c name); reflexivity.
Qed.
Print Assumptions C44_single_partial.

Theorem C44_found_partial : forall V (c : pycls V) name, creatable c ->
  (get_parameter c name <> None <-> dget name (get_parameters c) <> None).
Proof.
  intros V c name H. rewrite (get_parameter_found c name H). unfold get_parameters.
  rewrite (collect_found c [] name H). cbn [dget]. split; [auto|]. intros [A|A]; [exact A|congruence].
Qed.
Print Assumptions C44_found_partial.

(** ... but with two bases they can disagree. *)
Definition ex_decl (name : string) (v : nat) : decl nat :=
  {| d_name := name; d_default := v; d_value_set := None |}.
Theorem C44_multiple_refuted :
  exists (c : pycls nat) name, creatable c /\ get_parameter c name <> dget name (get_parameters c).
Proof.
  exists (Cls 3 [ex_decl "z" 0] [Cls 1 [ex_decl "x" 1] []; Cls 2 [ex_decl "x" 2] []]), "x".
  split; vm_compute; discriminate.
Qed.
Print Assumptions C44_multiple_refuted.

(** A base class, a subclass without declarations, and one overriding. *)
Definition ex_base : pycls nat := Cls 0 [ex_decl "n" 1; ex_decl "zp" 2; ex_decl "n" 9] [].
Definition ex_mid : pycls nat := Cls 1 [] [ex_base].
Definition ex_top : pycls nat := Cls 2 [ex_decl "flag" 5; ex_decl "zp" 7] [ex_mid].
Example C43_example :
  hierarchy ex_top /\ creatable ex_top /\
  map (fun k => dget k (collect_values (fun k => if k =? "flag" then Some 100 else None) ex_top))
    ["flag"; "zp"; "n"; "other"] = [Some 100; Some 7; Some 9; None] /\
  map (fun k => option_map (@d_default nat) (get_parameter ex_top k)) ["flag"; "zp"; "n"; "other"]
  = [Some 5; Some 7; Some 9; None].
Proof.
  split.
  - split; [exact I|]. cbn. repeat constructor; cbn; intuition discriminate.
  - split; [vm_compute; discriminate|]. split; reflexivity.
Qed.

(** C45: every answer of a sequence of queries is decided by the files at the
    first proper query: local file, else user file, else the default given. *)
Theorem C45_answers_partial : forall V (l : list (@fsys V * string * V)) fs0 n fs name default,
  first_files l = Some fs0 -> dict_file (local_file fs0) ->
  exits (user_now fs0) = false -> exits (local_file fs0) = false ->
  nth_error l n = Some (fs, name, default) ->
  nth_error (queries l None) n =
  Some (if name =? "" then NameError else Value (configured fs0 name default)).
Proof. intros. eapply queries_fresh; eauto. Qed.
Print Assumptions C45_answers_partial.

Example C45_example :
  let fs0 := {| user_file := File (Loads [("a", 1); ("b", 2)]); local_file := File (Loads [("b", 3)]);
                w_after := Nothing |} in
  let fs1 := {| user_file := Nothing; local_file := File Fails; w_after := File (Loads [("a", 4)]) |} in
  queries [(fs1, "", 0); (fs0, "a", 0); (fs1, "b", 0); (fs1, "c", 8)] None
  = [NameError; Value 1; Value 3; Value 8] /\
  queries [(fs1, "a", 0); (fs0, "b", 5)] None = [Value 4; Value 5].
Proof. split; reflexivity. Qed.

(** A user file that leaves the interpreter ([sys.exit]) instead of failing:
    the first query does not return, and afterwards the local file is never
    consulted. *)
Theorem C45_exit_refuted :
  exists (fs : @fsys nat) name, name <> "" /\ said (local_file fs) name = Some 1 /\
    queries [(fs, name, 0); (fs, name, 0)] None = [Exited; Value 0].
Proof.
  exists {| user_file := File Exits; local_file := File (Loads [("a", 1)]); w_after := Nothing |}, "a".
  repeat split; discriminate.
Qed.
Print Assumptions C45_exit_refuted.
