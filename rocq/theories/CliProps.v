(** Theorems about the commands of the command line. *)
From Coq Require Import Ascii String List Bool Arith Lia Sorted.
From Verif Require Import Common Dict FsModel FsProofs WsModel WsSpec WsProofs NameModel CliModel CliSpec CurProofs CliProofs SelProofs.
Import ListNotations.
Open Scope string_scope.
Open Scope list_scope.

(** * C50: the current workspace exists *)

(** From a sound tree, after every session of commands with ordinary names,
    the current workspace is unset or is a listed workspace. *)
Theorem C50_current_listed_partial : forall W resource upg fnmatch newer cwd ss n c,
  sound W n -> forallb step_ordinary ss = true ->
  let n' := session W resource upg fnmatch newer cwd ss n in
  get_current W n' = (n', Ok (Some c)) ->
  c = "" \/ (is_dir (W ++ [c]) n' = true /\
             exists l, get_ws_names W n' = (n', Ok l) /\ In c l).
Proof.
  intros W resource upg fnmatch newer cwd ss n c S H n' G.
  pose proof (session_sound W resource upg fnmatch newer cwd ss n S H) as S'. fold n' in S'.
  rewrite current_eq in G. destruct (read_file (W ++ [".current"]) n') as [t|] eqn:R; [|discriminate].
  cbn [option_map] in G. injection G as <-. apply read_file_some in R.
  destruct (proj2 (sound_ws W n' S') t R) as [E|E]; [left; exact E|]. right. split; [exact E|].
  destruct (names_eq W n' (base_dir W _ _ (is_dir_exists _ _ E))) as [l [L1 L2]].
  exists l. split; [exact L1|]. apply L2. exact E.
Qed.
Print Assumptions C50_current_listed_partial.

(** The tree stays sound, so the statement applies to what follows; a tree
    without a workspaces directory is sound. *)
Theorem C50_sound_partial : forall W resource upg fnmatch newer cwd ss n,
  forallb step_ordinary ss = true ->
  (sound W n -> sound W (session W resource upg fnmatch newer cwd ss n)) /\
  (exists_at W n = false -> sound W n).
Proof.
  intros W resource upg fnmatch newer cwd ss n H. split.
  - intro S. apply session_sound; assumption.
  - intro E. assert (L : lookup W n = None) by (unfold exists_at in E; destruct (lookup W n); congruence).
    split; [apply (cinv_none W n L)|]. intros w Hw. apply (cinv_none (W ++ [w; "configs"]) n).
    rewrite lookup_app, L. reflexivity.
Qed.
Print Assumptions C50_sound_partial.

(** Which workspace is selected: a new one; a renamed one under its new name,
    with its content; and after a removal "default" or the first one. *)
Theorem C50_selected_partial : forall W n w, sound W n -> ordinary w = true ->
  (forall n', ws_add W w n = (n', Ok tt) -> get_current W n' = (n', Ok (Some w))) /\
  (forall nn n', ordinary nn = true -> get_current W n = (n, Ok (Some w)) ->
     ws_rename W (Some w) nn n = (n', Ok tt) ->
     exists v, get_current W n' = (n', Ok (Some v)) /\ v <> w /\
               lookup (W ++ [v]) n' = lookup (W ++ [w]) n /\ lookup (W ++ [w]) n' = None) /\
  (forall n', get_current W n = (n, Ok (Some w)) -> ws_remove W (Some w) true n = (n', Ok tt) ->
     exists l, get_ws_names W n' = (n', Ok l) /\ ~ In w l /\
       get_current W n' = (n', Ok (Some (if mem_s "default" l then "default"
                                         else match l with x :: _ => x | [] => "" end)))) /\
  (forall c n', get_current W n = (n, Ok (Some c)) -> c <> w -> ws_remove W (Some w) true n = (n', Ok tt) ->
     get_current W n' = (n', Ok (Some c))).
Proof.
  intros W n w S O.
  assert (Setc : forall s m m', s = "" \/ ordinary s = true -> set_current W s m = (m', Ok tt) ->
            get_current W m' = (m', Ok (Some s)) /\ write_file (W ++ [".current"]) s m = Some m').
  { intros s m m' Hs H. unfold set_current, assert_ws, thenM, bindM, look in H.
    destruct (exists_at (ws_path W s) m); [|discriminate]. unfold ret, writeline, fs in H.
    rewrite current_file_eq in H. destruct (write_file (W ++ [".current"]) s m) as [m1|] eqn:F; [|discriminate].
    injection H as ->. split; [|reflexivity]. rewrite current_eq. unfold write_file in F. destruct (is_dir _ m); [discriminate|].
    unfold read_file. rewrite (write_at _ _ _ _ _ F). cbn [option_map].
    destruct Hs as [->|Os]; [reflexivity|]. rewrite (readline_ordinary s Os). reflexivity. }
  assert (Cur : forall c, get_current W n = (n, Ok (Some c)) ->
            exists t, lookup (W ++ [".current"]) n = Some (NFile t) /\ readline t = c).
  { intros c G. rewrite current_eq in G. destruct (read_file (W ++ [".current"]) n) as [t|] eqn:R; [|discriminate].
    cbn [option_map] in G. injection G as G. apply read_file_some in R. eauto. }
  split; [|split; [|split]].
  - intros n' H. unfold ws_add, catch, create_workspace, thenM in H. unfold bindM at 1 2 in H.
    unfold ws_exists, look in H. cbn [andb] in H. cbv beta iota in H. unfold bindM at 1 in H.
    destruct (create_ws W w n) as [n1 [[]|e]]; [|discriminate]. unfold bindM at 1 in H.
    rewrite set_current_ws_eq, (ordinary_given w O) in H.
    destruct (set_current W w n1) as [n2 [[]|e]] eqn:E; [|discriminate].
    unfold ret in H. injection H as <-. apply (Setc w n1 n2 (or_intror O) E).
  - intros nn n' On G H. destruct (Cur w G) as [t [Lt Rt]].
    unfold ws_rename in H. unfold bindM at 1 in H. unfold get_ws_name in H. rewrite (ordinary_given w O) in H.
    unfold ret in H. unfold bindM at 1 in H.
    pose proof (hoare_unique_ws W nn w (or_intror On) O n S) as U.
    destruct (unique_ws W nn n) as [n1 [r|e]] eqn:EU; [|discriminate].
    assert (n1 = n).
    { unfold unique_ws, bindM in EU. destruct (get_ws_names W n) as [n2 [l|e]] eqn:EN; [|discriminate].
      assert (n2 = n).
      { unfold get_ws_names, bindM, look in EN. destruct (exists_at W n); [|injection EN; auto].
        unfold subdirs, bindM, look in EN. destruct (listdir W n); cbn in EN; injection EN; auto. }
      subst n2. destruct (unique_name l nn); cbn in EU; [|discriminate]. injection EU; auto. }
    subst n1. destruct U as [_ [Ur Nr]].
    unfold catch, thenM in H. unfold bindM at 1 in H.
    destruct Ur as [->|Or].
    { unfold rename_ws, assert_ws, thenM, bindM, look in H. destruct (exists_at (ws_path W w) n); discriminate. }
    rewrite (rename_ws_eq W w r n (ordinary_plain _ O) (ordinary_plain _ Or)) in H. unfold ws_dir in H.
    destruct (exists_at (W ++ [w]) n) eqn:E; [|discriminate].
    destruct (dir_of W w n (proj1 (sound_ws W n S)) O E) as [d L].
    assert (Nw : w <> r) by congruence.
    destruct (move_new W w r n _ Nw L Nr) as [n1 [Mv [L1 [L2 F]]]]. unfold fs in H. rewrite Mv in H.
    unfold bindM in H. rewrite current_eq in H.
    assert (Lt' : lookup (W ++ [".current"]) n1 = Some (NFile t)).
    { rewrite <- Lt. apply F. intros P [<-|[<-|[]]]; apply child_apart; apply ordinary_ne; assumption. }
    rewrite (proj2 (read_file_some _ n1 t) Lt') in H. cbn [option_map] in H. rewrite Rt, String.eqb_refl in H.
    rewrite set_current_ws_eq, (ordinary_given r Or) in H.
    destruct (set_current W r n1) as [n2 [[]|e]] eqn:E2; [|discriminate]. injection H as <-.
    destruct (Setc r n1 n2 (or_intror Or) E2) as [G2 Wf]. exists r. split; [exact G2|]. split; [congruence|].
    unfold write_file in Wf. destruct (is_dir (W ++ [".current"]) n1); [discriminate|].
    split.
    + rewrite (write_other _ _ _ _ _ (W ++ [r]) Wf) by (apply child_apart; intro X; apply (ordinary_ne r Or); congruence).
      rewrite L1, L. reflexivity.
    + rewrite (write_other _ _ _ _ _ (W ++ [w]) Wf) by (apply child_apart; intro X; apply (ordinary_ne w O); congruence).
      exact L2.
  - intros n' G H. destruct (Cur w G) as [t [Lt Rt]].
    unfold ws_remove in H. unfold bindM at 1 in H. unfold get_ws_name in H. rewrite (ordinary_given w O) in H.
    unfold ret in H. unfold catch, thenM in H. unfold bindM at 1 in H.
    rewrite (delete_ws_eq W w n (ordinary_plain _ O)) in H. unfold ws_dir in H.
    destruct (exists_at (W ++ [w]) n) eqn:E; [|discriminate].
    destruct (rmtree_but W w n (sound_ws W n S) O E) as [n1 [H1 [H2 [H3 H4]]]].
    unfold fs in H. rewrite H1 in H. unfold bindM at 1 in H. rewrite current_eq in H.
    assert (Lt' : lookup (W ++ [".current"]) n1 = Some (NFile t)).
    { rewrite <- Lt. apply H4. intro X. apply (ordinary_ne w O). congruence. }
    rewrite (proj2 (read_file_some _ n1 t) Lt') in H. cbn [option_map] in H. rewrite Rt, String.eqb_refl in H.
    destruct H2 as [T1 [D1 _]]. destruct (names_eq W n1 D1) as [l [EL Hl]].
    unfold bindM in H. rewrite EL in H. rewrite set_current_ws_eq in H.
    set (s := match given (fallback l) with Some x => x | None => "" end) in *.
    assert (Hs : s = "" \/ (ordinary s = true /\ is_dir (W ++ [s]) n1 = true)) by (apply (fallback_sel W n1 l T1 Hl)).
    destruct (set_current W s n1) as [n2 [[]|e]] eqn:E2; [|discriminate]. injection H as <-.
    destruct (Setc s n1 n2) as [G2 Wf]; [tauto|exact E2|].
    unfold write_file in Wf. destruct (is_dir (W ++ [".current"]) n1); [discriminate|].
    pose proof (write_above _ _ _ _ _ W [".current"] Wf eq_refl ltac:(discriminate)) as [D2 _].
    assert (NM : get_ws_names W n2 = (n2, Ok l)).
    { (* same listing: only the marker was written *)
      unfold get_ws_names, bindM, look in EL |- *. rewrite (is_dir_exists _ _ D1) in EL. rewrite (is_dir_exists _ _ D2).
      unfold subdirs, bindM, look, listdir in EL |- *.
      unfold is_dir in D1, D2.
      destruct (lookup W n1) as [[|d1]|] eqn:LA; try discriminate. destruct (lookup W n2) as [[|d2]|] eqn:LB; try discriminate.
      cbn [need] in EL |- *. unfold ret in EL |- *. injection EL as EL. f_equal. f_equal.
      assert (K : d2 = dset ".current" (NFile s) d1).
      { pose proof (write_child false W ".current" (Some (NFile s)) n1 n2 d1 LA Wf) as X.
        rewrite LB in X. injection X as ->. reflexivity. }
      rewrite <- EL. subst d2.
      assert (FC : filter (fun x => is_dir (W ++ [x]) n2) (keys (dset ".current" (NFile s) d1)) =
                   filter (fun x => is_dir (W ++ [x]) n1) (keys d1)).
      { assert (Q : forall x, is_dir (W ++ [x]) n2 = if (x =? ".current")%string then false else is_dir (W ++ [x]) n1).
        { intro x. destruct (x =? ".current")%string eqn:Ex.
          - apply String.eqb_eq in Ex. subst x. unfold is_dir. rewrite (write_at _ _ _ _ _ Wf). reflexivity.
          - apply String.eqb_neq in Ex. unfold is_dir. rewrite (write_other _ _ _ _ _ (W ++ [x]) Wf); [reflexivity|].
            apply child_apart. congruence. }
        assert (Q1 : is_dir (W ++ [".current"]) n1 = false) by (unfold is_dir; rewrite Lt'; reflexivity).
        assert (I : In ".current" (keys d1)).
        { rewrite lookup_app, LA in Lt'. cbn [lookup] in Lt'. destruct (dget ".current" d1) as [v|] eqn:Dg; [|discriminate].
          apply (dget_keys d1 _ v Dg). }
        rewrite keys_dset_in by exact I. apply filter_ext. intro x. rewrite Q.
        destruct (x =? ".current")%string eqn:Ex; [|reflexivity]. apply String.eqb_eq in Ex. subst x. symmetry. exact Q1. }
      rewrite FC. reflexivity. }
    exists l. split; [exact NM|]. split.
    + intro I. apply Hl in I. unfold is_dir in I. rewrite H3 in I. discriminate.
    + rewrite G2. unfold s. f_equal. f_equal. f_equal. unfold fallback.
      destruct (mem_s "default" l); [reflexivity|]. destruct l as [|x r]; [reflexivity|].
      assert (Ox : ordinary x = true) by (apply (dir_ordinary W x n1 T1), Hl; left; reflexivity).
      rewrite (ordinary_given x Ox). reflexivity.
  - intros c n' G N H. destruct (Cur c G) as [t [Lt Rt]].
    unfold ws_remove in H. unfold bindM at 1 in H. unfold get_ws_name in H. rewrite (ordinary_given w O) in H.
    unfold ret in H. unfold catch, thenM in H. unfold bindM at 1 in H.
    rewrite (delete_ws_eq W w n (ordinary_plain _ O)) in H. unfold ws_dir in H.
    destruct (exists_at (W ++ [w]) n) eqn:E; [|discriminate].
    destruct (rmtree_but W w n (sound_ws W n S) O E) as [n1 [H1 [H2 [H3 H4]]]].
    unfold fs in H. rewrite H1 in H. unfold bindM at 1 in H. rewrite current_eq in H.
    assert (Lt' : lookup (W ++ [".current"]) n1 = Some (NFile t)).
    { rewrite <- Lt. apply H4. intro X. apply (ordinary_ne w O). congruence. }
    rewrite (proj2 (read_file_some _ n1 t) Lt') in H. cbn [option_map] in H. rewrite Rt in H.
    assert (Q : (w =? c)%string = false) by (apply String.eqb_neq; congruence).
    rewrite Q in H. injection H as <-. rewrite current_eq, (proj2 (read_file_some _ n1 t) Lt'). cbn [option_map].
    rewrite Rt. reflexivity.
Qed.
Print Assumptions C50_selected_partial.

(** Deleting or renaming through the manager alone (the web client's rename)
    leaves the selection behind; so does a name with a line break, and the
    marker file itself is accepted as a workspace. *)
Theorem C50_current_listed_refuted : exists W o w,
  simple_names o = true /\
  forall resource upg fnmatch newer cwd,
  let n := session W resource upg fnmatch newer cwd [SAdd w; Call o] (NDir []) in
  get_current W n = (n, Ok (Some w)) /\ w <> "" /\ exists_at (W ++ [w]) n = false.
Proof.
  exists ["ws"], (ORename "a" "b"), "a". split; [reflexivity|]. intros. split; [reflexivity|]. split; [discriminate|reflexivity].
Qed.
Print Assumptions C50_current_listed_refuted.
Example C50_marker_selected : forall resource upg fnmatch newer cwd,
  let n := session ["ws"] resource upg fnmatch newer cwd [SAdd "a"; SCurrent (Some ".current")] (NDir []) in
  get_current ["ws"] n = (n, Ok (Some ".current")) /\ get_ws_names ["ws"] n = (n, Ok ["a"]).
Proof. intros. split; reflexivity. Qed.
Example C50_newline_selected : forall resource upg fnmatch newer cwd,
  let w := String "a"%char (String nl (String "b"%char EmptyString)) in
  let n := session ["ws"] resource upg fnmatch newer cwd [SAdd w] (NDir []) in
  get_current ["ws"] n = (n, Ok (Some (String "a"%char (String nl EmptyString)))) /\
  get_ws_names ["ws"] n = (n, Ok [w]).
Proof. intros. split; reflexivity. Qed.
(** The hypotheses are satisfiable and the commands do something. *)
Example C50_example : forall resource upg fnmatch newer cwd,
  let ss := [SAdd "a"; SAdd "b"; SCopy None None; SRename (Some "b") "a"; SRemove None true] in
  let n := session ["ws"] resource upg fnmatch newer cwd ss (NDir []) in
  sound ["ws"] (NDir []) /\ forallb step_ordinary ss = true /\
  get_ws_names ["ws"] n = (n, Ok ["a"; "b_1"]) /\ get_current ["ws"] n = (n, Ok (Some "a")).
Proof.
  intros. split; [|repeat split; reflexivity].
  apply (C50_sound_partial ["ws"] resource upg fnmatch newer cwd []); reflexivity.
Qed.

(** * C80: the current configuration exists *)

Theorem C80_current_listed_partial : forall W resource upg fnmatch newer cwd ss n w c,
  sound W n -> forallb step_ordinary ss = true -> ordinary w = true ->
  let n' := session W resource upg fnmatch newer cwd ss n in
  get_current_config W w n' = (n', Ok (Some c)) ->
  c = "" \/ (is_dir (config_dir W w c) n' = true /\
             exists l, get_config_names W w n' = (n', Ok (Some l)) /\ In c l).
Proof.
  intros W resource upg fnmatch newer cwd ss n w c S H O n' G.
  pose proof (session_sound W resource upg fnmatch newer cwd ss n S H) as S'. fold n' in S'.
  rewrite (current_cfg_eq W w n' O) in G. destruct (exists_at (W ++ [w]) n'); [|discriminate].
  destruct (read_file (cfgs W w ++ [".current"]) n') as [t|] eqn:R; [|discriminate].
  cbn [option_map] in G. injection G as <-. apply read_file_some in R.
  destruct (proj2 (sound_cfg W n' w S' O) t R) as [E|E]; [left; exact E|]. right.
  rewrite config_dir_eq. split; [exact E|].
  destruct (cfg_names_eq W w n' O (base_dir _ _ _ (is_dir_exists _ _ E))) as [l [L1 L2]].
  exists l. split; [exact L1|]. apply L2. exact E.
Qed.
Print Assumptions C80_current_listed_partial.
Theorem C80_current_listed_refuted : exists W o w c,
  simple_names o = true /\
  forall resource upg fnmatch newer cwd,
  let n := session W resource upg fnmatch newer cwd [SAdd w; CAdd None c false; Call o] (NDir []) in
  get_current_config W w n = (n, Ok (Some c)) /\ c <> "" /\ exists_at (config_dir W w c) n = false.
Proof.
  exists ["ws"], (ORenameConfig "a" "x" "y"), "a", "x". split; [reflexivity|]. intros.
  split; [reflexivity|]. split; [discriminate|reflexivity].
Qed.
Print Assumptions C80_current_listed_refuted.
(** An empty configuration name, when no workspace is selected, puts the files
    of a configuration into the configs directory itself. *)
Example C80_empty_name : forall resource upg fnmatch newer cwd,
  let n := session ["ws"] resource upg fnmatch newer cwd [CAdd None "" false] (NDir []) in
  is_file ["ws"; "default"; "configs"; "CHD.json"] n = true /\ get_config_names ["ws"] "default" n = (n, Ok (Some [])).
Proof. intros. split; reflexivity. Qed.
Example C80_example : forall resource upg fnmatch newer cwd,
  let ss := [CAdd None "x" false; CCopy None None (Some "x"); CAdd None "y" true; CRename None None "x"; CRemove None None true] in
  let n := session ["ws"] resource upg fnmatch newer cwd ss (NDir []) in
  forallb step_ordinary ss = true /\
  get_config_names ["ws"] "default" n = (n, Ok (Some ["x"; "x_2"])) /\
  get_current_config ["ws"] "default" n = (n, Ok (Some "x")).
Proof. intros. repeat split; reflexivity. Qed.

(** * C54: unique names *)

(** The loop ends; the result is free; a free name is kept; otherwise the
    first free numbered name is taken. *)
Theorem C54_unique : forall names s, exists r, unique_name names s = Some r /\
  ~ In r names /\ (~ In s names -> r = s) /\
  (In s names -> exists k, 2 <= k /\ r = (s ++ "_" ++ dec k)%string /\
                           forall j, 2 <= j < k -> In (s ++ "_" ++ dec j)%string names).
Proof.
  intros names s. destruct (unique_name_total names s) as [r R]. exists r. split; [exact R|].
  apply (unique_name_spec names s r R).
Qed.
Print Assumptions C54_unique.
(** More rounds do not change the answer: the bound is only there for the
    definition. *)
Theorem C54_bound : forall names s fuel r, unique_name names s = Some r ->
  unique_loop names s (S (length names) + fuel) 2 s = Some r.
Proof.
  intros names s fuel r. unfold unique_name. generalize (S (length names)) as f, 2 as i, s at 2 4 as v.
  induction f as [|f IH]; intros i v H; [discriminate|]. cbn [unique_loop Nat.add] in *.
  destruct (mem_s v names); [apply IH; exact H|exact H].
Qed.
Print Assumptions C54_bound.
(** As used: the name is not one of the listed workspaces or configurations. *)
Theorem C54_commands : forall W n s,
  (forall l, get_ws_names W n = (n, Ok l) -> exists r, unique_ws W s n = (n, Ok r) /\ ~ In r l /\ (~ In s l -> r = s)) /\
  (forall w l, get_config_names W w n = (n, Ok (Some l)) ->
     exists r, unique_config W w s n = (n, Ok r) /\ ~ In r l /\ (~ In s l -> r = s)) /\
  (forall w, get_config_names W w n = (n, Ok None) -> unique_config W w s n = (n, Err EType)).
Proof.
  intros W n s. split; [|split].
  - intros l H. destruct (C54_unique l s) as [r [R [R1 [R2 _]]]]. exists r. split; [|auto].
    unfold unique_ws, bindM. rewrite H, R. reflexivity.
  - intros w l H. destruct (C54_unique l s) as [r [R [R1 [R2 _]]]]. exists r. split; [|auto].
    unfold unique_config, bindM. rewrite H. cbn [need]. unfold ret. rewrite R. reflexivity.
  - intros w H. unfold unique_config, bindM. rewrite H. reflexivity.
Qed.
Print Assumptions C54_commands.
Example C54_example : unique_name ["a"; "a_2"; "b"; "a_4"] "a" = Some "a_3" /\ unique_name ["b"] "a" = Some "a".
Proof. split; reflexivity. Qed.

(** * C57: the run command *)

Section Run.
Variable W : path.
Variable resource : bool -> string -> string.
Variable fnmatch : string -> string -> bool.
Variable cwd : path.
Variable mk : job -> list event -> M unit.
Variable pr : job -> path -> list event -> M unit.
Notation plan := (run_plan W resource fnmatch cwd).
Notation run := (run W resource fnmatch cwd mk pr).
Notation job_of := (job_of W cwd).

Lemma replay_app : forall es fs t n, replay mk pr (es ++ fs) t n =
  match replay mk pr es t n with
  | (t', n', Ok _) => replay mk pr fs t' n'
  | r => r
  end.
Proof.
  induction es as [|e r IH]; intros fs t n; [reflexivity|]. cbn [app replay].
  destruct (perform mk pr e t n) as [n' [a|x]]; [apply IH|reflexivity].
Qed.

Lemma jobs_replay : forall a w ps cs t n,
  run_jobs W cwd mk pr a w cs ps t n = replay mk pr (expected_events (job_of a w) cs ps) t n.
Proof.
  intros a w ps.
  assert (P : forall j qs t n, forT (fun p => external (pr j p) (Processed j p)) qs t n =
                               replay mk pr (map (Processed j) qs) t n).
  { intros j. induction qs as [|p r IH]; intros t n; [reflexivity|].
    cbn [forT map replay perform]. unfold bindT, external. destruct (pr j p t n) as [n' [a0|x]]; [apply IH|reflexivity]. }
  induction cs as [|c r IH]; intros t n; [reflexivity|].
  unfold run_jobs in *. cbn [forT]. unfold expected_events. cbn [flat_map]. fold (expected_events (job_of a w) r ps).
  cbn [app replay perform]. unfold bindT at 1. unfold bindT at 1. unfold external at 1.
  destruct (mk (job_of a w c) t n) as [n' [a0|x]]; [|reflexivity].
  rewrite replay_app, P. destruct (replay mk pr _ _ n') as [[t2 n2] [a1|x]]; [apply IH|reflexivity].
Qed.

(** A run is: work out workspace, configurations and inputs; then, one after
    the other, build each configuration's processor and process each input.
    Nothing is processed when the first part fails. *)
Theorem C57_exact : forall a t n,
  run a t n =
  match plan a n with
  | (n1, Ok (w, cs, ps)) => reported (replay mk pr (expected_events (job_of a w) cs ps) t n1)
  | (n1, Err e) => reported (t, n1, Err e)
  end.
Proof.
  intros a t n. unfold CliModel.run, catchT, bindT, lift.
  destruct (plan a n) as [n1 [[[w cs] ps]|e]].
  - rewrite jobs_replay. destruct (replay mk pr _ t n1) as [[t2 n2] [[]|e]]; [reflexivity|]. destruct e; reflexivity.
  - destruct e; reflexivity.
Qed.

(** Carrying out stops exactly at the first failure. *)
Theorem C57_first_failure : forall es t n t' n' r, replay mk pr es t n = (t', n', r) ->
  match r with
  | Ok _ => t' = t ++ es
  | Err x => exists pre e post m, es = pre ++ e :: post /\ t' = t ++ pre ++ [e] /\
               replay mk pr pre t n = (t ++ pre, m, Ok tt) /\ perform mk pr e (t ++ pre) m = (n', Err x)
  end.
Proof.
  induction es as [|e r IH]; intros t n t' n' res H.
  - cbn in H. injection H as <- <- <-. rewrite app_nil_r. reflexivity.
  - cbn [replay] in H. destruct (perform mk pr e t n) as [n1 [[]|x]] eqn:P.
    + specialize (IH _ _ _ _ _ H). destruct res as [[]|x].
      * rewrite IH, <- app_assoc. reflexivity.
      * destruct IH as [pre [e2 [post [m [-> [-> [R Q]]]]]]]. exists (e :: pre), e2, post, m.
        rewrite <- !app_assoc in *. cbn [app replay] in *. rewrite P. repeat split; assumption.
    + injection H as <- <- <-. exists [], e, r, n. rewrite app_nil_r. repeat split; try reflexivity. exact P.
Qed.

(** Each pair of configuration and input occurs, in order, exactly once. *)
Theorem C57_once : forall a w cs ps, NoDup cs -> NoDup ps ->
  NoDup (expected_events (job_of a w) cs ps) /\
  (forall c p, In (Processed (job_of a w c) p) (expected_events (job_of a w) cs ps) <-> In c cs /\ In p ps) /\
  (forall c, In (Built (job_of a w c)) (expected_events (job_of a w) cs ps) <-> In c cs).
Proof.
  intros a w cs ps Nc Np.
  assert (J : forall c c', job_of a w c = job_of a w c' -> c = c').
  { intros c c' E. apply (f_equal j_name) in E. exact E. }
  assert (I1 : forall l c p, In (Processed (job_of a w c) p) (expected_events (job_of a w) l ps) <-> In c l /\ In p ps).
  { intros l c p. unfold expected_events. rewrite in_flat_map. split.
    - intros [c' [I [E|E]]]; [discriminate|]. apply in_map_iff in E. destruct E as [p' [E Ip]].
      inversion E; subst; auto.
    - intros [I Ip]. exists c. split; [exact I|]. right. apply in_map. exact Ip. }
  assert (I2 : forall l c, In (Built (job_of a w c)) (expected_events (job_of a w) l ps) <-> In c l).
  { intros l c. unfold expected_events. rewrite in_flat_map. split.
    - intros [c' [I [E|E]]].
      + inversion E; subst; exact I.
      + apply in_map_iff in E. destruct E as [p' [E _]]. discriminate.
    - intro I. exists c. split; [exact I|]. left. reflexivity. }
  split; [|split; [apply I1|apply I2]].
  induction Nc as [|c l Nl Nc IH]; [constructor|].
  unfold expected_events. cbn [flat_map]. fold (expected_events (job_of a w) l ps).
  assert (D : forall e, In e (Built (job_of a w c) :: map (Processed (job_of a w c)) ps) ->
                        ~ In e (expected_events (job_of a w) l ps)).
  { intros e [<-|I] K; [apply I2 in K; contradiction|]. apply in_map_iff in I. destruct I as [p [<- _]].
    apply I1 in K. apply Nl. apply K. }
  assert (N1 : NoDup (Built (job_of a w c) :: map (Processed (job_of a w c)) ps)).
  { constructor.
    - intro I. apply in_map_iff in I. destruct I as [p [E _]]. discriminate.
    - apply FinFun.Injective_map_NoDup; [|exact Np]. intros p q E. inversion E. reflexivity. }
  revert D N1. generalize (Built (job_of a w c) :: map (Processed (job_of a w c)) ps). intro l1.
  induction l1 as [|e r IHl]; intros D N1; [exact IH|]. inversion N1. subst. cbn [app]. constructor.
  - intro I. apply in_app_or in I. destruct I as [I|I]; [contradiction|]. apply (D e (or_introl eq_refl) I).
  - apply IHl; [|assumption]. intros e' I'. apply D. right. exact I'.
Qed.

(** -a together with -c: rejected, nothing happens. *)
Theorem C57_exclusive : forall a c t n, ra_all a = true -> given (ra_config a) = Some c ->
  run a t n = (t, n, Err ECmd).
Proof. intros a c t n A C. rewrite C57_exact. unfold run_plan. rewrite A, C. reflexivity. Qed.

(** What is selected.  [n1] is the tree after a missing default workspace or
    configuration has been created. *)
Theorem C57_selected : forall a n n1 w cs ps, plan a n = (n1, Ok (w, cs, ps)) ->
  (* the workspace *)
  (forall w', given (ra_ws a) = Some w' -> w = w') /\
  (given (ra_ws a) = None -> (forall c, get_current W n = (n, Ok (Some c)) -> c <> "" -> w = c) /\
                             (get_current W n = (n, Ok None) \/ get_current W n = (n, Ok (Some "")) -> w = "default")) /\
  (* the configurations *)
  cs <> [] /\
  (ra_all a = true -> get_config_names W w n1 = (n1, Ok (Some cs))) /\
  (ra_all a = false -> forall c, given (ra_config a) = Some c -> cs = [c]) /\
  (ra_all a = false -> given (ra_config a) = None -> get_ws_name W (ra_ws a) n = (n, Ok (Some w)) ->
     (forall c, get_current_config W w n = (n, Ok (Some c)) -> c <> "" -> cs = [c]) /\
     (get_current_config W w n = (n, Ok None) \/ get_current_config W w n = (n, Ok (Some "")) -> cs = ["default"])) /\
  (ra_all a = false -> given (ra_config a) = None -> get_ws_name W (ra_ws a) n = (n, Ok None) -> cs = ["default"]) /\
  (* the inputs *)
  ps <> [] /\
  (ra_inputs a <> [] -> ps = map (join cwd) (ra_inputs a)) /\
  (ra_inputs a = [] -> get_input_paths W fnmatch w n1 = (n1, Ok ps)).
Proof.
  intros a n n1 w cs ps H.
  assert (NM : exists nm, get_ws_name W (ra_ws a) n = (n, Ok nm) /\
     (forall w', given (ra_ws a) = Some w' -> nm = Some w') /\
     (given (ra_ws a) = None -> (forall c, get_current W n = (n, Ok (Some c)) -> c <> "" -> nm = Some c) /\
        (get_current W n = (n, Ok None) \/ get_current W n = (n, Ok (Some "")) -> nm = None))).
  { unfold get_ws_name. destruct (given (ra_ws a)) as [w'|].
    - exists (Some w'). split; [reflexivity|]. split; [auto|discriminate].
    - unfold bindM. rewrite current_eq. exists (given (option_map readline (read_file (W ++ [".current"]) n))).
      split; [reflexivity|]. split; [discriminate|]. intros _. split.
      + intros c E N. injection E as E. rewrite E. cbn. apply String.eqb_neq in N. rewrite N. reflexivity.
      + intros [E|E]; injection E as E; rewrite E; reflexivity. }
  destruct NM as [nm [NM1 [NM2 NM3]]].
  unfold run_plan in H.
  assert (H' : (wc <- get_ws_config W (ra_ws a) (ra_config a) ;;
     w <- match fst wc with Some w => ret w | None => create_default_workspace W end ;;
      cs <- (if ra_all a then
               l <- get_config_names W w ;;
               match l with None | Some [] => fail ECmd | Some l' => ret l' end
             else match given (snd wc) with
                  | Some c => ret [c]
                  | None => c <- create_default_config W resource w ;; ret [c]
                  end) ;;
      ps <- match ra_inputs a with
            | [] => get_input_paths W fnmatch w
            | l => ret (map (abspath cwd) l)
            end ;;
      match ps with [] => fail ECmd | _ :: _ => ret (w, cs, ps) end) n = (n1, Ok (w, cs, ps))).
  { destruct (ra_all a); [destruct (given (ra_config a)); [discriminate|]|]; exact H. }
  clear H. unfold bindM at 1 in H'. unfold get_ws_config in H'. unfold bindM at 1 in H'. rewrite NM1 in H'.
  (* the pair of workspace and configuration *)
  assert (WC : exists cc, (match nm, given (ra_config a) with
                           | Some w', None => c <- get_current_config W w' ;; ret (nm, c)
                           | _, _ => ret (nm, ra_config a) end) n = (n, Ok (nm, cc)) /\
     (forall c, given (ra_config a) = Some c -> given cc = Some c) /\
     (given (ra_config a) = None -> forall w', nm = Some w' -> get_current_config W w' n = (n, Ok cc)) /\
     (given (ra_config a) = None -> nm = None -> given cc = None)).
  { destruct nm as [w'|].
    - destruct (given (ra_config a)) as [c|] eqn:G.
      + exists (ra_config a). split; [reflexivity|]. split; [intros c0 E0; congruence|]. split; discriminate.
      + unfold bindM in H' |- *. destruct (get_current_config W w' n) as [n2 [c|e]] eqn:E; [|discriminate].
        assert (n2 = n).
        { unfold get_current_config, assert_ws, thenM, bindM, look, readline_at, ret, fail in E.
          destruct (exists_at (ws_path W w') n); injection E; auto. }
        subst n2. exists c. split; [reflexivity|]. split; [discriminate|]. split.
        * intros _ w'' X. injection X as ->. exact E.
        * discriminate.
    - exists (ra_config a). split; [destruct (given (ra_config a)); reflexivity|].
      split; [auto|]. split; [discriminate|auto]. }
  destruct WC as [cc [WC1 [WC2 [WC3 WC4]]]]. rewrite WC1 in H'. cbn [fst snd] in H'.
  unfold bindM at 1 in H'.
  destruct ((match nm with Some w => ret w | None => create_default_workspace W end) n) as [n2 [v|e]] eqn:EW; [|discriminate].
  assert (V : (forall w', nm = Some w' -> v = w') /\ (nm = None -> v = "default")).
  { destruct nm as [w'|].
    - cbn in EW. injection EW as _ ->. split; [intros ? X; injection X; auto|discriminate].
    - split; [discriminate|]. intros _. unfold create_default_workspace, create_workspace, thenM, bindM, ws_exists, look, ret in EW.
      destruct (true && exists_at (ws_path W "default") n); [injection EW; auto|].
      destruct (create_ws W "default" n) as [m [[]|e]]; [|discriminate].
      destruct (set_current_ws W (Some "default") m) as [m2 [[]|e]]; [|discriminate]. injection EW; auto. }
  unfold bindM at 1 in H'.
  destruct ((if ra_all a then
               l <- get_config_names W v ;;
               match l with None | Some [] => fail ECmd | Some l' => ret l' end
             else match given cc with
                  | Some c => ret [c]
                  | None => c <- create_default_config W resource v ;; ret [c]
                  end) n2) as [n3 [cs'|e]] eqn:EC; [|discriminate].
  unfold bindM at 1 in H'.
  destruct ((match ra_inputs a with
            | [] => get_input_paths W fnmatch v
            | l => ret (map (abspath cwd) l)
            end) n3) as [n4 [ps'|e]] eqn:EP; [|discriminate].
  assert (N4 : n4 = n3).
  { destruct (ra_inputs a); [|cbn in EP; injection EP; auto].
    pose proof (get_input_paths_keeps W fnmatch v n3) as K. rewrite EP in K. exact K. }
  subst n4. destruct ps' as [|p0 pr0]; [discriminate|]. cbn in H'. injection H' as <- <- <- <-.
  split; [intros w' G; apply V; apply NM2; exact G|].
  split.
  { intro G. destruct (NM3 G) as [A B]. split.
    - intros c E N. apply V. apply A; assumption.
    - intro E. apply V. apply B. exact E. }
  assert (All : ra_all a = true -> get_config_names W v n3 = (n3, Ok (Some cs')) /\ cs' <> []).
  { intro A. rewrite A in EC. unfold bindM in EC. pose proof (get_config_names_keeps W v n2) as K.
    destruct (get_config_names W v n2) as [m [[[|x l]|]|e]] eqn:E; cbn in K; subst m; try discriminate.
    cbn in EC. injection EC as <- <-. split; [exact E|discriminate]. }
  assert (One : ra_all a = false -> cs' = [match given cc with Some c => c | None => "default" end]).
  { intro A. rewrite A in EC. destruct (given cc) as [c|]; [cbn in EC; injection EC; auto|].
    unfold bindM in EC. destruct (create_default_config W resource v n2) as [m [x|e]] eqn:E; [|discriminate].
    cbn in EC. injection EC as _ <-. f_equal.
    unfold create_default_config, create_cfg in E. unfold bindM at 1 in E. unfold ret at 1 in E.
    unfold bindM at 1 in E.
    destruct (config_exists W v "default" n2) as [m1 [[]|e]]; [| |discriminate]; cbv beta iota delta [andb] in E.
    { injection E; auto. }
    unfold thenM at 1, bindM at 1 in E.
    destruct (create_config W resource v "default" false m1) as [m2 [[]|e]]; [|discriminate].
    unfold thenM, bindM in E.
    destruct (set_current_cfg W v (Some "default") m2) as [m3 [[]|e]]; [|discriminate]. injection E; auto. }
  split. { destruct (ra_all a) eqn:A; [apply All; reflexivity|rewrite One by reflexivity; discriminate]. }
  split. { intro A. apply All. exact A. }
  split. { intros A c G. rewrite (One A), (WC2 c G). reflexivity. }
  split.
  { intros A G NMw. rewrite NM1 in NMw. injection NMw as NMw. pose proof (WC3 G v NMw) as K. rewrite (One A). split.
    - intros c E N. rewrite K in E. injection E as ->. cbn. apply String.eqb_neq in N. rewrite N. reflexivity.
    - intros [E|E]; rewrite K in E; injection E as ->; reflexivity. }
  split. { intros A G NMw. rewrite NM1 in NMw. injection NMw as NMw. rewrite (One A), (WC4 G NMw). reflexivity. }
  split; [discriminate|]. split.
  - intro I. destruct (ra_inputs a) as [|i r]; [contradiction|]. cbn in EP. injection EP as <- <-. reflexivity.
  - intro I. rewrite I in EP. exact EP.
Qed.

(** Each configuration is run with its own files, writing to its own outputs
    directory unless an output directory is given. *)
Theorem C57_job : forall a w c, plain w = true -> plain c = true ->
  j_name (job_of a w c) = c /\
  j_chd (job_of a w c) = W ++ [w; "configs"; c; "CHD.json"] /\
  j_cnf (job_of a w c) = W ++ [w; "configs"; c; "CNF.json"] /\
  j_cst (job_of a w c) = W ++ [w; "configs"; c; "CST.json"] /\
  j_skip (job_of a w c) = ra_skip a /\
  (given (ra_out a) = None -> j_out (job_of a w c) = W ++ [w; "configs"; c; "outputs"]) /\
  (forall o, given (ra_out a) = Some o -> j_out (job_of a w c) = join cwd o).
Proof.
  intros a w c Hw Hc.
  assert (F : forall key, has_char slash key = false -> config_file W w c key = W ++ [w; "configs"; c; (key ++ ".json")%string]).
  { intros key K. rewrite (config_file_below W w c key K), (config_path_dir W w c Hw Hc). unfold config_dir.
    rewrite <- app_assoc. reflexivity. }
  unfold CliModel.job_of. cbn [j_name j_chd j_cnf j_cst j_skip j_out].
  rewrite (F "CHD" eq_refl), (F "CNF" eq_refl), (F "CST" eq_refl).
  repeat split.
  - intro G. rewrite G. rewrite outputs_path_eq, (config_path_dir W w c Hw Hc). unfold config_dir. rewrite <- app_assoc. reflexivity.
  - intros o G. rewrite G. reflexivity.
Qed.
End Run.
Print Assumptions C57_exact.
Print Assumptions C57_first_failure.
Print Assumptions C57_once.
Print Assumptions C57_exclusive.
Print Assumptions C57_selected.
Print Assumptions C57_job.

(** A workspace with two configurations and two inputs. *)
Definition C57_tree : node :=
  NDir [("ws", NDir [(".current", NFile "a");
                     ("a", NDir [("inputs", NDir [("2.nc", NFile ""); ("1.nc", NFile "")]);
                                 ("configs", NDir [("y", NDir []); (".current", NFile "y"); ("x", NDir [])])])])].
Example C57_example : forall resource fnmatch a,
  a = {| ra_ws := None; ra_config := None; ra_inputs := []; ra_out := None; ra_all := true; ra_skip := false |} ->
  let j := CliModel.job_of ["ws"] ["home"] a "a" in
  let ok := fun (_ : job) (_ : list event) => ret tt in
  let bad := fun (j : job) (p : path) (_ : list event) => if path_eqb p ["ws"; "a"; "inputs"; "2.nc"] then fail EProc else ret tt in
  CliModel.run ["ws"] resource fnmatch ["home"] ok (fun _ _ _ => ret tt) a [] C57_tree =
    ([Built (j "x"); Processed (j "x") ["ws"; "a"; "inputs"; "1.nc"]; Processed (j "x") ["ws"; "a"; "inputs"; "2.nc"];
      Built (j "y"); Processed (j "y") ["ws"; "a"; "inputs"; "1.nc"]; Processed (j "y") ["ws"; "a"; "inputs"; "2.nc"]],
     C57_tree, Ok tt) /\
  CliModel.run ["ws"] resource fnmatch ["home"] ok bad a [] C57_tree =
    ([Built (j "x"); Processed (j "x") ["ws"; "a"; "inputs"; "1.nc"]; Processed (j "x") ["ws"; "a"; "inputs"; "2.nc"]],
     C57_tree, Err ECmd).
Proof. intros resource fnmatch a ->. split; reflexivity. Qed.

(** * C58: comparing two products *)

(** The first product is always resolved as meant; the second one when it is
    of the same kind (both with a directory part, or both without). *)
Theorem C58_resolved_partial : forall W cwd w1 c1 w2 c2 f1 f2 n n' p1 p2,
  plain w1 = true -> plain (match given w2 with Some x => x | None => w1 end) = true ->
  (forall c, given c1 = Some c -> plain c = true) -> (forall c, given c2 = Some c -> plain c = true) ->
  compare_paths W cwd w1 c1 w2 c2 f1 (Some f2) n = (n', Ok (p1, p2)) ->
  n' = n /\ exists_at p1 n = true /\ exists_at p2 n = true /\
  exists k1 k2, (has_char slash f1 = false -> given c1 = Some k1) /\
    (given c2 = Some k2 \/ (given c2 = None /\ (has_char slash f1 = false -> given c1 = Some k2))) /\
    p1 = intended W cwd w1 k1 f1 /\
    (has_char slash f1 = has_char slash f2 ->
     p2 = intended W cwd (match given w2 with Some x => x | None => w1 end) k2 f2).
Proof.
  intros W cwd w1 c1 w2 c2 f1 f2 n n' p1 p2 H1 H2 P1 P2 H.
  set (v := match given w2 with Some x => x | None => w1 end) in *.
  assert (Op : forall w c, plain w = true -> plain c = true -> outputs_path W w c = W ++ [w; "configs"; c; "outputs"]).
  { intros w c A B. rewrite outputs_path_eq, (config_path_dir W w c A B). unfold config_dir. rewrite <- app_assoc. reflexivity. }
  unfold compare_paths in H. fold v in H. cbv zeta in H. unfold has_dirname, abspath in H.
  destruct (has_char slash f1) eqn:F1.
  - unfold bindM, look, ret in H. destruct (exists_at (join cwd f1) n) eqn:E1; cbn [negb] in H; [|discriminate].
    destruct (exists_at (join cwd f2) n) eqn:E2; cbn [negb] in H; [|discriminate]. injection H as <- <- <-.
    split; [reflexivity|]. split; [exact E1|]. split; [exact E2|].
    exists "", (match given c2 with Some k => k | None => "" end). split; [discriminate|]. split.
    { destruct (given c2); [left; reflexivity|right; split; [reflexivity|discriminate]]. }
    unfold intended. rewrite F1. split; [reflexivity|]. intros <-. reflexivity.
  - unfold bindM at 1 in H. destruct (given c1) as [k1|] eqn:G1; [|discriminate].
    unfold ret at 1 in H. unfold bindM, look in H.
    destruct (exists_at (join (outputs_path W w1 k1) f1) n) eqn:E1; cbn [negb] in H; [|discriminate].
    assert (K : exists k2, given (match given c2 with Some x => Some x | None => c1 end) = Some k2 /\
                (given c2 = Some k2 \/ (given c2 = None /\ k1 = k2))).
    { destruct (given c2) as [k2|] eqn:G2.
      - exists k2. split; [|left; reflexivity]. apply given_some in G2. cbn.
        destruct G2 as [_ N]. apply String.eqb_neq in N. rewrite N. reflexivity.
      - exists k1. split; [exact G1|]. right. auto. }
    destruct K as [k2 [K1 K2]]. rewrite K1 in H. unfold ret in H.
    destruct (exists_at (join (outputs_path W v k2) f2) n) eqn:E2; cbn [negb] in H; [|discriminate].
    injection H as <- <- <-. split; [reflexivity|]. split; [exact E1|]. split; [exact E2|].
    exists k1, k2. split; [reflexivity|]. split.
    { destruct K2 as [K2|[K2 ->]]; [left; exact K2|right; auto]. }
    unfold intended. rewrite F1. split; [rewrite (Op w1 k1 H1); [reflexivity|apply P1; reflexivity]|].
    intros <-. rewrite (Op v k2 H2); [reflexivity|].
    destruct K2 as [K2|[K2 <-]]; [apply P2; exact K2|apply P1; reflexivity].
Qed.
Print Assumptions C58_resolved_partial.

(** The kind of the second product is taken from the first: a product name
    after a path is looked up in the working directory, a relative path after
    a product name below the outputs; an omitted second product is an error. *)
Theorem C58_independent_refuted : exists W cwd w c f g n,
  (exists p, compare_paths W cwd w (Some c) None None f (Some g) n = (n, Ok (intended W cwd w c f, p)) /\
             p <> intended W cwd w c g /\ exists_at (intended W cwd w c g) n = true) /\
  compare_paths W cwd w (Some c) None None f None n = (n, Err EType).
Proof.
  exists ["ws"], ["home"], "a", "x", "/ws/a/configs/x/outputs/l1.nc", "l1.nc".
  exists (NDir [("home", NDir [("l1.nc", NFile "other")]);
                ("ws", NDir [("a", NDir [("configs", NDir [("x", NDir [("outputs", NDir [("l1.nc", NFile "")])])])])])]).
  split; [|reflexivity]. exists ["home"; "l1.nc"]. split; [reflexivity|]. split; [discriminate|reflexivity].
Qed.
Print Assumptions C58_independent_refuted.
Theorem C58_relative_refuted : exists W cwd w c f g n,
  has_char slash f = false /\ has_char slash g = true /\
  exists_at (intended W cwd w c f) n = true /\ exists_at (intended W cwd w c g) n = true /\
  compare_paths W cwd w (Some c) None None f (Some g) n = (n, Err ECmd).
Proof.
  exists ["ws"], ["home"], "a", "x", "l1.nc", "d/l1.nc".
  exists (NDir [("home", NDir [("d", NDir [("l1.nc", NFile "other")])]);
                ("ws", NDir [("a", NDir [("configs", NDir [("x", NDir [("outputs", NDir [("l1.nc", NFile "")])])])])])]).
  repeat split; reflexivity.
Qed.
Print Assumptions C58_relative_refuted.
Example C58_example :
  let n := NDir [("ws", NDir [("a", NDir [("configs", NDir [("x", NDir [("outputs", NDir [("1.nc", NFile ""); ("2.nc", NFile "")])])])])])] in
  compare_paths ["ws"] ["home"] "a" (Some "x") None None "1.nc" (Some "2.nc") n =
    (n, Ok (["ws"; "a"; "configs"; "x"; "outputs"; "1.nc"], ["ws"; "a"; "configs"; "x"; "outputs"; "2.nc"])).
Proof. reflexivity. Qed.
