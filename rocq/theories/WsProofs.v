(** Proofs about the workspace manager. *)
From Coq Require Import Ascii String List Bool Arith Lia Sorted Permutation.
From Verif Require Import Common Dict FsModel FsProofs WsModel WsSpec.
Import ListNotations.
Open Scope string_scope.
Open Scope list_scope.

Lemma simple_cases : forall s, simple s = true -> plain s = true \/ s = "".
Proof. intros s H. apply orb_true_iff in H. destruct H as [H|H]; [auto|right; apply String.eqb_eq; exact H]. Qed.

Lemma join_simple : forall b s, simple s = true -> exists r, join b s = b ++ r.
Proof.
  intros b s H. destruct (simple_cases s H) as [P| ->].
  - exists [s]. apply join_plain. exact P.
  - exists []. rewrite app_nil_r. reflexivity.
Qed.

(** The last character decides that a name with an extension is plain. *)
Lemma plain_ext : forall a b, has_char slash a = false -> has_char slash b = false ->
  2 < String.length b -> plain (a ++ b) = true.
Proof.
  intros a b H1 H2 L. unfold plain. rewrite has_char_append, H1, H2.
  assert (K : 2 < String.length (a ++ b)%string).
  { clear -L. induction a; cbn; lia. }
  repeat (apply andb_true_iff; split); try reflexivity; apply negb_true_iff; apply String.eqb_neq;
    intro E; rewrite E in K; cbn in K; lia.
Qed.

Section P.
Variable W : path.
Variable resource : bool -> string -> string.
Variable upg : string -> string -> option string.

Lemma ws_path_plain : forall w, plain w = true -> ws_path W w = ws_dir W w.
Proof. intros w H. apply join_plain. exact H. Qed.

Lemma configs_path_eq : forall w, configs_path W w = ws_path W w ++ ["configs"].
Proof. reflexivity || (intro; apply join_plain; reflexivity). Qed.
Lemma inputs_path_eq : forall w, inputs_path W w = ws_path W w ++ ["inputs"].
Proof. intro; apply join_plain; reflexivity. Qed.
Lemma notebooks_path_eq : forall w, notebooks_path W w = ws_path W w ++ ["notebooks"].
Proof. intro; apply join_plain; reflexivity. Qed.
Lemma outputs_path_eq : forall w c, outputs_path W w c = config_path W w c ++ ["outputs"].
Proof. intros; apply join_plain; reflexivity. Qed.
Lemma current_file_eq : current_file W = W ++ [".current"].
Proof. apply join_plain; reflexivity. Qed.
Lemma current_config_file_eq : forall w, current_config_file W w = configs_path W w ++ [".current"].
Proof. intro; apply join_plain; reflexivity. Qed.
Lemma config_path_plain : forall w c, plain c = true -> config_path W w c = configs_path W w ++ [c].
Proof. intros w c H. apply join_plain. exact H. Qed.
Lemma config_path_dir : forall w c, plain w = true -> plain c = true ->
  config_path W w c = config_dir W w c.
Proof.
  intros w c Hw Hc. rewrite (config_path_plain w c Hc), configs_path_eq, (ws_path_plain w Hw).
  unfold ws_dir, config_dir. rewrite <- !app_assoc. reflexivity.
Qed.

(** ** Which part of the tree each call changes *)

Ltac mods :=
  repeat match goal with
  | |- modifies _ (ret _) => apply modifies_ret
  | |- modifies _ (fail _) => apply modifies_fail
  | |- modifies _ (look _) => apply modifies_look
  | |- modifies _ (need _ _) => apply modifies_need
  | |- modifies _ (thenM _ _) => apply modifies_then
  | |- modifies _ (if _ then _ else _) => apply modifies_if
  | |- modifies _ (bindM _ _) => apply modifies_bind; [|intro]
  | |- modifies _ (forM _ _) => apply modifies_for; intros
  end.

Lemma mod_ensure : forall Ps p, covered Ps p -> modifies Ps (ensure_dir p).
Proof. intros Ps p C. unfold ensure_dir. mods. apply modifies_fs. apply makedirs_only. exact C. Qed.
Lemma mod_assert_ws : forall Ps w, modifies Ps (assert_ws W w).
Proof. intros. unfold assert_ws. mods. Qed.
Lemma mod_assert_config : forall Ps w c, modifies Ps (assert_config W w c).
Proof. intros. unfold assert_config. mods. Qed.

Lemma mod_set_current : forall w, modifies [W ++ [".current"]] (set_current W w).
Proof.
  intro w. unfold set_current, writeline. mods; [apply mod_assert_ws|].
  apply modifies_fs. apply write_file_only. rewrite current_file_eq.
  rewrite <- app_nil_r. apply covered_here. left. reflexivity.
Qed.

Lemma mod_create_ws : forall w, modifies [ws_path W w] (create_ws W w).
Proof.
  intro w. unfold create_ws. mods. apply mod_ensure.
  rewrite <- (app_nil_r (ws_path W w)) at 2. apply covered_here. left. reflexivity.
Qed.

Lemma mod_delete_ws : forall w, modifies [ws_path W w] (delete_ws W w).
Proof.
  intro w. unfold delete_ws. mods; [apply mod_assert_ws|].
  apply modifies_fs. apply rmtree_only.
  rewrite <- (app_nil_r (ws_path W w)) at 2. apply covered_here. left. reflexivity.
Qed.

Lemma mod_copy_ws : forall w w', modifies [ws_path W w'] (copy_ws W w w').
Proof.
  intros w w'. unfold copy_ws. mods; [apply mod_assert_ws|].
  apply modifies_fs. apply copytree_only. change (ws_path W "") with W.
  change (join W w') with (ws_path W w').
  rewrite <- (app_nil_r (ws_path W w')) at 2. apply covered_here. left. reflexivity.
Qed.

Lemma mod_rename_ws : forall w w', modifies [ws_path W w; ws_path W w'] (rename_ws W w w').
Proof.
  intros w w'. unfold rename_ws. mods; [apply mod_assert_ws|].
  apply modifies_fs. change (ws_path W "") with W.
  change (join W w') with (ws_path W w'). change (join W w) with (ws_path W w).
  apply move_only; [rewrite <- (app_nil_r (ws_path W w)) at 2|rewrite <- (app_nil_r (ws_path W w')) at 2];
    apply covered_here; cbn; auto.
Qed.

Lemma mod_create_config : forall w c b, modifies [config_path W w c] (create_config W resource w c b).
Proof.
  intros w c b. unfold create_config, config_exists, copy_resource. mods; try apply mod_assert_ws.
  - apply mod_ensure. rewrite <- (app_nil_r (config_path W w c)) at 2. apply covered_here. left. reflexivity.
  - apply modifies_fs. apply write_file_only. rewrite (join_plain _ "CHD.json") by reflexivity.
    apply covered_here. left. reflexivity.
  - apply modifies_fs. apply write_file_only. rewrite (join_plain _ "CNF.json") by reflexivity.
    apply covered_here. left. reflexivity.
  - apply modifies_fs. apply write_file_only. rewrite (join_plain _ "CST.json") by reflexivity.
    apply covered_here. left. reflexivity.
Qed.

Lemma mod_delete_config : forall w c, modifies [config_path W w c] (delete_config W w c).
Proof.
  intros w c. unfold delete_config. mods; [apply mod_assert_ws|apply mod_assert_config|].
  apply modifies_fs. apply rmtree_only.
  rewrite <- (app_nil_r (config_path W w c)) at 2. apply covered_here. left. reflexivity.
Qed.

Lemma mod_copy_config : forall w c c', modifies [config_path W w c'] (copy_config W w c c').
Proof.
  intros w c c'. unfold copy_config. mods; [apply mod_assert_ws|apply mod_assert_config|].
  apply modifies_fs. apply copytree_only.
  rewrite <- (app_nil_r (config_path W w c')) at 2. apply covered_here. left. reflexivity.
Qed.

Lemma mod_rename_config : forall w c c',
  modifies [config_path W w c; config_path W w c'] (rename_config W w c c').
Proof.
  intros w c c'. unfold rename_config. mods; [apply mod_assert_ws|apply mod_assert_config|].
  apply modifies_fs.
  apply os_rename_only;
    [rewrite <- (app_nil_r (config_path W w c)) at 2|rewrite <- (app_nil_r (config_path W w c')) at 2];
    apply covered_here; cbn; auto.
Qed.

Lemma mod_set_current_config : forall w c,
  modifies [current_config_file W w] (set_current_config W w c).
Proof.
  intros w c. unfold set_current_config, writeline.
  mods; [apply mod_assert_ws|apply mod_assert_config|].
  apply modifies_fs. apply write_file_only.
  rewrite <- (app_nil_r (current_config_file W w)) at 2. apply covered_here. left. reflexivity.
Qed.

Lemma config_file_below : forall w c key, has_char slash key = false ->
  config_file W w c key = config_path W w c ++ [(key ++ ".json")%string].
Proof. intros w c key H. apply join_plain. apply plain_ext; [exact H|reflexivity|cbn; lia]. Qed.

Lemma mod_write_config : forall w c key text, has_char slash key = false ->
  modifies [config_path W w c] (write_config_file W w c key text).
Proof.
  intros w c key text H. unfold write_config_file. apply modifies_fs. apply rewrite_file_only.
  rewrite (config_file_below w c key H). apply covered_here. left. reflexivity.
Qed.

Lemma mod_upgrade_config : forall w c key, has_char slash key = false ->
  modifies [config_path W w c] (upgrade_config W upg w c key).
Proof. intros w c key H. unfold upgrade_config. mods. apply mod_write_config. exact H. Qed.

Lemma mod_upgrade_all : forall w c, modifies [config_path W w c] (upgrade_all_config W upg w c).
Proof. intros w c. unfold upgrade_all_config. mods; apply mod_upgrade_config; reflexivity. Qed.

Lemma mod_add_inputs : forall w ps, forallb (fun p => forallb plain p) ps = true ->
  modifies [inputs_path W w] (add_inputs W w ps).
Proof.
  intros w ps H. unfold add_inputs. mods.
  - apply mod_ensure. rewrite <- (app_nil_r (inputs_path W w)) at 2. apply covered_here. left. reflexivity.
  - apply modifies_fs. apply copy_file_only.
    rewrite forallb_forall in H. specialize (H x H0).
    assert (S : simple (last x "") = true).
    { destruct x as [|a x]; [reflexivity|]. unfold simple. rewrite orb_true_iff. left.
      rewrite forallb_forall in H. apply H.
      rewrite (app_removelast_last "" (l := a :: x)) at 2 by discriminate.
      apply in_or_app. right. left. reflexivity. }
    destruct (join_simple (inputs_path W w) _ S) as [r E]. rewrite E.
    apply covered_here. left. reflexivity.
Qed.

Lemma mod_remove_inputs : forall w names, forallb simple names = true ->
  modifies [inputs_path W w] (remove_inputs W w names).
Proof.
  intros w names H. unfold remove_inputs. mods. apply modifies_fs. apply remove_only.
  rewrite forallb_forall in H. destruct (join_simple (inputs_path W w) _ (H x H0)) as [r E]. rewrite E.
  apply covered_here. left. reflexivity.
Qed.

Lemma mod_remove_outputs : forall w c, modifies [outputs_path W w c] (remove_outputs W w c).
Proof.
  intros w c. unfold remove_outputs. mods. apply modifies_fs. apply remove_only.
  apply covered_here. left. reflexivity.
Qed.

Lemma notebook_plain : forall base i, has_char slash base = false ->
  plain (notebook_name base i) = true.
Proof.
  intros base i H. unfold notebook_name.
  assert (D : forall u, has_char slash (DecimalString.NilEmpty.string_of_uint u) = false).
  { induction u; cbn; auto. }
  apply plain_ext; [exact H| |].
  - rewrite !has_char_append. unfold dec. rewrite (D (Nat.to_uint i)). reflexivity.
  - generalize (dec i). clear. induction s; cbn in *; lia.
Qed.

Lemma mod_notebook : forall fuel w base text, has_char slash base = false ->
  modifies [notebooks_path W w] (make_notebook W fuel w base text).
Proof.
  intros fuel w base text H. unfold make_notebook.
  assert (G : modifies [notebooks_path W w] (write_notebook W fuel w base text)).
  { unfold write_notebook. mods. apply modifies_fs. apply write_file_only.
    rewrite (join_plain _ _ (notebook_plain base _ H)). apply covered_here. left. reflexivity. }
  mods; [exact G|]. destruct a0; mods; [|exact G]. apply modifies_fs. apply mkdir_only.
  rewrite <- (app_nil_r (notebooks_path W w)) at 2. apply covered_here. left. reflexivity.
Qed.

Lemma modifies_incl : forall A Ps Qs (m : M A), modifies Ps m ->
  (forall P, In P Ps -> covered Qs P) -> modifies Qs m.
Proof.
  intros A Ps Qs m H I n. apply (only_incl Ps Qs); [apply H|exact I].
Qed.

Lemma cov_cfg : forall w c, plain w = true -> simple c = true ->
  covered [ws_dir W w] (config_path W w c).
Proof.
  intros w c Hw Hc. unfold config_path. destruct (join_simple (configs_path W w) c Hc) as [r ->].
  rewrite configs_path_eq, (ws_path_plain w Hw), <- app_assoc. apply covered_here. left. reflexivity.
Qed.

Lemma cov_in : forall w p, plain w = true -> covered [ws_dir W w] (ws_path W w ++ p).
Proof. intros w p H. rewrite (ws_path_plain w H). apply covered_here. left. reflexivity. Qed.

Lemma cov_self : forall w, plain w = true -> covered [ws_dir W w] (ws_path W w).
Proof. intros w H. rewrite <- (app_nil_r (ws_path W w)). apply cov_in. exact H. Qed.

(** The areas a call may change: the named workspaces and W/.current. *)
Lemma exec_modifies : forall o, simple_names o = true ->
  modifies ((W ++ [".current"]) :: map (ws_dir W) (ws_named o)) (exec W resource upg o).
Proof.
  intros o H. unfold simple_names in H.
  apply andb_true_iff in H. destruct H as [H H3].
  apply andb_true_iff in H. destruct H as [H1 H2].
  assert (T : forall Ps p, covered Ps p -> covered ((W ++ [".current"]) :: Ps) p).
  { intros Ps p [P [I E]]. exists P. split; [right; exact I|exact E]. }
  assert (T2 : forall w w' p, covered [ws_dir W w] p -> covered [ws_dir W w; ws_dir W w'] p).
  { intros w w' p [P [[<-|[]] E]]. exists (ws_dir W w). split; [left; reflexivity|exact E]. }
  assert (T3 : forall w w' p, covered [ws_dir W w'] p -> covered [ws_dir W w; ws_dir W w'] p).
  { intros w w' p [P [[<-|[]] E]]. exists (ws_dir W w'). split; [right; left; reflexivity|exact E]. }
  destruct o; cbn [ws_named configs_named forallb map exec] in *;
    repeat match goal with
    | X : _ && _ = true |- _ => apply andb_true_iff in X; destruct X
    end.
  - eapply modifies_incl; [apply mod_create_ws|]. intros P [<-|[]]. apply T, cov_self; assumption.
  - eapply modifies_incl; [apply mod_delete_ws|]. intros P [<-|[]]. apply T, cov_self; assumption.
  - eapply modifies_incl; [apply mod_copy_ws|]. intros P [<-|[]]. apply T, T3, cov_self; assumption.
  - eapply modifies_incl; [apply mod_rename_ws|]. intros P [<-|[<-|[]]]; apply T;
      [apply T2|apply T3]; apply cov_self; assumption.
  - eapply modifies_incl; [apply mod_set_current|]. intros P [<-|[]].
    exists (W ++ [".current"]). split; [left; reflexivity|apply is_prefix_refl].
  - eapply modifies_incl; [apply mod_create_config|]. intros P [<-|[]]. apply T, cov_cfg; assumption.
  - eapply modifies_incl; [apply mod_delete_config|]. intros P [<-|[]]. apply T, cov_cfg; assumption.
  - eapply modifies_incl; [apply mod_copy_config|]. intros P [<-|[]]. apply T, cov_cfg; assumption.
  - eapply modifies_incl; [apply mod_rename_config|]. intros P [<-|[<-|[]]]; apply T, cov_cfg; assumption.
  - eapply modifies_incl; [apply mod_set_current_config|]. intros P [<-|[]]. apply T.
    rewrite current_config_file_eq, configs_path_eq, <- app_assoc. apply cov_in; assumption.
  - apply negb_true_iff in H3.
    eapply modifies_incl; [apply mod_write_config; exact H3|]. intros P [<-|[]]. apply T, cov_cfg; assumption.
  - eapply modifies_incl; [apply mod_upgrade_all|]. intros P [<-|[]]. apply T, cov_cfg; assumption.
  - eapply modifies_incl; [apply mod_add_inputs; exact H3|]. intros P [<-|[]]. apply T.
    rewrite inputs_path_eq. apply cov_in; assumption.
  - eapply modifies_incl; [apply mod_remove_inputs; exact H3|]. intros P [<-|[]]. apply T.
    rewrite inputs_path_eq. apply cov_in; assumption.
  - eapply modifies_incl; [apply mod_remove_outputs|]. intros P [<-|[]]. apply T.
    rewrite outputs_path_eq. apply covered_app. apply cov_cfg; assumption.
  - apply negb_true_iff in H3. apply modifies_then; [|apply modifies_ret].
    eapply modifies_incl; [apply mod_notebook; exact H3|]. intros P [<-|[]]. apply T.
    rewrite notebooks_path_eq. apply cov_in; assumption.
Qed.

Lemma ws_apart : forall w w', w <> w' -> apart (W ++ [w]) (W ++ [w']).
Proof. intros. apply apart_siblings. assumption. Qed.

Lemma history_isolated : forall ops w n, w <> ".current" ->
  (forall o, In o ops -> simple_names o = true /\ ~ In w (ws_named o)) ->
  lookup (ws_dir W w) (history W resource upg ops n) = lookup (ws_dir W w) n.
Proof.
  induction ops as [|o r IH]; intros w n Hw H; [reflexivity|].
  cbn [history]. rewrite IH; [|exact Hw|intros; apply H; right; assumption].
  destruct (H o (or_introl eq_refl)) as [H1 H2].
  apply (exec_modifies o H1). intros P [<-|HP].
  - apply ws_apart. congruence.
  - apply in_map_iff in HP. destruct HP as [w' [<- HP]]. apply ws_apart. intros ->. contradiction.
Qed.

(** The areas a call inside workspace [w] may change. *)
Lemma exec_inside_modifies : forall o w, simple_names o = true -> inside o = true ->
  ws_named o = [w] -> forallb plain (configs_named o) = true ->
  modifies ((W ++ [".current"]) :: (W ++ [w; "configs"; ".current"]) :: (W ++ [w; "inputs"]) ::
            (W ++ [w; "notebooks"]) :: map (config_dir W w) (configs_named o)) (exec W resource upg o).
Proof.
  intros o w H I N C. unfold simple_names in H.
  apply andb_true_iff in H. destruct H as [H H3].
  apply andb_true_iff in H. destruct H as [H1 _]. rewrite N in H1.
  cbn [forallb] in H1. apply andb_true_iff in H1. destruct H1 as [Hw _].
  assert (K : forall c, In c (configs_named o) -> plain c = true).
  { apply forallb_forall. exact C. }
  assert (Cf : forall c, In c (configs_named o) ->
    covered ((W ++ [".current"]) :: (W ++ [w; "configs"; ".current"]) :: (W ++ [w; "inputs"]) ::
            (W ++ [w; "notebooks"]) :: map (config_dir W w) (configs_named o)) (config_path W w c)).
  { intros c Hc. rewrite (config_path_dir w c Hw (K c Hc)). exists (config_dir W w c).
    split; [|apply is_prefix_refl]. do 4 right. apply in_map. exact Hc. }
  assert (Ws : ws_path W w = W ++ [w]) by (apply ws_path_plain; exact Hw).
  destruct o; try discriminate; cbn [ws_named] in N; injection N as ->; cbn [exec configs_named] in *.
  - eapply modifies_incl; [apply mod_set_current|]. intros P [<-|[]].
    exists (W ++ [".current"]). split; [left; reflexivity|apply is_prefix_refl].
  - eapply modifies_incl; [apply mod_create_config|]. intros P [<-|[]]. apply Cf. left. reflexivity.
  - eapply modifies_incl; [apply mod_delete_config|]. intros P [<-|[]]. apply Cf. left. reflexivity.
  - eapply modifies_incl; [apply mod_copy_config|]. intros P [<-|[]]. apply Cf. right. left. reflexivity.
  - eapply modifies_incl; [apply mod_rename_config|]. intros P [<-|[<-|[]]]; apply Cf; cbn; auto.
  - eapply modifies_incl; [apply mod_set_current_config|]. intros P [<-|[]].
    rewrite current_config_file_eq, configs_path_eq, Ws, <- !app_assoc.
    exists (W ++ [w; "configs"; ".current"]). split; [right; left; reflexivity|apply is_prefix_refl].
  - apply negb_true_iff in H3.
    eapply modifies_incl; [apply mod_write_config; exact H3|]. intros P [<-|[]]. apply Cf. left. reflexivity.
  - eapply modifies_incl; [apply mod_upgrade_all|]. intros P [<-|[]]. apply Cf. left. reflexivity.
  - eapply modifies_incl; [apply mod_add_inputs; exact H3|]. intros P [<-|[]].
    rewrite inputs_path_eq, Ws, <- app_assoc.
    exists (W ++ [w; "inputs"]). split; [cbn; auto|apply is_prefix_refl].
  - eapply modifies_incl; [apply mod_remove_inputs; exact H3|]. intros P [<-|[]].
    rewrite inputs_path_eq, Ws, <- app_assoc.
    exists (W ++ [w; "inputs"]). split; [cbn; auto|apply is_prefix_refl].
  - eapply modifies_incl; [apply mod_remove_outputs|]. intros P [<-|[]].
    rewrite outputs_path_eq. apply covered_app. apply Cf. left. reflexivity.
  - apply negb_true_iff in H3. apply modifies_then; [|apply modifies_ret].
    eapply modifies_incl; [apply mod_notebook; exact H3|]. intros P [<-|[]].
    rewrite notebooks_path_eq, Ws, <- app_assoc.
    exists (W ++ [w; "notebooks"]). split; [cbn; auto|apply is_prefix_refl].
Qed.

Lemma history_config_isolated : forall ops w c n, w <> ".current" -> c <> ".current" ->
  (forall o, In o ops -> simple_names o = true /\
     (In w (ws_named o) -> inside o = true /\ forallb plain (configs_named o) = true /\
                           ~ In c (configs_named o))) ->
  lookup (config_dir W w c) (history W resource upg ops n) = lookup (config_dir W w c) n.
Proof.
  induction ops as [|o r IH]; intros w c n Hw Hc H; [reflexivity|].
  cbn [history]. rewrite (IH w c); [|exact Hw|exact Hc|intros; apply H; right; assumption].
  destruct (H o (or_introl eq_refl)) as [H1 H2].
  destruct (in_dec string_dec w (ws_named o)) as [I|I].
  - destruct (H2 I) as [In1 [C N]].
    assert (E : ws_named o = [w]).
    { destruct o; try discriminate; cbn in I |- *; destruct I as [->|[]]; reflexivity. }
    apply (exec_inside_modifies o w H1 In1 E C). unfold config_dir.
    intros P [<-|[<-|[<-|[<-|HP]]]].
    + apply apart_siblings. congruence.
    + change (W ++ [w; "configs"; ".current"]) with (W ++ [w; "configs"] ++ [".current"]).
      change (W ++ [w; "configs"; c]) with (W ++ [w; "configs"] ++ [c]).
      rewrite !app_assoc. apply apart_siblings. congruence.
    + change (W ++ [w; "inputs"]) with (W ++ [w] ++ ["inputs"]).
      change (W ++ [w; "configs"; c]) with (W ++ [w] ++ ["configs"; c]).
      rewrite !app_assoc. apply apart_siblings. discriminate.
    + change (W ++ [w; "notebooks"]) with (W ++ [w] ++ ["notebooks"]).
      change (W ++ [w; "configs"; c]) with (W ++ [w] ++ ["configs"; c]).
      rewrite !app_assoc. apply apart_siblings. discriminate.
    + apply in_map_iff in HP. destruct HP as [c' [<- HP]]. unfold config_dir.
      change (W ++ [w; "configs"; c']) with (W ++ [w; "configs"] ++ [c']).
      change (W ++ [w; "configs"; c]) with (W ++ [w; "configs"] ++ [c]).
      rewrite !app_assoc. apply apart_siblings. intros ->. contradiction.
  - apply (exec_modifies o H1). intros P [<-|HP].
    + apply apart_siblings. congruence.
    + apply in_map_iff in HP. destruct HP as [w' [<- HP]]. apply apart_siblings. intros ->. contradiction.
Qed.

Lemma history_outside : forall ops q n, apart W q ->
  (forall o, In o ops -> simple_names o = true) ->
  lookup q (history W resource upg ops n) = lookup q n.
Proof.
  induction ops as [|o r IH]; intros q n A H; [reflexivity|].
  cbn [history]. rewrite (IH q); [|exact A|intros; apply H; right; assumption].
  apply (exec_modifies o (H o (or_introl eq_refl))).
  assert (D : forall x, apart (W ++ x) q).
  { intro x. apply (apart_down W); [apply is_prefix_app; exists x; reflexivity|exact A]. }
  intros P [<-|HP]; [apply D|]. apply in_map_iff in HP. destruct HP as [w [<- _]]. apply D.
Qed.

(** ** Directory entries after a write *)

Lemma write_child : forall mk p c v n n' d, lookup p n = Some (NDir d) ->
  write mk (p ++ [c]) v n = Some n' -> lookup p n' = Some (NDir (put1 c v d)).
Proof.
  intros mk p. induction p as [|a p IH]; intros c v n n' d L H.
  - cbn in L. inversion L. subst n. cbn in H. inversion H. reflexivity.
  - cbn [app] in H. destruct (write_cons _ _ _ _ _ _ H) as [d' [v' [-> [-> C]]]].
    cbn [lookup] in L |- *. rewrite dget_put1, String.eqb_refl.
    destruct C as [[E _]|[_ [ch [ch' [-> [D Hw]]]]]]; [destruct p; discriminate|].
    destruct D as [D|[D _]]; rewrite D in L; [|discriminate].
    apply (IH c v ch ch' d L Hw).
Qed.

(** ** Creation *)

Lemma ensure_preserved : forall p n, preserved n (fst (ensure_dir p n)).
Proof.
  intros p n. unfold ensure_dir, bindM, look. destruct (exists_at p n) eqn:E; [apply preserved_refl|].
  unfold fs. destruct (makedirs p n) as [n'|] eqn:Em; cbn; [|apply preserved_refl].
  apply (write_new_preserves true p (NDir []) n n' E Em).
Qed.

Lemma create_ws_preserved : forall w n, preserved n (fst (create_ws W w n)).
Proof.
  intros w n. unfold create_ws. destruct (w =? "")%string; [apply preserved_refl|].
  unfold bindM, look. destruct (nonempty_dir (ws_path W w) n); [apply preserved_refl|].
  apply ensure_preserved.
Qed.

Lemma ensure_ok : forall p n n', ensure_dir p n = (n', Ok tt) -> exists_at p n' = true.
Proof.
  intros p n n'. unfold ensure_dir, bindM, look. destruct (exists_at p n) eqn:E.
  - intro H. inversion H. subst. exact E.
  - unfold fs. destruct (makedirs p n) as [n1|] eqn:Em; [|discriminate].
    intro H. inversion H. subst n1. unfold exists_at. rewrite (write_at _ _ _ _ _ Em). reflexivity.
Qed.

Lemma ensure_fail : forall p n n' e, ensure_dir p n = (n', Err e) -> n' = n.
Proof.
  intros p n n' e. unfold ensure_dir, bindM, look. destruct (exists_at p n) eqn:E.
  - discriminate.
  - unfold fs. destruct (makedirs p n) as [n1|] eqn:Em; [discriminate|]. intro H. inversion H. reflexivity.
Qed.

Lemma ensure_cases : forall p n n', ensure_dir p n = (n', Ok tt) ->
  (n' = n /\ exists_at p n = true) \/ lookup p n' = Some (NDir []).
Proof.
  intros p n n'. unfold ensure_dir, bindM, look. destruct (exists_at p n) eqn:E.
  - intro H. inversion H. left. auto.
  - unfold fs. destruct (makedirs p n) as [n1|] eqn:Em; [|discriminate].
    intro H. inversion H. subst n1. right. apply (write_at _ _ _ _ _ Em).
Qed.

Lemma write_file_child : forall p c s n d, lookup p n = Some (NDir d) -> dget c d = None ->
  exists n', write_file (p ++ [c]) s n = Some n' /\ preserved n n' /\
             lookup p n' = Some (NDir (dset c (NFile s) d)).
Proof.
  intros p c s n d L E.
  assert (X : exists_at (p ++ [c]) n = false).
  { unfold exists_at. rewrite lookup_app, L. cbn [lookup]. rewrite E. reflexivity. }
  assert (Y : is_dir (p ++ [c]) n = false).
  { unfold is_dir. rewrite lookup_app, L. cbn [lookup]. rewrite E. reflexivity. }
  destruct (write_ok false p c (Some (NFile s)) n) as [n' H].
  { unfold is_dir. rewrite L. reflexivity. }
  exists n'. unfold write_file. rewrite Y. split; [exact H|]. split.
  - apply (write_new_preserves false (p ++ [c]) (NFile s) n n' X H).
  - apply (write_child false p c _ n n' d L H).
Qed.

Definition config_files (cryosat : bool) : dict node :=
  [("CHD.json", NFile (resource cryosat "CHD.json"));
   ("CNF.json", NFile (resource cryosat "CNF.json"));
   ("CST.json", NFile (resource cryosat "CST.json"))].

Lemma copy_resources : forall b p n, lookup p n = Some (NDir []) ->
  exists n', (copy_resource resource b "CHD.json" p ;;; copy_resource resource b "CNF.json" p ;;;
              copy_resource resource b "CST.json" p) n = (n', Ok tt) /\
             preserved n n' /\ lookup p n' = Some (NDir (config_files b)).
Proof.
  intros b p n L. unfold copy_resource, thenM, bindM, fs.
  rewrite (join_plain p "CHD.json"), (join_plain p "CNF.json"), (join_plain p "CST.json") by reflexivity.
  destruct (write_file_child p "CHD.json" (resource b "CHD.json") n [] L eq_refl) as [n1 [H1 [P1 L1]]].
  rewrite H1.
  destruct (write_file_child p "CNF.json" (resource b "CNF.json") n1 _ L1 eq_refl) as [n2 [H2 [P2 L2]]].
  rewrite H2.
  destruct (write_file_child p "CST.json" (resource b "CST.json") n2 _ L2 eq_refl) as [n3 [H3 [P3 L3]]].
  rewrite H3. exists n3. split; [reflexivity|]. split; [|exact L3].
  apply (preserved_trans n n1 n3 P1). apply (preserved_trans n1 n2 n3 P2 P3).
Qed.

Lemma copy_resources_file : forall b p n, is_dir p n = false ->
  exists e, (copy_resource resource b "CHD.json" p ;;; copy_resource resource b "CNF.json" p ;;;
              copy_resource resource b "CST.json" p) n = (n, Err e).
Proof.
  intros b p n D. unfold copy_resource, thenM, bindM, fs.
  rewrite (join_plain p "CHD.json") by reflexivity. unfold write_file.
  destruct (is_dir (p ++ ["CHD.json"]) n); [eexists; reflexivity|].
  destruct (write false (p ++ ["CHD.json"]) _ n) as [n'|] eqn:E; [|eexists; reflexivity].
  destruct (write_above _ _ _ _ _ p ["CHD.json"] E eq_refl ltac:(discriminate)) as [_ [X|[X _]]];
    [congruence|discriminate].
Qed.

(** All outcomes of create_config. *)
Lemma create_config_cases : forall w c b n n' r, create_config W resource w c b n = (n', r) ->
  (n' = n /\ exists e, r = Err e) \/
  (r = Ok tt /\ nonempty_dir (config_path W w c) n = false /\ preserved n n' /\
   lookup (config_path W w c) n' = Some (NDir (config_files b))).
Proof.
  intros w c b n n' r. unfold create_config, assert_ws, config_exists.
  unfold thenM at 1. unfold bindM at 1 2. unfold look at 1.
  destruct (exists_at (ws_path W w) n); [|intro H; inversion H; left; eauto].
  unfold ret at 1. unfold bindM at 1. unfold look at 1.
  destruct (nonempty_dir (config_path W w c) n) eqn:N; [intro H; inversion H; left; eauto|].
  unfold thenM at 1. unfold bindM at 1.
  destruct (ensure_dir (config_path W w c) n) as [n1 [[]|e]] eqn:En.
  - pose proof (ensure_preserved (config_path W w c) n) as P. rewrite En in P. cbn [fst] in P.
    destruct (ensure_cases _ _ _ En) as [[-> X]|L].
    + unfold exists_at in X. destruct (lookup (config_path W w c) n) as [[s|d]|] eqn:L; [| |discriminate].
      * destruct (copy_resources_file b (config_path W w c) n) as [e E].
        { unfold is_dir. rewrite L. reflexivity. }
        intro H. setoid_rewrite E in H. inversion H. left. eauto.
      * assert (d = []) by (unfold nonempty_dir in N; rewrite L in N; destruct d; congruence). subst d.
        destruct (copy_resources b (config_path W w c) n L) as [n2 [E [P2 L2]]].
        intro H. setoid_rewrite E in H. inversion H. subst. right. auto.
    + destruct (copy_resources b (config_path W w c) n1 L) as [n2 [E [P2 L2]]].
      intro H. setoid_rewrite E in H. inversion H. subst. right.
      split; [reflexivity|]. split; [reflexivity|]. split; [|exact L2].
      apply (preserved_trans n n1 n'); assumption.
  - apply ensure_fail in En. subst n1. intro H. inversion H. left. eauto.
Qed.

(** ** Well-formedness of the tree along a history *)

Ltac keeps :=
  repeat match goal with
  | |- keeps_wf (ret _) => apply keeps_ret
  | |- keeps_wf (fail _) => apply keeps_fail
  | |- keeps_wf (look _) => apply keeps_look
  | |- keeps_wf (need _ _) => apply keeps_need
  | |- keeps_wf (thenM _ _) => apply keeps_then
  | |- keeps_wf (if _ then _ else _) => apply keeps_if
  | |- keeps_wf (bindM _ _) => apply keeps_bind; [|intro]
  | |- keeps_wf (forM _ _) => apply keeps_for; intros
  | |- keeps_wf (fs _ _) => apply keeps_fs
  end.

Lemma exec_wf : forall o, keeps_wf (exec W resource upg o).
Proof.
  intro o. destruct o; cbn [exec];
    unfold create_ws, delete_ws, copy_ws, rename_ws, set_current, create_config, delete_config,
      copy_config, rename_config, set_current_config, upgrade_all_config, upgrade_config,
      add_inputs, remove_inputs, remove_outputs, make_notebook, write_notebook,
      write_config_file, copy_resource, writeline, ensure_dir, assert_ws, assert_config, config_exists;
    keeps; try apply makedirs_wf; try apply rmtree_wf; try apply copytree_wf; try apply move_wf;
    try apply write_file_wf; try apply rewrite_file_wf; try apply os_rename_wf;
    try apply copy_file_wf; try apply remove_wf; try apply mkdir_wf.
  destruct a0; keeps; [apply mkdir_wf|apply write_file_wf].
Qed.

Lemma history_wf : forall ops n, wf n -> wf (history W resource upg ops n).
Proof.
  induction ops as [|o r IH]; intros n H; [exact H|]. cbn [history]. apply IH. apply exec_wf. exact H.
Qed.

(** ** Copy, rename, delete for single-component names *)

Lemma base_exists : forall w n, exists_at (ws_dir W w) n = true -> exists_at W n = true.
Proof. intros w n. apply exists_parent. Qed.

Lemma copy_ws_eq : forall w w' n, plain w = true -> plain w' = true ->
  copy_ws W w w' n =
  if exists_at (ws_dir W w) n then fs EWs (copytree (ws_dir W w) (ws_dir W w')) n else (n, Err EWs).
Proof.
  intros w w' n Hw Hw'. unfold copy_ws, assert_ws, thenM, bindM, look.
  rewrite (ws_path_plain w Hw). destruct (exists_at (ws_dir W w) n) eqn:E; [|reflexivity].
  unfold ret. change (ws_path W "") with W. rewrite (base_exists w n E).
  rewrite (join_plain W w Hw), (join_plain W w' Hw'). reflexivity.
Qed.

Lemma rename_ws_eq : forall w w' n, plain w = true -> plain w' = true ->
  rename_ws W w w' n =
  if exists_at (ws_dir W w) n then fs EWs (move (ws_dir W w) (ws_dir W w')) n else (n, Err EWs).
Proof.
  intros w w' n Hw Hw'. unfold rename_ws, assert_ws, thenM, bindM, look.
  rewrite (ws_path_plain w Hw). destruct (exists_at (ws_dir W w) n) eqn:E; [|reflexivity].
  unfold ret. destruct (plain_inv w' Hw') as [_ [N _]]. apply String.eqb_neq in N. rewrite N.
  change (ws_path W "") with W. rewrite (base_exists w n E).
  rewrite (join_plain W w Hw), (join_plain W w' Hw'). reflexivity.
Qed.

Lemma delete_ws_eq : forall w n, plain w = true ->
  delete_ws W w n =
  if exists_at (ws_dir W w) n then fs EWs (rmtree (ws_dir W w)) n else (n, Err EWs).
Proof.
  intros w n Hw. unfold delete_ws, assert_ws, thenM, bindM, look.
  rewrite (ws_path_plain w Hw). destruct (exists_at (ws_dir W w) n) eqn:E; [|reflexivity].
  unfold ret; cbv beta iota; rewrite ?E; reflexivity.
Qed.

Lemma config_exists_ws : forall w c n, plain w = true -> plain c = true ->
  exists_at (config_dir W w c) n = true -> exists_at (ws_path W w) n = true.
Proof.
  intros w c n Hw Hc E. rewrite (ws_path_plain w Hw). apply (exists_parent _ ["configs"; c]).
  unfold ws_dir, config_dir in *. rewrite <- app_assoc. exact E.
Qed.

Lemma copy_config_eq : forall w c c' n, plain w = true -> plain c = true -> plain c' = true ->
  copy_config W w c c' n =
  if exists_at (config_dir W w c) n
  then fs EWs (copytree (config_dir W w c) (config_dir W w c')) n else (n, Err EWs).
Proof.
  intros w c c' n Hw Hc Hc'. unfold copy_config, assert_ws, assert_config, thenM, bindM, look.
  rewrite (config_path_dir w c Hw Hc), (config_path_dir w c' Hw Hc').
  destruct (exists_at (config_dir W w c) n) eqn:E.
  - rewrite (config_exists_ws w c n Hw Hc E). unfold ret; cbv beta iota; rewrite ?E; reflexivity.
  - destruct (exists_at (ws_path W w) n); unfold ret; cbv beta iota; rewrite ?E; reflexivity.
Qed.

Lemma rename_config_eq : forall w c c' n, plain w = true -> plain c = true -> plain c' = true ->
  rename_config W w c c' n =
  if exists_at (config_dir W w c) n
  then fs EWs (os_rename (config_dir W w c) (config_dir W w c')) n else (n, Err EWs).
Proof.
  intros w c c' n Hw Hc Hc'. unfold rename_config, assert_ws, assert_config, thenM, bindM, look.
  rewrite (config_path_dir w c Hw Hc), (config_path_dir w c' Hw Hc').
  destruct (exists_at (config_dir W w c) n) eqn:E.
  - rewrite (config_exists_ws w c n Hw Hc E). unfold ret; cbv beta iota; rewrite ?E; reflexivity.
  - destruct (exists_at (ws_path W w) n); unfold ret; cbv beta iota; rewrite ?E; reflexivity.
Qed.

Lemma delete_config_eq : forall w c n, plain w = true -> plain c = true ->
  delete_config W w c n =
  if exists_at (config_dir W w c) n then fs EWs (rmtree (config_dir W w c)) n else (n, Err EWs).
Proof.
  intros w c n Hw Hc. unfold delete_config, assert_ws, assert_config, thenM, bindM, look.
  rewrite (config_path_dir w c Hw Hc).
  destruct (exists_at (config_dir W w c) n) eqn:E.
  - rewrite (config_exists_ws w c n Hw Hc E). unfold ret; cbv beta iota; rewrite ?E; reflexivity.
  - destruct (exists_at (ws_path W w) n); unfold ret; cbv beta iota; rewrite ?E; reflexivity.
Qed.

End P.

(** *** The same facts for a name in any base directory *)

Lemma copytree_sibling : forall b x y n d, lookup (b ++ [x]) n = Some (NDir d) ->
  exists_at (b ++ [y]) n = false -> x <> y ->
  exists n', copytree (b ++ [x]) (b ++ [y]) n = Some n' /\
    lookup (b ++ [y]) n' = Some (NDir d) /\ lookup (b ++ [x]) n' = Some (NDir d) /\
    only [b ++ [y]] n n'.
Proof.
  intros b x y n d L N D.
  destruct (write_ok true b y (Some (NDir d)) n) as [n' H].
  { apply (exists_parent_dir b x []). unfold exists_at. rewrite L. reflexivity. }
  exists n'. unfold copytree. rewrite L, N. split; [exact H|]. split; [apply (write_at _ _ _ _ _ H)|].
  split.
  - rewrite (write_other _ _ _ _ _ (b ++ [x]) H); [exact L|]. apply apart_siblings. congruence.
  - apply (write_only [b ++ [y]] true (b ++ [y]) (Some (NDir d))); [|exact H].
    exists (b ++ [y]). split; [left; reflexivity|apply is_prefix_refl].
Qed.

Lemma copytree_exists : forall p q n, exists_at q n = true -> copytree p q n = None.
Proof. intros p q n H. unfold copytree. rewrite H. destruct (lookup p n) as [[]|]; reflexivity. Qed.

Lemma os_rename_new : forall s x d y n c,
  lookup (s ++ [x]) n = Some c -> exists_at (d ++ [y]) n = false -> is_dir d n = true ->
  apart (s ++ [x]) (d ++ [y]) ->
  exists n', os_rename (s ++ [x]) (d ++ [y]) n = Some n' /\
    lookup (d ++ [y]) n' = Some c /\ lookup (s ++ [x]) n' = None /\
    only [s ++ [x]; d ++ [y]] n n'.
Proof.
  intros s x d y n c L N D A.
  destruct (write_ok false d y (Some c) n D) as [n1 H1].
  assert (S1 : is_dir s n1 = true).
  { apply (write_new_preserves _ _ _ _ _ N H1).
    apply (exists_parent_dir s x []). unfold exists_at. rewrite L. reflexivity. }
  destruct (write_ok false s x None n1 S1) as [n2 H2].
  assert (R : os_rename (s ++ [x]) (d ++ [y]) n = Some n2).
  { unfold os_rename. rewrite L. destruct A as [A1 A2].
    destruct (path_eqb (s ++ [x]) (d ++ [y])) eqn:E.
    - apply path_eqb_eq in E. rewrite E, is_prefix_refl in A1. discriminate.
    - rewrite A1. unfold exists_at in N. destruct (lookup (d ++ [y]) n); [discriminate|].
      rewrite H1. exact H2. }
  exists n2. split; [exact R|]. split; [|split].
  - rewrite (write_other _ _ _ _ _ _ H2 A). apply (write_at _ _ _ _ _ H1).
  - apply (write_at _ _ _ _ _ H2).
  - apply (os_rename_only [s ++ [x]; d ++ [y]] (s ++ [x]) (d ++ [y])); [| |exact R].
    + exists (s ++ [x]). split; [left; reflexivity|apply is_prefix_refl].
    + exists (d ++ [y]). split; [right; left; reflexivity|apply is_prefix_refl].
Qed.

Lemma move_new : forall b x y n c, x <> y ->
  lookup (b ++ [x]) n = Some c -> exists_at (b ++ [y]) n = false ->
  exists n', move (b ++ [x]) (b ++ [y]) n = Some n' /\
    lookup (b ++ [y]) n' = Some c /\ lookup (b ++ [x]) n' = None /\
    only [b ++ [x]; b ++ [y]] n n'.
Proof.
  intros b x y n c D L N.
  destruct (os_rename_new b x b y n c L N) as [n' [R K]].
  - apply (exists_parent_dir b x []). unfold exists_at. rewrite L. reflexivity.
  - apply apart_siblings. exact D.
  - exists n'. split; [|exact K]. unfold move. rewrite L.
    assert (E : is_dir (b ++ [y]) n = false).
    { destruct (is_dir (b ++ [y]) n) eqn:E; [|reflexivity]. apply is_dir_exists in E. congruence. }
    rewrite E. cbn [andb]. cbv zeta. rewrite R. reflexivity.
Qed.

Lemma last_snoc : forall (b : path) x, last (b ++ [x]) "" = x.
Proof. intros. apply last_last. Qed.

(** Moving onto an existing directory puts the source inside it. *)
Lemma move_into : forall b x y n c, x <> y ->
  lookup (b ++ [x]) n = Some c -> is_dir (b ++ [y]) n = true -> exists_at (b ++ [y; x]) n = false ->
  exists n', move (b ++ [x]) (b ++ [y]) n = Some n' /\
    lookup (b ++ [y; x]) n' = Some c /\ lookup (b ++ [x]) n' = None /\
    only [b ++ [x]; b ++ [y; x]] n n'.
Proof.
  intros b x y n c D L Y N.
  change (b ++ [y; x]) with (b ++ [y] ++ [x]) in *. rewrite app_assoc in *.
  destruct (os_rename_new b x (b ++ [y]) x n c L N Y) as [n' [R K]].
  - rewrite <- app_assoc. apply apart_siblings. exact D.
  - exists n'. split; [|exact K]. unfold move. rewrite L, Y. cbn [andb].
    destruct (path_eqb (b ++ [x]) (b ++ [y])) eqn:E.
    + apply path_eqb_eq in E. apply app_inj_tail in E. destruct E. congruence.
    + cbv zeta. rewrite last_snoc, N, R. reflexivity.
Qed.

(** ... unless the name is taken there: then nothing happens. *)
Lemma move_into_taken : forall b x y n, x <> y ->
  is_dir (b ++ [y]) n = true -> exists_at (b ++ [y; x]) n = true -> move (b ++ [x]) (b ++ [y]) n = None.
Proof.
  intros b x y n D Y N.
  change (b ++ [y; x]) with (b ++ [y] ++ [x]) in N. rewrite app_assoc in N.
  unfold move. destruct (lookup (b ++ [x]) n); [|reflexivity]. rewrite Y. cbn [andb].
  destruct (path_eqb (b ++ [x]) (b ++ [y])) eqn:E.
  - apply path_eqb_eq in E. apply app_inj_tail in E. destruct E. congruence.
  - cbv zeta. rewrite last_snoc, N. reflexivity.
Qed.

(** A directory is not moved onto a file. *)
Lemma move_onto_file : forall b x y n, x <> y ->
  is_dir (b ++ [x]) n = true -> is_file (b ++ [y]) n = true -> move (b ++ [x]) (b ++ [y]) n = None.
Proof.
  intros b x y n D X Y. unfold is_dir in X. unfold is_file in Y.
  destruct (lookup (b ++ [x]) n) as [[s|d]|] eqn:Lx; try discriminate.
  destruct (lookup (b ++ [y]) n) as [[s|d']|] eqn:Ly; try discriminate.
  assert (DY : is_dir (b ++ [y]) n = false) by (unfold is_dir; rewrite Ly; reflexivity).
  assert (DX : is_dir (b ++ [x]) n = true) by (unfold is_dir; rewrite Lx; reflexivity).
  unfold move. rewrite Lx, DY. cbn [andb]. cbv zeta.
  unfold os_rename. rewrite Lx, Ly.
  destruct (path_eqb (b ++ [x]) (b ++ [y])) eqn:E.
  { apply path_eqb_eq in E. apply app_inj_tail in E. destruct E. congruence. }
  rewrite (prefix_longer b x y [] [] D).
  rewrite DX. rewrite (copytree_exists (b ++ [x]) (b ++ [y]) n); [reflexivity|].
  unfold exists_at. rewrite Ly. reflexivity.
Qed.

Lemma os_rename_onto : forall b x y n d e r, x <> y ->
  lookup (b ++ [x]) n = Some (NDir d) -> lookup (b ++ [y]) n = Some (NDir (e :: r)) ->
  os_rename (b ++ [x]) (b ++ [y]) n = None.
Proof.
  intros b x y n d e r D X Y. unfold os_rename. rewrite X, Y.
  destruct (path_eqb (b ++ [x]) (b ++ [y])) eqn:E.
  { apply path_eqb_eq in E. apply app_inj_tail in E. destruct E. congruence. }
  rewrite (prefix_longer b x y [] [] D). reflexivity.
Qed.

Lemma rmtree_spec : forall b x n d, lookup (b ++ [x]) n = Some (NDir d) ->
  exists n', rmtree (b ++ [x]) n = Some n' /\ lookup (b ++ [x]) n' = None /\ only [b ++ [x]] n n'.
Proof.
  intros b x n d L.
  destruct (write_ok false b x None n) as [n' H].
  { apply (exists_parent_dir b x []). unfold exists_at. rewrite L. reflexivity. }
  exists n'. split.
  - unfold rmtree, is_dir. rewrite L. exact H.
  - split; [apply (write_at _ _ _ _ _ H)|].
    apply (write_only [b ++ [x]] false (b ++ [x]) None); [|exact H].
    exists (b ++ [x]). split; [left; reflexivity|apply is_prefix_refl].
Qed.

(** ** Listings *)

Lemma dget_keys : forall (d : dict node) x v, dget x d = Some v -> In x (keys d).
Proof.
  intros d x v H. destruct (in_dec string_dec x (keys d)) as [I|I]; [exact I|].
  apply dget_none in I. congruence.
Qed.

Lemma listed_sorted : forall (f : string -> bool) (P : string -> Prop) l,
  NoDup l -> (forall x, In x l /\ f x = true <-> P x) -> lists P (sort_s (filter f l)).
Proof.
  intros f P l N H. split.
  - intro x. rewrite sort_in, filter_In. apply H.
  - apply sorted_nodup_strict; [apply sort_sorted|]. apply sort_nodup. apply NoDup_filter. exact N.
Qed.

Lemma subdirs_spec : forall p n, wf n -> is_dir p n = true ->
  exists l, subdirs p n = (n, Ok l) /\ lists (fun x => is_dir (p ++ [x]) n = true) l.
Proof.
  intros p n Hn D. unfold is_dir in D. destruct (lookup p n) as [[s|d]|] eqn:L; try discriminate.
  exists (sort_s (filter (fun x => is_dir (p ++ [x]) n) (keys d))). split.
  - unfold subdirs, bindM, look, listdir, need. rewrite L. reflexivity.
  - apply listed_sorted; [apply (Hn p d L)|]. intro x. split; [tauto|]. intro H. split; [|exact H].
    unfold is_dir in H. rewrite lookup_app, L in H. cbn [lookup] in H.
    destruct (dget x d) as [v|] eqn:E; [|discriminate]. apply (dget_keys d x v E).
Qed.

Lemma length_app_s : forall a b : string, String.length (a ++ b) = String.length a + String.length b.
Proof. induction a; cbn; intros; auto. Qed.

Lemma substring_full : forall s, substring 0 (String.length s) s = s.
Proof. induction s as [|c s IH]; cbn; [reflexivity|]. rewrite IH. reflexivity. Qed.

Lemma substring_skip : forall a b : string, substring (String.length a) (String.length b) (a ++ b) = b.
Proof. induction a as [|c a IH]; intro b; [apply substring_full|cbn; apply IH]. Qed.

Lemma split_at : forall k s, k <= String.length s ->
  s = (substring 0 k s ++ substring k (String.length s - k) s)%string.
Proof.
  induction k as [|k IH]; intros s L.
  - rewrite Nat.sub_0_r, substring_full. destruct s; reflexivity.
  - destruct s as [|c s]; [cbn in L; lia|]. cbn in L |- *. f_equal. apply IH. lia.
Qed.

Lemma ends_with_iff : forall e s, ends_with e s = true <-> exists b, s = (b ++ e)%string.
Proof.
  intros e s. unfold ends_with. rewrite andb_true_iff, Nat.leb_le, String.eqb_eq. split.
  - intros [L E]. exists (substring 0 (String.length s - String.length e) s).
    pose proof (split_at (String.length s - String.length e) s ltac:(lia)) as S.
    replace (String.length s - (String.length s - String.length e)) with (String.length e) in S by lia.
    rewrite E in S. exact S.
  - intros [b ->]. rewrite length_app_s. split; [lia|].
    replace (String.length b + String.length e - String.length e) with (String.length b) by lia.
    apply substring_skip.
Qed.

Lemma nc_names : forall p n d, wf n -> lookup p n = Some (NDir d) ->
  NoDup (keys d) /\
  (forall x, In x (keys d) /\ ends_with ".nc" x && is_file (p ++ [x]) n = true <-> nc_file p n x).
Proof.
  intros p n d Hn L. split; [apply (Hn p d L)|]. intro x. unfold nc_file.
  rewrite andb_true_iff, ends_with_iff. split; [tauto|]. intros [H1 H2]. split; [|tauto].
  unfold is_file in H2. rewrite lookup_app, L in H2. cbn [lookup] in H2.
  destruct (dget x d) as [v|] eqn:E; [|discriminate]. apply (dget_keys d x v E).
Qed.

Lemma select_in : forall fnm pt l x,
  In x (select fnm pt l) <->
  In x l /\ match pt with
            | PNone => True
            | POne p => fnm x p = true
            | PMany ps => ps = [] \/ exists p, In p ps /\ fnm x p = true
            end.
Proof.
  intros fnm pt l x. destruct pt as [|p|ps]; cbn [select].
  - tauto.
  - rewrite filter_In. tauto.
  - destruct ps as [|p0 ps]; [tauto|]. set (qs := p0 :: ps).
    rewrite in_flat_map. split.
    + intros [y [Hy H]]. apply in_flat_map in H. destruct H as [p [Hp H]].
      destruct (fnm y p) eqn:E; [|destruct H]. destruct H as [->|[]].
      split; [exact Hy|]. right. exists p. auto.
    + intros [H [X|[p [Hp E]]]]; [discriminate|]. exists x. split; [exact H|].
      apply in_flat_map. exists p. split; [exact Hp|]. rewrite E. left. reflexivity.
Qed.

(** How often a file is listed: once per matching pattern. *)
Lemma count_flat_const : forall (f : string -> bool) (x y : string) (ps : list string),
  count_occ string_dec (flat_map (fun p => if f p then [y] else []) ps) x =
  if string_dec y x then length (filter f ps) else 0.
Proof.
  intros f x y ps. induction ps as [|p ps IH]; cbn [flat_map filter].
  - cbn. destruct (string_dec y x); reflexivity.
  - rewrite count_occ_app, IH. destruct (f p); cbn [count_occ length];
      destruct (string_dec y x); cbn; lia.
Qed.

Lemma count_flat : forall (g : string -> list string) (k : string -> nat) l x,
  NoDup l -> In x l ->
  (forall y, count_occ string_dec (g y) x = if string_dec y x then k y else 0) ->
  count_occ string_dec (flat_map g l) x = k x.
Proof.
  intros g k l x N I H.
  assert (Z : forall l, ~ In x l -> count_occ string_dec (flat_map g l) x = 0).
  { induction l0 as [|y r IH]; intro J; [reflexivity|]. cbn [flat_map]. rewrite count_occ_app, H.
    destruct (string_dec y x) as [->|_]; [exfalso; apply J; left; reflexivity|].
    rewrite IH; [reflexivity|]. intro. apply J. right. assumption. }
  induction l as [|y r IH]; [destruct I|]. inversion N as [|? ? N1 N2]. subst.
  cbn [flat_map]. rewrite count_occ_app, H. destruct (string_dec y x) as [->|D].
  - rewrite (Z r N1). lia.
  - destruct I as [->|I]; [congruence|]. rewrite (IH N2 I). reflexivity.
Qed.

Lemma count_perm : forall l l' x, Permutation l l' ->
  count_occ string_dec l x = count_occ string_dec l' x.
Proof. intros l l' x H. apply Permutation_count_occ. exact H. Qed.

(** ** Notebooks *)

Lemma free_index_some : forall p base n fuel i k, free_index p base fuel i n = Some k ->
  i <= k /\ exists_at (join p (notebook_name base k)) n = false /\
  forall j, i <= j < k -> exists_at (join p (notebook_name base j)) n = true.
Proof.
  intros p base n fuel. induction fuel as [|f IH]; intros i k H; [discriminate|].
  cbn [free_index] in H. destruct (exists_at (join p (notebook_name base i)) n) eqn:E.
  - destruct (IH (S i) k H) as [H1 [H2 H3]]. split; [lia|]. split; [exact H2|].
    intros j Hj. destruct (Nat.eq_dec j i) as [->|D]; [exact E|apply H3; lia].
  - inversion H. subst k. split; [lia|]. split; [exact E|]. intros j Hj. lia.
Qed.

Lemma free_index_none : forall p base n fuel i, free_index p base fuel i n = None ->
  forall j, i <= j < i + fuel -> exists_at (join p (notebook_name base j)) n = true.
Proof.
  intros p base n fuel. induction fuel as [|f IH]; intros i H j Hj; [lia|].
  cbn [free_index] in H. destruct (exists_at (join p (notebook_name base i)) n) eqn:E; [|discriminate].
  destruct (Nat.eq_dec j i) as [->|D]; [exact E|apply (IH (S i) H); lia].
Qed.

Lemma notebook_name_inj : forall base a b, notebook_name base a = notebook_name base b -> a = b.
Proof.
  intros base a b H. unfold notebook_name in H. apply append_inj_l in H. apply append_inj_l in H.
  apply append_inj_r in H. apply dec_inj. exact H.
Qed.

Lemma free_index_total : forall p base n d fuel, has_char slash base = false ->
  lookup p n = Some (NDir d) -> length d < fuel ->
  exists k, free_index p base fuel 1 n = Some k.
Proof.
  intros p base n d fuel Hb L F.
  destruct (free_index p base fuel 1 n) as [k|] eqn:E; [exists k; reflexivity|].
  exfalso. pose proof (free_index_none _ _ _ _ _ E) as A.
  destruct (fresh_exists (notebook_name base) (keys d) 1 (notebook_name_inj base)) as [k [Hk N]].
  unfold keys in Hk. rewrite map_length in Hk.
  specialize (A k ltac:(lia)). rewrite (join_plain p _ (notebook_plain base k Hb)) in A.
  unfold exists_at in A. rewrite lookup_app, L in A. cbn [lookup] in A.
  destruct (dget (notebook_name base k) d) as [v|] eqn:G; [|discriminate].
  apply N. apply (dget_keys d _ v G).
Qed.

Section Nb.
Variable W : path.

Lemma write_notebook_spec : forall fuel w base text n d, has_char slash base = false ->
  lookup (notebooks_path W w) n = Some (NDir d) -> length d < fuel ->
  exists k n', write_notebook W fuel w base text n
                 = (n', Ok (Some (notebooks_path W w ++ [notebook_name base k]))) /\
    1 <= k /\ exists_at (notebooks_path W w ++ [notebook_name base k]) n = false /\
    lookup (notebooks_path W w ++ [notebook_name base k]) n' = Some (NFile text) /\
    preserved n n' /\ only [notebooks_path W w ++ [notebook_name base k]] n n' /\
    (forall j, 1 <= j < k -> exists_at (notebooks_path W w ++ [notebook_name base j]) n = true).
Proof.
  intros fuel w base text n d Hb L F.
  destruct (free_index_total _ base n d fuel Hb L F) as [k E].
  destruct (free_index_some _ _ _ _ _ _ E) as [H1 [H2 H3]].
  rewrite (join_plain _ _ (notebook_plain base k Hb)) in H2.
  set (q := notebooks_path W w ++ [notebook_name base k]) in *.
  destruct (write_ok false (notebooks_path W w) (notebook_name base k) (Some (NFile text)) n) as [n' Hw].
  { unfold is_dir. rewrite L. reflexivity. }
  exists k, n'. split.
  - unfold write_notebook, bindM, look, need, thenM, bindM, fs. rewrite E. unfold ret.
    rewrite (join_plain _ _ (notebook_plain base k Hb)). fold q. unfold write_file.
    assert (D : is_dir q n = false).
    { destruct (is_dir q n) eqn:D; [apply is_dir_exists in D; congruence|reflexivity]. }
    rewrite D. fold q in Hw. rewrite Hw. reflexivity.
  - split; [exact H1|]. split; [exact H2|]. split; [apply (write_at _ _ _ _ _ Hw)|].
    split; [apply (write_new_preserves _ _ _ _ _ H2 Hw)|]. split.
    + apply (write_only [q] false q (Some (NFile text))); [|exact Hw].
      exists q. split; [left; reflexivity|apply is_prefix_refl].
    + intros j Hj. rewrite <- (join_plain _ _ (notebook_plain base j Hb)). apply H3. exact Hj.
Qed.

Lemma write_notebook_preserved : forall fuel w base text n, has_char slash base = false ->
  preserved n (fst (write_notebook W fuel w base text n)).
Proof.
  intros fuel w base text n Hb. unfold write_notebook, bindM, look.
  destruct (free_index (notebooks_path W w) base fuel 1 n) as [k|] eqn:E; [|apply preserved_refl].
  unfold need, thenM, bindM, ret, fs.
  destruct (write_file (join (notebooks_path W w) (notebook_name base k)) text n) as [n'|] eqn:Ew;
    [|apply preserved_refl].
  cbn [fst]. destruct (free_index_some _ _ _ _ _ _ E) as [_ [H2 _]].
  unfold write_file in Ew. destruct (is_dir _ n); [discriminate|].
  apply (write_new_preserves _ _ _ _ _ H2 Ew).
Qed.

Lemma make_notebook_preserved : forall fuel w base text n, has_char slash base = false ->
  preserved n (fst (make_notebook W fuel w base text n)).
Proof.
  intros fuel w base text n Hb. unfold make_notebook. unfold bindM at 1. unfold look at 1.
  destruct (exists_at (notebooks_path W w) n) eqn:X; [apply write_notebook_preserved; exact Hb|].
  unfold bindM at 1. unfold look at 1.
  destruct (mkdir (notebooks_path W w) n) as [n1|] eqn:E; [|apply preserved_refl].
  unfold thenM, bindM, fs. rewrite E.
  apply (preserved_trans n n1).
  - unfold mkdir in E. rewrite X in E. apply (write_new_preserves _ _ _ _ _ X E).
  - apply write_notebook_preserved. exact Hb.
Qed.

Lemma write_notebook_fail : forall fuel w base text n, 0 < fuel -> has_char slash base = false ->
  is_file (notebooks_path W w) n = true ->
  write_notebook W fuel w base text n = (n, Err EOs).
Proof.
  intros fuel w base text n F Hb X.
  assert (E : free_index (notebooks_path W w) base fuel 1 n = Some 1).
  { destruct fuel as [|f]; [lia|]. cbn [free_index].
    rewrite (join_plain _ _ (notebook_plain base 1 Hb)).
    unfold is_file in X. destruct (lookup (notebooks_path W w) n) as [[s|d]|] eqn:L; try discriminate.
    unfold exists_at. rewrite lookup_app, L. reflexivity. }
  unfold write_notebook, bindM, look, need. rewrite E. unfold ret, thenM, bindM, fs.
  rewrite (join_plain _ _ (notebook_plain base 1 Hb)). unfold write_file.
  destruct (is_dir (notebooks_path W w ++ [notebook_name base 1]) n); [reflexivity|].
  destruct (write false _ _ n) as [n'|] eqn:Ew; [|reflexivity].
  destruct (write_above _ _ _ _ _ (notebooks_path W w) [notebook_name base 1] Ew eq_refl ltac:(discriminate))
    as [_ [D|[D _]]]; [|discriminate].
  unfold is_dir in D. unfold is_file in X. destruct (lookup (notebooks_path W w) n) as [[]|]; discriminate.
Qed.
End Nb.
