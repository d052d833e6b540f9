(** Which workspace and configuration the commands leave selected. *)
From Coq Require Import Ascii String List Bool Arith Lia Sorted.
From Verif Require Import Common Dict FsModel FsProofs WsModel WsSpec WsProofs NameModel CliModel CliSpec CurProofs CliProofs SelProofs.
Import ListNotations.
Open Scope string_scope.
Open Scope list_scope.

(** ** Helpers *)

Lemma set_cfg_get : forall W w s m m', ordinary w = true -> s = "" \/ ordinary s = true ->
  set_current_config W w s m = (m', Ok tt) ->
  get_current_config W w m' = (m', Ok (Some s)) /\ write_file (cfgs W w ++ [".current"]) s m = Some m'.
Proof.
  intros W w s m m' O Hs H. unfold set_current_config, assert_ws, assert_config, thenM, bindM, look in H.
  destruct (exists_at (ws_path W w) m); [|discriminate]. unfold ret in H.
  destruct (exists_at (config_path W w s) m); [|discriminate]. unfold writeline, fs in H.
  rewrite current_config_file_eq, (configs_path_o W w O) in H.
  destruct (write_file (cfgs W w ++ [".current"]) s m) as [m1|] eqn:F; [|discriminate].
  injection H as ->. split; [|reflexivity]. rewrite (current_cfg_eq W w m' O).
  unfold write_file in F. destruct (is_dir _ m); [discriminate|].
  pose proof (write_at _ _ _ _ _ F) as L.
  rewrite <- (ws_path_o W w O), (ws_of_cfgs W w [".current"] m' O) by (unfold exists_at; rewrite L; reflexivity).
  unfold read_file. rewrite L. cbn [option_map].
  destruct Hs as [->|Os]; [reflexivity|]. rewrite (readline_ordinary s Os). reflexivity.
Qed.
Lemma cfg_marker : forall W w n c, ordinary w = true -> get_current_config W w n = (n, Ok (Some c)) ->
  exists t, lookup (cfgs W w ++ [".current"]) n = Some (NFile t) /\ readline t = c.
Proof.
  intros W w n c O G. rewrite (current_cfg_eq W w n O) in G. destruct (exists_at (W ++ [w]) n); [|discriminate].
  destruct (read_file (cfgs W w ++ [".current"]) n) as [t|] eqn:R; [|discriminate].
  cbn [option_map] in G. injection G as G. apply read_file_some in R. eauto.
Qed.
Lemma cfg_marker_get : forall W w n t, ordinary w = true ->
  lookup (cfgs W w ++ [".current"]) n = Some (NFile t) -> get_current_config W w n = (n, Ok (Some (readline t))).
Proof.
  intros W w n t O L. rewrite (current_cfg_eq W w n O).
  rewrite <- (ws_path_o W w O), (ws_of_cfgs W w [".current"] n O) by (unfold exists_at; rewrite L; reflexivity).
  rewrite (proj2 (read_file_some _ n t) L). reflexivity.
Qed.
Lemma ws_marker : forall W n c, get_current W n = (n, Ok (Some c)) ->
  exists t, lookup (W ++ [".current"]) n = Some (NFile t) /\ readline t = c.
Proof.
  intros W n c G. rewrite current_eq in G. destruct (read_file (W ++ [".current"]) n) as [t|] eqn:R; [|discriminate].
  cbn [option_map] in G. injection G as G. apply read_file_some in R. eauto.
Qed.

(** Rewriting the marker file changes no listing. *)
Lemma subdirs_marker : forall B s t n1 n2 l, lookup (B ++ [".current"]) n1 = Some (NFile t) ->
  write_file (B ++ [".current"]) s n1 = Some n2 -> subdirs B n1 = (n1, Ok l) ->
  subdirs B n2 = (n2, Ok l) /\ is_dir B n2 = true.
Proof.
  intros B s t n1 n2 l Lt Wf EL. unfold write_file in Wf. destruct (is_dir (B ++ [".current"]) n1); [discriminate|].
  pose proof (write_above _ _ _ _ _ B [".current"] Wf eq_refl ltac:(discriminate)) as [D2 _].
  split; [|exact D2].
  unfold subdirs, bindM, look, listdir in EL |- *. unfold is_dir in D2.
  destruct (lookup B n1) as [[|d1]|] eqn:LA; try discriminate. destruct (lookup B n2) as [[|d2]|] eqn:LB; try discriminate.
  cbn [need] in EL |- *. unfold ret in EL |- *. injection EL as EL. f_equal. f_equal.
  assert (K : d2 = dset ".current" (NFile s) d1).
  { pose proof (write_child false B ".current" (Some (NFile s)) n1 n2 d1 LA Wf) as X.
    rewrite LB in X. injection X as ->. reflexivity. }
  rewrite <- EL. subst d2.
  assert (FC : filter (fun x => is_dir (B ++ [x]) n2) (keys (dset ".current" (NFile s) d1)) =
               filter (fun x => is_dir (B ++ [x]) n1) (keys d1)).
  { assert (Q : forall x, is_dir (B ++ [x]) n2 = if (x =? ".current")%string then false else is_dir (B ++ [x]) n1).
    { intro x. destruct (x =? ".current")%string eqn:Ex.
      - apply String.eqb_eq in Ex. subst x. unfold is_dir. rewrite (write_at _ _ _ _ _ Wf). reflexivity.
      - apply String.eqb_neq in Ex. unfold is_dir. rewrite (write_other _ _ _ _ _ (B ++ [x]) Wf); [reflexivity|].
        apply child_apart. congruence. }
    assert (Q1 : is_dir (B ++ [".current"]) n1 = false) by (unfold is_dir; rewrite Lt; reflexivity).
    assert (I : In ".current" (keys d1)).
    { rewrite lookup_app, LA in Lt. cbn [lookup] in Lt. destruct (dget ".current" d1) as [v|] eqn:Dg; [|discriminate].
      apply (dget_keys d1 _ v Dg). }
    rewrite keys_dset_in by exact I. apply filter_ext. intro x. rewrite Q.
    destruct (x =? ".current")%string eqn:Ex; [|reflexivity]. apply String.eqb_eq in Ex. subst x. symmetry. exact Q1. }
  rewrite FC. reflexivity.
Qed.

Lemma cfg_names_of : forall W w n l, ordinary w = true -> is_dir (cfgs W w) n = true ->
  (get_config_names W w n = (n, Ok (Some l)) <-> subdirs (cfgs W w) n = (n, Ok l)).
Proof.
  intros W w n l O D. unfold get_config_names, assert_ws, thenM, bindM, look.
  rewrite (ws_of_cfgs W w [] n O) by (rewrite app_nil_r; apply is_dir_exists; exact D).
  unfold ret. cbv beta iota. rewrite (configs_path_o W w O), (is_dir_exists _ _ D).
  destruct (subdirs (cfgs W w) n) as [n1 [l1|e]]; split; intro H; inversion H; reflexivity.
Qed.

Lemma known_given : forall W w c n, ordinary w = true -> ordinary c = true ->
  known W (Some w) (Some c) n = (n, Ok (w, c)).
Proof.
  intros W w c n O1 O2. unfold known, bindM, get_ws_config, get_ws_name, bindM.
  rewrite (ordinary_given w O1), (ordinary_given c O2). unfold ret. cbn [fst snd].
  rewrite (ordinary_given c O2). reflexivity.
Qed.
Lemma unique_cfg_same : forall W w s n n1 r, unique_config W w s n = (n1, Ok r) -> n1 = n.
Proof.
  intros W w s n n1 r H. unfold unique_config, bindM, get_config_names, assert_ws, thenM, bindM, look in H.
  destruct (exists_at (ws_path W w) n); [|discriminate]. unfold ret in H.
  destruct (exists_at (configs_path W w) n); [|discriminate].
  unfold subdirs, bindM, look in H. destruct (listdir (configs_path W w) n); [|discriminate].
  cbn [need] in H. unfold ret in H. cbn [need] in H. unfold ret in H.
  match type of H with context [unique_name ?l s] => destruct (unique_name l s) end; cbn [need] in H; [|discriminate].
  unfold ret in H. injection H; auto.
Qed.
Lemma unique_ws_same : forall W s n n1 r, unique_ws W s n = (n1, Ok r) -> n1 = n.
Proof.
  intros W s n n1 r EU. unfold unique_ws, bindM in EU. destruct (get_ws_names W n) as [n2 [l|e]] eqn:EN; [|discriminate].
  assert (n2 = n).
  { unfold get_ws_names, bindM, look in EN. destruct (exists_at W n); [|injection EN; auto].
    unfold subdirs, bindM, look in EN. destruct (listdir W n); cbn in EN; injection EN; auto. }
  subst n2. destruct (unique_name l s); cbn in EU; [|discriminate]. injection EU; auto.
Qed.

Lemma unique_cfg_name : forall W w s n n1 r, sound W n -> ordinary w = true -> ordinary s = true ->
  unique_config W w s n = (n1, Ok r) -> exists_at (cfgs W w ++ [s]) n = false -> r = s.
Proof.
  intros W w s n n1 r S O Os U N. unfold unique_config in U. unfold bindM at 1 in U.
  destruct (is_dir (cfgs W w) n) eqn:D.
  - destruct (cfg_names_eq W w n O D) as [l [EL L]]. rewrite EL in U. unfold bindM in U. cbn [need] in U. unfold ret in U.
    cbv beta iota in U. destruct (unique_name l s) as [r'|] eqn:R; cbn [need] in U; [|discriminate].
    unfold ret in U. injection U as _ ->. apply unique_name_spec in R. apply R. intro I. apply L in I.
    apply is_dir_exists in I. congruence.
  - unfold get_config_names, assert_ws, thenM, bindM, look in U.
    destruct (exists_at (ws_path W w) n); [|discriminate]. unfold ret in U. cbv beta iota in U.
    rewrite (configs_path_o W w O) in U.
    destruct (exists_at (cfgs W w) n) eqn:E; [|discriminate]. exfalso.
    pose proof (proj1 (proj1 (sound_cfg W n w S O))) as F. unfold exists_at, is_dir, is_file in *.
    destruct (lookup (cfgs W w) n) as [[]|]; discriminate.
Qed.
Lemma unique_ws_name : forall W s n n1 r, sound W n -> ordinary s = true ->
  unique_ws W s n = (n1, Ok r) ->
  ordinary r = true /\ exists_at (W ++ [r]) n = false /\ (exists_at (W ++ [s]) n = false -> r = s).
Proof.
  intros W s n n1 r S Os U.
  pose proof (hoare_unique_ws W s s (or_intror Os) Os n S) as Q. rewrite U in Q. destruct Q as [_ [_ Nr]].
  pose proof (unique_ws_same W s n n1 r U) as ->.
  unfold unique_ws in U. unfold bindM in U.
  destruct (get_ws_names W n) as [n2 [l|e]] eqn:EN; [|discriminate].
  destruct (unique_name l s) as [r'|] eqn:R; cbn [need] in U; [|discriminate]. unfold ret in U. injection U as -> ->.
  apply unique_name_spec in R. destruct R as [R1 [R2 R3]]. split; [|split; [exact Nr|]].
  - destruct (in_dec string_dec s l) as [I|I].
    + destruct (R3 I) as [k [_ [-> _]]]. apply ordinary_numbered. left. exact Os.
    + rewrite (R2 I). exact Os.
  - intro N. apply R2. intro I.
    destruct (is_dir W n) eqn:D.
    + destruct (names_eq W n D) as [l' [EL L]]. rewrite EL in EN. injection EN as ->. apply L in I.
      apply is_dir_exists in I. congruence.
    + unfold get_ws_names, bindM, look in EN. destruct (exists_at W n) eqn:E.
      * pose proof (proj1 (proj1 (sound_ws W n S))) as F. unfold exists_at, is_dir, is_file in *.
        destruct (lookup W n) as [[]|]; discriminate.
      * unfold ret in EN. injection EN as <-. destruct I.
Qed.

(** The file system after renaming a configuration. *)
Lemma crename_tree : forall W w c s n n1 r, sound W n -> ordinary w = true -> ordinary c = true -> ordinary s = true ->
  unique_config W w s n = (n1, Ok r) ->
  n1 = n /\ ordinary r = true /\
  forall n2, rename_config W w c r n = (n2, Ok tt) ->
  r <> c /\ lookup (cfgs W w ++ [r]) n2 = lookup (cfgs W w ++ [c]) n /\ lookup (cfgs W w ++ [c]) n2 = None /\
  lookup (cfgs W w ++ [".current"]) n2 = lookup (cfgs W w ++ [".current"]) n.
Proof.
  intros W w c s n n1 r S O Oc Os U.
  pose proof (hoare_unique_cfg W w s O Os n S) as Q. rewrite U in Q. destruct Q as [_ [Or Nr]].
  pose proof (unique_cfg_same W w s n n1 r U) as ->. split; [reflexivity|]. split; [exact Or|].
  intros n2 H. rewrite (rename_config_eq W w c r n (ordinary_plain _ O) (ordinary_plain _ Oc) (ordinary_plain _ Or)) in H.
  rewrite !config_dir_eq in H. destruct (exists_at (cfgs W w ++ [c]) n) eqn:E; [|discriminate].
  assert (N : r <> c) by congruence.
  assert (L : exists d, lookup (cfgs W w ++ [c]) n = Some d) by (unfold exists_at in E; destruct (lookup _ n); eauto; discriminate).
  destruct L as [d L].
  destruct (os_rename_new (cfgs W w) c (cfgs W w) r n d L Nr) as [n3 [H3 [L1 [L2 F]]]].
  { apply (exists_parent_dir (cfgs W w) c []). exact E. }
  { apply child_apart. congruence. }
  unfold fs in H. rewrite H3 in H. injection H as ->. split; [exact N|]. split; [congruence|]. split; [exact L2|].
  apply F. intros P [<-|[<-|[]]]; apply child_apart; apply ordinary_ne; assumption.
Qed.

(** * C83: what the commands leave selected *)

(** Configurations: a new one is selected; a renamed one keeps its content and
    the selection follows it; removing the selected one selects "default", else
    the first of the listed ones, else none; other configurations' renaming,
    removal or copying leaves the selection alone. *)
Theorem C83_config : forall W n w c, sound W n -> ordinary w = true -> ordinary c = true ->
  (forall resource b n', cf_add W resource (Some w) c b n = (n', Ok tt) ->
     get_current_config W w n' = (n', Ok (Some c))) /\
  (forall nn n' d, ordinary nn = true -> get_current_config W w n = (n, Ok (Some d)) ->
     cf_rename W (Some w) (Some c) nn n = (n', Ok tt) ->
     exists v, v <> c /\ (exists_at (config_dir W w nn) n = false -> v = nn) /\
       lookup (config_dir W w v) n' = lookup (config_dir W w c) n /\ lookup (config_dir W w c) n' = None /\
       (d = c -> get_current_config W w n' = (n', Ok (Some v))) /\
       (d <> c -> get_current_config W w n' = (n', Ok (Some d)))) /\
  (forall n' d, get_current_config W w n = (n, Ok (Some d)) ->
     cf_remove W (Some w) (Some c) true n = (n', Ok tt) ->
     lookup (config_dir W w c) n' = None /\
     exists l, get_config_names W w n' = (n', Ok (Some l)) /\ ~ In c l /\
       (d = c -> get_current_config W w n' =
          (n', Ok (Some (if mem_s "default" l then "default" else match l with x :: _ => x | [] => "" end)))) /\
       (d <> c -> get_current_config W w n' = (n', Ok (Some d)))).
Proof.
  intros W n w c S O Oc. split; [|split].
  - intros resource b n' H. unfold cf_add in H. unfold bindM at 1 in H.
    unfold get_ws_config, get_ws_name in H. unfold bindM at 1 in H.
    rewrite (ordinary_given w O), (ordinary_given c Oc) in H. unfold ret at 1 2 in H. cbv beta iota in H. cbn [fst snd] in H.
    unfold catch, thenM in H. unfold bindM at 1 in H. unfold create_cfg, thenM in H.
    unfold bindM at 1 in H. unfold ret at 1 in H. cbv beta iota in H.
    unfold bindM at 1 in H. unfold config_exists, look in H. cbn [andb] in H. cbv beta iota in H.
    unfold bindM at 1 in H. destruct (create_config W resource w c b n) as [n1 [[]|e]]; [|destruct (is_ws e); discriminate].
    unfold bindM at 1 in H. rewrite set_cfg_eq, (ordinary_given c Oc) in H.
    destruct (set_current_config W w c n1) as [n2 [[]|e]] eqn:E; [|destruct (is_ws e); discriminate].
    unfold ret in H. injection H as <-. apply (set_cfg_get W w c n1 n2 O (or_intror Oc) E).
  - intros nn n' d On G H. destruct (cfg_marker W w n d O G) as [t [Lt Rt]].
    unfold cf_rename in H. unfold bindM at 1 in H. rewrite (known_given W w c n O Oc) in H. cbv beta iota in H.
    unfold bindM at 1 in H. destruct (unique_config W w nn n) as [n1 [r|e]] eqn:U; [|discriminate].
    destruct (crename_tree W w c nn n n1 r S O Oc On U) as [-> [Or K]].
    unfold catch, thenM in H. unfold bindM at 1 in H.
    destruct (rename_config W w c r n) as [n2 [[]|e]] eqn:RN; [|destruct (is_ws e); discriminate].
    destruct (K n2 eq_refl) as [N [L1 [L2 L3]]]. rewrite Lt in L3.
    unfold bindM in H. rewrite (cfg_marker_get W w n2 t O L3), Rt in H. rewrite !config_dir_eq.
    exists r. split; [exact N|]. split; [apply (unique_cfg_name W w nn n n r S O On U)|].
    destruct (c =? d)%string eqn:E.
    + apply String.eqb_eq in E. subst d. rewrite set_cfg_eq, (ordinary_given r Or) in H.
      destruct (set_current_config W w r n2) as [n3 [[]|e]] eqn:E3; [|destruct (is_ws e); discriminate].
      injection H as <-. destruct (set_cfg_get W w r n2 n3 O (or_intror Or) E3) as [G3 Wf].
      unfold write_file in Wf. destruct (is_dir (cfgs W w ++ [".current"]) n2); [discriminate|].
      rewrite config_dir_eq.
      split; [rewrite (write_other _ _ _ _ _ (cfgs W w ++ [r]) Wf); [exact L1|]|].
      { apply child_apart. intro X. apply (ordinary_ne r Or). congruence. }
      split; [rewrite (write_other _ _ _ _ _ (cfgs W w ++ [c]) Wf); [exact L2|]|].
      { apply child_apart. intro X. apply (ordinary_ne c Oc). congruence. }
      split; [intros _; exact G3|congruence].
    + apply String.eqb_neq in E. unfold ret in H. injection H as <-. rewrite config_dir_eq.
      split; [exact L1|]. split; [exact L2|]. split; [congruence|]. intros _.
      rewrite (cfg_marker_get W w n2 t O L3), Rt. reflexivity.
  - intros n' d G H. destruct (cfg_marker W w n d O G) as [t [Lt Rt]].
    unfold cf_remove in H. unfold bindM at 1 in H. rewrite (known_given W w c n O Oc) in H. cbv beta iota in H.
    unfold catch, thenM in H. unfold bindM at 1 in H.
    rewrite (delete_config_eq W w c n (ordinary_plain _ O) (ordinary_plain _ Oc)), config_dir_eq in H.
    destruct (exists_at (cfgs W w ++ [c]) n) eqn:E; [|discriminate].
    destruct (rmtree_but (cfgs W w) c n (sound_cfg W n w S O) Oc E) as [n1 [H1 [H2 [H3 H4]]]].
    unfold fs in H. rewrite H1 in H.
    assert (Lt' : lookup (cfgs W w ++ [".current"]) n1 = Some (NFile t)).
    { rewrite <- Lt. apply H4. intro X. apply (ordinary_ne c Oc). congruence. }
    unfold bindM at 1 in H. rewrite (cfg_marker_get W w n1 t O Lt'), Rt in H.
    destruct H2 as [T1 [D1 _]]. destruct (cfg_names_eq W w n1 O D1) as [l [EL Hl]].
    assert (Nc : ~ In c l) by (intro I; apply Hl in I; unfold is_dir in I; rewrite H3 in I; discriminate).
    rewrite config_dir_eq.
    destruct (c =? d)%string eqn:Ed.
    + apply String.eqb_eq in Ed. subst d. unfold bindM at 1 in H. rewrite EL in H.
      unfold bindM at 1 in H. cbn [need] in H. unfold ret in H. cbv beta iota in H. rewrite set_cfg_eq in H.
      set (s := match given (fallback l) with Some x => x | None => "" end) in *.
      assert (Hs : s = "" \/ (ordinary s = true /\ is_dir (cfgs W w ++ [s]) n1 = true)) by (apply (fallback_cfg W w n1 l T1 Hl)).
      destruct (set_current_config W w s n1) as [n2 [[]|e]] eqn:E2; [|destruct (is_ws e); discriminate].
      injection H as <-. destruct (set_cfg_get W w s n1 n2 O) as [G2 Wf]; [tauto|exact E2|].
      destruct (subdirs_marker (cfgs W w) s t n1 n2 l Lt' Wf) as [SD D2]; [apply cfg_names_of; assumption|].
      split.
      { unfold write_file in Wf. destruct (is_dir (cfgs W w ++ [".current"]) n1); [discriminate|].
        rewrite (write_other _ _ _ _ _ (cfgs W w ++ [c]) Wf); [exact H3|].
        apply child_apart. intro X. apply (ordinary_ne c Oc). congruence. }
      exists l. split; [apply cfg_names_of; assumption|]. split; [exact Nc|].
      split; [intros _|congruence]. rewrite G2. unfold s. f_equal. f_equal. f_equal. unfold fallback.
      destruct (mem_s "default" l); [reflexivity|]. destruct l as [|x r]; [reflexivity|].
      assert (Ox : ordinary x = true) by (apply (dir_ordinary (cfgs W w) x n1 T1), Hl; left; reflexivity).
      rewrite (ordinary_given x Ox). reflexivity.
    + apply String.eqb_neq in Ed. unfold ret in H. injection H as <-. split; [exact H3|].
      exists l. split; [exact EL|]. split; [exact Nc|]. split; [congruence|]. intros _.
      rewrite (cfg_marker_get W w n1 t O Lt'), Rt. reflexivity.
Qed.
Print Assumptions C83_config.

(** Workspaces: renaming one that is not selected leaves the selection alone;
    a copy has the content of the original, under a name that was not in use
    (the requested one when that is possible), and leaves the selection alone.
    The same holds for copies of configurations. *)
Theorem C83_copies : forall W n w, sound W n -> ordinary w = true ->
  (forall nn n' d, ordinary nn = true -> get_current W n = (n, Ok (Some d)) -> d <> w ->
     ws_rename W (Some w) nn n = (n', Ok tt) ->
     get_current W n' = (n', Ok (Some d)) /\
     exists v, v <> w /\ (exists_at (W ++ [nn]) n = false -> v = nn) /\
       lookup (W ++ [v]) n' = lookup (W ++ [w]) n /\ lookup (W ++ [w]) n' = None) /\
  (forall nn n', ordinary_arg nn = true -> ws_copy W (Some w) nn n = (n', Ok tt) ->
     (forall d, get_current W n = (n, Ok d) -> get_current W n' = (n', Ok d)) /\
     exists v, exists_at (W ++ [v]) n = false /\
       (let s := match nn with Some (String a x) => String a x | _ => (w ++ "_1")%string end in
        exists_at (W ++ [s]) n = false -> v = s) /\
       lookup (W ++ [v]) n' = lookup (W ++ [w]) n /\
       (forall x, x <> v -> lookup (W ++ [x]) n' = lookup (W ++ [x]) n)) /\
  (forall c nn n', ordinary c = true -> ordinary_arg nn = true -> cf_copy W (Some w) (Some c) nn n = (n', Ok tt) ->
     (forall d, get_current_config W w n = (n, Ok (Some d)) -> get_current_config W w n' = (n', Ok (Some d))) /\
     exists v, exists_at (config_dir W w v) n = false /\
       (let s := match nn with Some (String a x) => String a x | _ => (c ++ "_copy")%string end in
        exists_at (config_dir W w s) n = false -> v = s) /\
       lookup (config_dir W w v) n' = lookup (config_dir W w c) n /\
       (forall x, x <> v -> lookup (config_dir W w x) n' = lookup (config_dir W w x) n)).
Proof.
  intros W n w S O.
  assert (Nm : forall nn z, ordinary_arg nn = true -> ordinary z = true ->
     ordinary (match given nn with Some x => x | None => z end) = true /\
     match given nn with Some x => x | None => z end = match nn with Some (String a x) => String a x | _ => z end).
  { intros nn z H1 H2. destruct nn as [[|a x]|]; cbn [given]; split; try exact H2; try reflexivity.
    cbn in H1. exact H1. }
  split; [|split].
  - intros nn n' d On G N H. destruct (ws_marker W n d G) as [t [Lt Rt]].
    unfold ws_rename in H. unfold bindM at 1 in H. unfold get_ws_name in H. rewrite (ordinary_given w O) in H.
    unfold ret in H. unfold bindM at 1 in H.
    destruct (unique_ws W nn n) as [n1 [r|e]] eqn:EU; [|discriminate].
    destruct (unique_ws_name W nn n n1 r S On EU) as [Or [Nr En]].
    pose proof (unique_ws_same W nn n n1 r EU) as ->.
    unfold catch, thenM in H. unfold bindM at 1 in H.
    rewrite (rename_ws_eq W w r n (ordinary_plain _ O) (ordinary_plain _ Or)) in H. unfold ws_dir in H.
    destruct (exists_at (W ++ [w]) n) eqn:E; [|discriminate].
    destruct (dir_of W w n (proj1 (sound_ws W n S)) O E) as [dd L].
    assert (Nw : w <> r) by congruence.
    destruct (move_new W w r n _ Nw L Nr) as [n1 [Mv [L1 [L2 F]]]]. unfold fs in H. rewrite Mv in H.
    unfold bindM in H. rewrite current_eq in H.
    assert (Lt' : lookup (W ++ [".current"]) n1 = Some (NFile t)).
    { rewrite <- Lt. apply F. intros P [<-|[<-|[]]]; apply child_apart; apply ordinary_ne; assumption. }
    rewrite (proj2 (read_file_some _ n1 t) Lt') in H. cbn [option_map] in H. rewrite Rt in H.
    assert (Q : (w =? d)%string = false) by (apply String.eqb_neq; congruence). rewrite Q in H. injection H as <-.
    split.
    + rewrite current_eq, (proj2 (read_file_some _ n1 t) Lt'). cbn [option_map]. rewrite Rt. reflexivity.
    + exists r. split; [congruence|]. split; [exact En|]. split; [congruence|exact L2].
  - intros nn n' A H. unfold ws_copy in H. unfold bindM at 1 in H. unfold get_ws_name in H. rewrite (ordinary_given w O) in H.
    unfold ret in H. unfold bindM at 1 in H.
    assert (Oz : ordinary (w ++ "_1") = true).
    { change "_1" with ("_" ++ "1")%string. apply ordinary_suffix; [left; exact O|reflexivity|reflexivity|reflexivity]. }
    destruct (Nm nn (w ++ "_1")%string A Oz) as [Os Es].
    destruct (unique_ws W _ n) as [n1 [r|e]] eqn:EU in H; [|discriminate].
    destruct (unique_ws_name W _ n n1 r S Os EU) as [Or [Nr En]].
    pose proof (unique_ws_same W _ n n1 r EU) as ->.
    unfold catch in H. rewrite (copy_ws_eq W w r n (ordinary_plain _ O) (ordinary_plain _ Or)) in H. unfold ws_dir in H.
    destruct (exists_at (W ++ [w]) n) eqn:E; [|discriminate].
    destruct (dir_of W w n (proj1 (sound_ws W n S)) O E) as [dd L].
    destruct (copytree_sibling W w r n dd L Nr ltac:(congruence)) as [n1 [Cp [L1 [L2 F]]]].
    unfold fs in H. rewrite Cp in H. injection H as <-.
    assert (K : forall x, x <> r -> lookup (W ++ [x]) n1 = lookup (W ++ [x]) n) by (intros x X; apply (only_others W r n n1 F x X)).
    split.
    + intros d G. rewrite current_eq in G |- *. unfold read_file in *. rewrite K by (intro X; apply (ordinary_ne r Or); congruence).
      injection G as <-. reflexivity.
    + exists r. split; [exact Nr|]. cbv zeta. rewrite <- Es. split; [exact En|]. split; [congruence|exact K].
  - intros c nn n' Oc A H. unfold cf_copy in H. unfold bindM at 1 in H. rewrite (known_given W w c n O Oc) in H. cbv beta iota in H.
    unfold bindM at 1 in H.
    assert (Oz : ordinary (c ++ "_copy") = true).
    { change "_copy" with ("_" ++ "copy")%string. apply ordinary_suffix; [left; exact Oc|reflexivity|reflexivity|reflexivity]. }
    destruct (Nm nn (c ++ "_copy")%string A Oz) as [Os Es].
    destruct (unique_config W w _ n) as [n1 [r|e]] eqn:EU in H; [|discriminate].
    pose proof (hoare_unique_cfg W w _ O Os n S) as Q. rewrite EU in Q. destruct Q as [_ [Or Nr]].
    pose proof (unique_cfg_same W w _ n n1 r EU) as ->.
    pose proof (unique_cfg_name W w _ n n r S O Os EU) as En.
    unfold catch in H. rewrite (copy_config_eq W w c r n (ordinary_plain _ O) (ordinary_plain _ Oc) (ordinary_plain _ Or)) in H.
    rewrite !config_dir_eq in H.
    destruct (exists_at (cfgs W w ++ [c]) n) eqn:E; [|discriminate].
    destruct (dir_of (cfgs W w) c n (proj1 (sound_cfg W n w S O)) Oc E) as [dd L].
    destruct (copytree_sibling (cfgs W w) c r n dd L Nr ltac:(congruence)) as [n1 [Cp [L1 [L2 F]]]].
    unfold fs in H. rewrite Cp in H. injection H as <-.
    assert (K : forall x, x <> r -> lookup (cfgs W w ++ [x]) n1 = lookup (cfgs W w ++ [x]) n)
      by (intros x X; apply (only_others (cfgs W w) r n n1 F x X)).
    split.
    + intros d G. destruct (cfg_marker W w n d O G) as [t [Lt Rt]]. rewrite <- Rt. apply cfg_marker_get; [exact O|].
      rewrite K by (intro X; apply (ordinary_ne r Or); congruence). exact Lt.
    + exists r. rewrite !config_dir_eq. split; [exact Nr|]. cbv zeta. rewrite <- Es, config_dir_eq. split; [exact En|].
      split; [congruence|]. intros x X. rewrite !config_dir_eq. apply K. exact X.
Qed.
Print Assumptions C83_copies.

(** The hypotheses are satisfiable: each command succeeds on some sound tree. *)
Example C83_example : forall resource upg fnmatch newer cwd,
  let go := session ["ws"] resource upg fnmatch newer cwd in
  let n := go [SAdd "a"; SAdd "b"; CAdd (Some "a") "x" false; CAdd (Some "a") "y" true] (NDir []) in
  let cur m := snd (get_current ["ws"] m) in
  let cfg m := snd (get_current_config ["ws"] "a" m) in
  sound ["ws"] n /\ cur n = Ok (Some "b") /\ cfg n = Ok (Some "y") /\
  (exists m, ws_rename ["ws"] (Some "a") "b" n = (m, Ok tt) /\ cur m = Ok (Some "b") /\
             get_ws_names ["ws"] m = (m, Ok ["b"; "b_2"])) /\
  (exists m, ws_copy ["ws"] (Some "a") None n = (m, Ok tt) /\ cur m = Ok (Some "b") /\
             get_ws_names ["ws"] m = (m, Ok ["a"; "a_1"; "b"])) /\
  (exists m, cf_copy ["ws"] (Some "a") (Some "x") None n = (m, Ok tt) /\ cfg m = Ok (Some "y") /\
             get_config_names ["ws"] "a" m = (m, Ok (Some ["x"; "x_copy"; "y"]))) /\
  (exists m, cf_rename ["ws"] (Some "a") (Some "y") "z" n = (m, Ok tt) /\ cfg m = Ok (Some "z")) /\
  (exists m, cf_rename ["ws"] (Some "a") (Some "x") "z" n = (m, Ok tt) /\ cfg m = Ok (Some "y")) /\
  (exists m, cf_remove ["ws"] (Some "a") (Some "y") true n = (m, Ok tt) /\ cfg m = Ok (Some "x")) /\
  (exists m, cf_remove ["ws"] (Some "a") (Some "x") true n = (m, Ok tt) /\ cfg m = Ok (Some "y")).
Proof.
  intros. split.
  { apply session_sound; [|reflexivity]. split; [apply cinv_none; reflexivity|].
    intros w _. apply cinv_none. reflexivity. }
  split; [reflexivity|]. split; [reflexivity|].
  repeat split; (eexists; split; [reflexivity|try split; reflexivity]).
Qed.
