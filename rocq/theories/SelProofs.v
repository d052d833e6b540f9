(** The commands on configurations, and whole sessions. *)
From Coq Require Import Ascii String List Bool Arith Lia.
From Verif Require Import Common Dict FsModel FsProofs WsModel WsSpec WsProofs NameModel CliModel CliSpec CurProofs CliProofs.
Import ListNotations.
Open Scope string_scope.
Open Scope list_scope.

Lemma makedirs_entry : forall B x, prim_below B x (makedirs (B ++ [x])).
Proof.
  intros B x n n' H. right. unfold makedirs in H. split.
  - intros y Y. apply (write_other _ _ _ _ _ _ H). apply child_apart. congruence.
  - unfold is_dir. rewrite (write_at _ _ _ _ _ H). reflexivity.
Qed.
Lemma stays_ensure : forall B x p, p = B ++ [x] \/ deeper B x p -> stays B x (ensure_dir p).
Proof.
  intros B x p H. unfold ensure_dir. stay. apply stays_fs.
  destruct H as [->|H]; [apply makedirs_entry|apply makedirs_deeper; exact H].
Qed.

Section Sel.
Variable W : path.
Variable resource : bool -> string -> string.
Variable upg : string -> string -> option string.
Variable fnmatch : string -> string -> bool.
Variable newer : string -> string -> option bool.
Variable cwd : path.
Notation cfgs := (cfgs W).
Notation hoare := (hoare W).

Lemma cfg_level : forall n n' w, sound W n -> ordinary w = true -> below W w n n' -> cinv (cfgs w) n' -> sound W n'.
Proof.
  intros n n' w S O Bl C. destruct Bl as [->|[F D]]; [exact S|].
  apply (sound_frame W n n' w S); [|exact F|intros _; exact C].
  destruct (below_keeps W w n n' O (or_intror (conj F D)) (proj1 (sound_ws W n S)) (proj2 (sound_ws W n S))).
  split; assumption.
Qed.

Lemma deep_cfg : forall w p, deeper W w (cfgs w ++ p).
Proof. intros w p. exists "configs", p. apply cfgs_in. Qed.
Lemma deep_ws : forall w x p, deeper W w (W ++ w :: x :: p).
Proof. intros w x p. exists x, p. reflexivity. Qed.
Lemma deep_in_cfg : forall w c x p, deeper (cfgs w) c (cfgs w ++ c :: x :: p).
Proof. intros w c x p. exists x, p. reflexivity. Qed.
Lemma deep_up : forall w c p, deeper (cfgs w) c p -> deeper W w p.
Proof. intros w c p [x [r ->]]. apply deep_cfg. Qed.

Lemma ws_of_cfgs : forall w p n, ordinary w = true -> exists_at (cfgs w ++ p) n = true -> exists_at (ws_path W w) n = true.
Proof.
  intros w p n O E. rewrite (ws_path_o W w O). rewrite cfgs_in in E.
  apply (exists_parent _ ("configs" :: p)). rewrite <- app_assoc. exact E.
Qed.

(** What stays below the entry [c] of the configs directory of [w]. *)
Lemma hoare_stays : forall A w c (m : M A), ordinary w = true -> ordinary c = true ->
  stays W w m -> stays (cfgs w) c m -> hoare (sound W) m (fun _ => sound W).
Proof.
  intros A w c m Ow Oc H1 H2 n S.
  assert (K : sound W (fst (m n))).
  { apply (cfg_level n _ w S Ow (H1 n)).
    destruct (below_keeps (cfgs w) c n _ Oc (H2 n) (proj1 (sound_cfg W n w S Ow)) (proj2 (sound_cfg W n w S Ow))).
    split; assumption. }
  destruct (m n) as [n1 [a|e]]; exact K.
Qed.
(** What changes neither the configs directory nor other workspaces. *)
Lemma hoare_aside : forall A w x (m : M A), ordinary w = true -> x <> "configs" ->
  stays W w m -> modifies [W ++ [w; x]] m -> hoare (sound W) m (fun _ => sound W).
Proof.
  intros A w x m Ow X H1 H2 n S.
  assert (K : sound W (fst (m n))).
  { apply (cfg_level n _ w S Ow (H1 n)).
    apply (cinv_ext (cfgs w) (cfgs w) n); [|apply S; exact Ow].
    apply H2. intros P [<-|[]]. unfold CliProofs.cfgs.
    change [w; x] with ([w] ++ [x]). change [w; "configs"] with ([w] ++ ["configs"]). rewrite !app_assoc.
    apply apart_siblings. exact X. }
  destruct (m n) as [n1 [a|e]]; exact K.
Qed.

(** ** The selected configuration *)

Lemma current_cfg_eq : forall w n, ordinary w = true -> get_current_config W w n =
  if exists_at (W ++ [w]) n then (n, Ok (option_map readline (read_file (cfgs w ++ [".current"]) n))) else (n, Err EWs).
Proof.
  intros w n O. unfold get_current_config, assert_ws, thenM, bindM, look, readline_at.
  rewrite (ws_path_o W w O), current_config_file_eq, (configs_path_o W w O).
  destruct (exists_at (W ++ [w]) n); reflexivity.
Qed.

Definition ordinary_pair (wc : option string * option string) : Prop :=
  (forall w, fst wc = Some w -> ordinary w = true) /\
  (forall c, given (snd wc) = Some c -> ordinary c = true).

Lemma hoare_ws_config : forall wa ca, ordinary_arg wa = true -> ordinary_arg ca = true ->
  hoare (sound W) (get_ws_config W wa ca) (fun wc n => sound W n /\ ordinary_pair wc).
Proof.
  intros wa ca H1 H2. unfold get_ws_config. eapply hoare_bind; [apply hoare_name; exact H1|].
  intros w n [S O]. destruct w as [w|].
  - specialize (O w eq_refl). destruct (given ca) as [c|] eqn:G.
    + unfold ret. split; [exact S|]. split; cbn [fst snd].
      * intros w' E. inversion E. subst. exact O.
      * intros c' E. rewrite G in E. inversion E. subst. apply (arg_given ca); assumption.
    + unfold bindM. rewrite (current_cfg_eq w n O). destruct (exists_at (W ++ [w]) n); [|exact S].
      unfold ret. split; [exact S|]. split; cbn [fst snd].
      * intros w' E. inversion E. subst. exact O.
      * intros c E. destruct (read_file (cfgs w ++ [".current"]) n) as [t|] eqn:R; [|discriminate].
        apply given_some in E. cbn [option_map] in E. destruct E as [E N]. inversion E. subst c.
        apply read_file_some in R. destruct (sound_cfg W n w S O) as [T C].
        destruct (C t R) as [X|X]; [contradiction|]. apply (dir_ordinary (cfgs w) _ n T X).
  - unfold ret. split; [exact S|]. split; cbn [fst snd]; [discriminate|].
    intros c' E. apply (arg_given ca); assumption.
Qed.

Lemma hoare_known : forall wa ca, ordinary_arg wa = true -> ordinary_arg ca = true ->
  hoare (sound W) (known W wa ca)
    (fun wc n => sound W n /\ ordinary (fst wc) = true /\ ordinary (snd wc) = true).
Proof.
  intros wa ca H1 H2. unfold known. eapply hoare_bind; [apply hoare_ws_config; assumption|].
  intros [w c] n [S [O1 O2]]. cbn [fst snd] in *.
  destruct w as [w|]; [|exact S]. destruct (given c) as [c'|]; [|exact S].
  unfold ret. split; [exact S|]. split; [apply O1; reflexivity|apply O2; reflexivity].
Qed.

(** *** Selecting a configuration *)

Lemma set_cfg_ok : forall w s n, ordinary w = true -> tidy (cfgs w) n -> is_dir (cfgs w) n = true ->
  s = "" \/ (ordinary s = true /\ is_dir (cfgs w ++ [s]) n = true) ->
  exists n', set_current_config W w s n = (n', Ok tt) /\ cinv (cfgs w) n' /\ below W w n n'.
Proof.
  intros w s n O T D Hs. destruct (mark (cfgs w) s n T D Hs) as [n' [H1 [H2 [H3 H4]]]].
  exists n'. split; [|split; [split; assumption|]].
  - unfold set_current_config, assert_ws, assert_config, thenM, bindM, look.
    assert (E0 : exists_at (ws_path W w) n = true).
    { apply (ws_of_cfgs w [] n O). rewrite app_nil_r. apply is_dir_exists. exact D. }
    assert (E : exists_at (config_path W w s) n = true).
    { destruct Hs as [->|[Os Ds]].
      - unfold config_path. rewrite join_empty, (configs_path_o W w O). apply is_dir_exists. exact D.
      - rewrite (config_path_o W w s O Os). apply is_dir_exists. exact Ds. }
    rewrite E0. unfold ret. cbv beta iota. rewrite E. unfold writeline, fs.
    rewrite current_config_file_eq, (configs_path_o W w O), H1. reflexivity.
  - apply (write_file_deeper W w (cfgs w ++ [".current"]) s (deep_cfg w _) n n' H1).
Qed.

Lemma hoare_set_cfg : forall w s, ordinary w = true -> s = "" \/ ordinary s = true ->
  hoare (sound W) (set_current_config W w s) (fun _ => sound W).
Proof.
  intros w s O Hs n S. pose proof (sound_cfg W n w S O) as [T C].
  destruct (exists_at (ws_path W w) n) eqn:E0;
    [|unfold set_current_config, assert_ws, assert_config, thenM, bindM, look; rewrite E0; exact S].
  destruct (exists_at (config_path W w s) n) eqn:E;
    [|unfold set_current_config, assert_ws, assert_config, thenM, bindM, look, ret; rewrite E0, E; exact S].
  assert (K : is_dir (cfgs w) n = true /\ (s = "" \/ (ordinary s = true /\ is_dir (cfgs w ++ [s]) n = true))).
  { destruct Hs as [->|Os].
    - unfold config_path in E. rewrite join_empty, (configs_path_o W w O) in E. split; [|left; reflexivity].
      destruct T as [F _]. unfold exists_at, is_file, is_dir in *. destruct (lookup (cfgs w) n) as [[]|]; congruence.
    - rewrite (config_path_o W w s O Os) in E. split; [apply (base_dir (cfgs w) s n E)|]. right. split; [exact Os|].
      apply (tidy_dir (cfgs w) s n T (ordinary_ne s Os) E). }
  destruct K as [D K]. destruct (set_cfg_ok w s n O T D K) as [n' [-> [C' Bl]]].
  apply (cfg_level n n' w S O Bl C').
Qed.

Lemma set_cfg_eq : forall w o, set_current_cfg W w o = set_current_config W w (match given o with Some x => x | None => "" end).
Proof. intros w o. unfold set_current_cfg. destruct (given o); reflexivity. Qed.

(** *** Adding *)

Lemma config_file_o : forall w c key, ordinary w = true -> ordinary c = true -> has_char slash key = false ->
  deeper (cfgs w) c (config_file W w c key).
Proof.
  intros w c key O1 O2 H. rewrite config_file_below by exact H. rewrite (config_path_o W w c O1 O2), <- app_assoc.
  apply deep_in_cfg.
Qed.

Lemma create_config_stays : forall w c b, ordinary w = true -> ordinary c = true ->
  stays W w (create_config W resource w c b) /\ stays (cfgs w) c (create_config W resource w c b).
Proof.
  intros w c b O1 O2.
  assert (F : forall name, plain name = true -> deeper (cfgs w) c (join (config_path W w c) name)).
  { intros name P. rewrite (join_plain _ _ P), (config_path_o W w c O1 O2), <- app_assoc. apply deep_in_cfg. }
  unfold create_config, assert_ws, config_exists, copy_resource. split; stay.
  - apply stays_ensure. right. rewrite (config_path_o W w c O1 O2). apply deep_cfg.
  - apply stays_fs, write_file_deeper. apply (deep_up w c), F. reflexivity.
  - apply stays_fs, write_file_deeper. apply (deep_up w c), F. reflexivity.
  - apply stays_fs, write_file_deeper. apply (deep_up w c), F. reflexivity.
  - apply stays_ensure. left. apply (config_path_o W w c O1 O2).
  - apply stays_fs, write_file_deeper, F. reflexivity.
  - apply stays_fs, write_file_deeper, F. reflexivity.
  - apply stays_fs, write_file_deeper, F. reflexivity.
Qed.

Lemma hoare_create_cfg : forall wa c b1 b2, (forall w, wa = Some w -> ordinary w = true) -> ordinary c = true ->
  hoare (sound W) (create_cfg W resource wa (Some c) b1 b2) (fun _ => sound W).
Proof.
  intros wa c b1 b2 Ow Oc. unfold create_cfg.
  apply (hoare_bind W _ _ _ _ _ (fun w n => sound W n /\ ordinary w = true)).
  - destruct wa as [w|].
    + apply hoare_ret. intros n S. split; [exact S|]. apply Ow. reflexivity.
    + eapply hoare_post; [|apply hoare_default]. intros a n [S ->]. split; [exact S|reflexivity].
  - intros w n [S O]. revert n S. apply (hoare_bind W _ _ (sound W) _ _ (fun _ => sound W)).
    { apply hoare_look. intros n S. exact S. }
    intros ex. destruct (b1 && ex); [apply hoare_ret; intros n S; exact S|].
    destruct (create_config_stays w c b2 O Oc) as [H1 H2].
    eapply hoare_then; [apply (hoare_stays _ w c _ O Oc H1 H2)|].
    eapply hoare_then with (R := sound W); [|apply hoare_ret; intros n S; exact S].
    rewrite set_cfg_eq, (ordinary_given c Oc). apply hoare_set_cfg; [exact O|right; exact Oc].
Qed.
Lemma hoare_default_cfg : forall w, ordinary w = true ->
  hoare (sound W) (create_default_config W resource w) (fun _ => sound W).
Proof.
  intros w O. apply hoare_create_cfg; [|reflexivity]. intros w' E. inversion E. subst. exact O.
Qed.

Lemma step_cadd : forall wa c b, ordinary_arg wa = true -> ordinary c = true ->
  hoare (sound W) (cf_add W resource wa c b) (fun _ => sound W).
Proof.
  intros wa c b H1 H2. unfold cf_add, get_ws_config.
  apply (hoare_bind W _ _ _ _ _ (fun wc n => sound W n /\ (forall w, fst wc = Some w -> ordinary w = true) /\ snd wc = Some c)).
  - eapply hoare_bind; [apply hoare_name; exact H1|]. intros w. rewrite (ordinary_given c H2).
    destruct w as [w|]; apply hoare_ret; intros n [S O]; cbn [fst snd]; (split; [exact S|split; [exact O|reflexivity]]).
  - intros [w c'] n [S [O E]]. cbn [fst snd] in *. subst c'.
    refine (hoare_catch W _ (sound W) _ _ (fun _ => sound W) _ n S).
    eapply hoare_then; [apply hoare_create_cfg; assumption|]. apply hoare_ret. intros n' S'. exact S'.
Qed.

(** *** Removing, renaming, copying *)

Lemma cfg_names_eq : forall w n, ordinary w = true -> is_dir (cfgs w) n = true ->
  exists l, get_config_names W w n = (n, Ok (Some l)) /\ forall x, In x l <-> is_dir (cfgs w ++ [x]) n = true.
Proof.
  intros w n O D. destruct (subdirs_in (cfgs w) n D) as [l [H1 H2]]. exists l. split; [|exact H2].
  unfold get_config_names, assert_ws, thenM, bindM, look.
  rewrite (ws_of_cfgs w [] n O) by (rewrite app_nil_r; apply is_dir_exists; exact D).
  unfold ret. cbv beta iota. rewrite (configs_path_o W w O), (is_dir_exists _ _ D), H1. reflexivity.
Qed.

(** [n0] was sound and only the configurations of [w] have changed since. *)
Definition csemi (w c : string) (n : node) : Prop :=
  exists n0, sound W n0 /\ below W w n0 n /\ but (cfgs w) c n.

Lemma csemi_done : forall w c n, ordinary w = true -> csemi w c n ->
  (forall t, lookup (cfgs w ++ [".current"]) n = Some (NFile t) -> readline t <> c) -> sound W n.
Proof.
  intros w c n O [n0 [S [Bl Bt]]] H. apply (cfg_level n0 n w S O Bl). apply (but_done (cfgs w) c n Bt H).
Qed.
Lemma csemi_select : forall w c s n, ordinary w = true -> csemi w c n ->
  s = "" \/ (ordinary s = true /\ is_dir (cfgs w ++ [s]) n = true) ->
  exists n', set_current_config W w s n = (n', Ok tt) /\ sound W n'.
Proof.
  intros w c s n O [n0 [S [Bl [T [D _]]]]] Hs. destruct (set_cfg_ok w s n O T D Hs) as [n' [H [C B2]]].
  exists n'. split; [exact H|]. apply (cfg_level n0 n' w S O); [|exact C].
  apply (below_trans W w n0 n n' Bl B2).
Qed.

Lemma fallback_cfg : forall w n l, tidy (cfgs w) n -> (forall x, In x l <-> is_dir (cfgs w ++ [x]) n = true) ->
  let s := match given (fallback l) with Some x => x | None => "" end in
  s = "" \/ (ordinary s = true /\ is_dir (cfgs w ++ [s]) n = true).
Proof.
  intros w n l T H. cbv zeta. destruct (given (fallback l)) as [x|] eqn:G; [|left; reflexivity]. right.
  apply given_some in G. destruct G as [G _]. apply fallback_in in G. apply H in G.
  split; [apply (dir_ordinary (cfgs w) x n T G)|exact G].
Qed.

Lemma config_dir_eq : forall w c, config_dir W w c = cfgs w ++ [c].
Proof. intros w c. rewrite cfgs_in. reflexivity. Qed.

Lemma delete_config_post : forall w c n, sound W n -> ordinary w = true -> ordinary c = true ->
  (exists e, delete_config W w c n = (n, Err e)) \/
  exists n', delete_config W w c n = (n', Ok tt) /\ csemi w c n'.
Proof.
  intros w c n S O1 O2. rewrite (delete_config_eq W w c n (ordinary_plain _ O1) (ordinary_plain _ O2)), config_dir_eq.
  destruct (exists_at (cfgs w ++ [c]) n) eqn:E; [|left; eexists; reflexivity]. right.
  destruct (rmtree_but (cfgs w) c n (sound_cfg W n w S O1) O2 E) as [n' [H1 [H2 [H3 H4]]]].
  exists n'. unfold fs. rewrite H1. split; [reflexivity|]. exists n. split; [exact S|]. split; [|exact H2].
  apply (rmtree_deeper W w (cfgs w ++ [c]) (deep_cfg w _) n n' H1).
Qed.

Lemma ws_still : forall w n, ordinary w = true -> is_dir (cfgs w) n = true -> exists_at (W ++ [w]) n = true.
Proof.
  intros w n O D. rewrite <- (ws_path_o W w O). apply (ws_of_cfgs w [] n O).
  rewrite app_nil_r. apply is_dir_exists. exact D.
Qed.
Lemma csemi_dir : forall w c n, csemi w c n -> is_dir (cfgs w) n = true /\ tidy (cfgs w) n.
Proof. intros w c n [n0 [_ [_ [T [D _]]]]]. auto. Qed.

Lemma step_cremove : forall wa ca yes, ordinary_arg wa = true -> ordinary_arg ca = true ->
  hoare (sound W) (cf_remove W wa ca yes) (fun _ => sound W).
Proof.
  intros wa ca yes H1 H2. unfold cf_remove. eapply hoare_bind; [apply hoare_known; assumption|].
  intros [w c] n [S [O1 O2]]. cbn [fst snd] in *. destruct yes; [|exact S].
  refine (hoare_catch W _ (fun m => m = n) _ _ (fun _ => sound W) _ n eq_refl). intros m ->.
  unfold thenM. unfold bindM at 1.
  destruct (delete_config_post w c n S O1 O2) as [[e ->]|[n' [-> P]]]; [exact S|].
  destruct (csemi_dir w c n' P) as [D T].
  unfold bindM at 1. rewrite (current_cfg_eq w n' O1), (ws_still w n' O1 D).
  destruct (read_file (cfgs w ++ [".current"]) n') as [t|] eqn:R; cbn [option_map].
  - apply read_file_some in R. destruct (c =? readline t)%string eqn:E.
    + unfold bindM at 1. destruct (cfg_names_eq w n' O1 D) as [l [-> L]].
      unfold bindM at 1. cbn [need]. unfold ret. cbv beta iota. rewrite set_cfg_eq.
      destruct (csemi_select w c _ n' O1 P (fallback_cfg w n' l T L)) as [n2 [-> S2]]. exact S2.
    + apply String.eqb_neq in E. unfold ret. apply (csemi_done w c n' O1 P). intros t' L'. congruence.
  - unfold ret. apply (csemi_done w c n' O1 P). intros t L. apply read_file_some in L. congruence.
Qed.

Lemma step_api_cdelete : forall w c, ordinary w = true -> ordinary c = true ->
  hoare (sound W) (api_delete_config W w c) (fun _ => sound W).
Proof.
  intros w c O1 O2 n S. unfold api_delete_config, thenM. unfold bindM at 1.
  destruct (delete_config_post w c n S O1 O2) as [[e ->]|[n' [-> P]]]; [exact S|].
  destruct (csemi_dir w c n' P) as [D T].
  unfold bindM at 1. destruct (cfg_names_eq w n' O1 D) as [l [-> L]].
  unfold bindM at 1. cbn [need]. unfold ret. cbv beta iota.
  assert (K : fallback l = given (fallback l)).
  { destruct (fallback l) as [x|] eqn:F; [|reflexivity]. symmetry. apply ordinary_given.
    apply (dir_ordinary (cfgs w) x n' T). apply L. apply fallback_in. exact F. }
  rewrite K. destruct (csemi_select w c _ n' O1 P (fallback_cfg w n' l T L)) as [n2 [-> S2]]. exact S2.
Qed.

Lemma hoare_unique_cfg : forall w s, ordinary w = true -> ordinary s = true ->
  hoare (sound W) (unique_config W w s)
    (fun nn n => sound W n /\ ordinary nn = true /\ exists_at (cfgs w ++ [nn]) n = false).
Proof.
  intros w s Ow Os n S. unfold unique_config. unfold bindM at 1.
  destruct (is_dir (cfgs w) n) eqn:D.
  - destruct (cfg_names_eq w n Ow D) as [l [-> L]]. unfold bindM. cbn [need]. unfold ret. cbv beta iota.
    destruct (unique_name_total l s) as [r R]. rewrite R. cbn [need]. unfold ret. split; [exact S|].
    apply unique_name_spec in R. destruct R as [R1 [R2 R3]].
    assert (U : ordinary r = true).
    { destruct (in_dec string_dec s l) as [I|I].
      - destruct (R3 I) as [k [_ [-> _]]]. apply ordinary_numbered. left. exact Os.
      - rewrite (R2 I). exact Os. }
    split; [exact U|]. destruct (exists_at (cfgs w ++ [r]) n) eqn:E; [|reflexivity]. exfalso.
    apply R1. apply L. apply (tidy_dir (cfgs w) r n (proj1 (sound_cfg W n w S Ow)) (ordinary_ne r U) E).
  - unfold get_config_names, assert_ws, thenM, bindM, look. destruct (exists_at (ws_path W w) n); [|exact S].
    unfold ret. cbv beta iota. rewrite (configs_path_o W w Ow).
    assert (E : exists_at (cfgs w) n = false).
    { destruct (proj1 (sound_cfg W n w S Ow)) as [F _]. unfold exists_at, is_dir, is_file in *.
      destruct (lookup (cfgs w) n) as [[]|]; congruence. }
    rewrite E. exact S.
Qed.

Lemma copy_config_post : forall w c nn, ordinary w = true -> ordinary c = true -> ordinary nn = true ->
  hoare (sound W) (copy_config W w c nn) (fun _ => sound W).
Proof.
  intros w c nn Ow O1 O2 n S.
  rewrite (copy_config_eq W w c nn n (ordinary_plain _ Ow) (ordinary_plain _ O1) (ordinary_plain _ O2)), !config_dir_eq.
  destruct (exists_at (cfgs w ++ [c]) n) eqn:E; [|exact S]. unfold fs.
  destruct (exists_at (cfgs w ++ [nn]) n) eqn:N; [rewrite (copytree_exists _ _ _ N); exact S|].
  destruct (dir_of (cfgs w) c n (proj1 (sound_cfg W n w S Ow)) O1 E) as [d L].
  destruct (copytree_sibling (cfgs w) c nn n d L N) as [n' [Cp [H1 [H2 H3]]]]; [intros ->; congruence|].
  rewrite Cp. apply (cfg_level n n' w S Ow).
  - apply (copytree_deeper W w _ (cfgs w ++ [nn]) (deep_cfg w _) n n' Cp).
  - apply (new_entry (cfgs w) nn d n n' (sound_cfg W n w S Ow) O2 (only_others _ nn n n' H3) H1).
Qed.

Lemma step_ccopy : forall wa ca nn, ordinary_arg wa = true -> ordinary_arg ca = true -> ordinary_arg nn = true ->
  hoare (sound W) (cf_copy W wa ca nn) (fun _ => sound W).
Proof.
  intros wa ca nn H1 H2 H3. unfold cf_copy. eapply hoare_bind; [apply hoare_known; assumption|].
  intros [w c] n [S [O1 O2]]. cbn [fst snd] in *. revert n S.
  eapply (hoare_bind W _ _ (sound W)); [apply hoare_unique_cfg; [exact O1|]|].
  - destruct (given nn) as [x|] eqn:G; [apply (arg_given nn); assumption|].
    change "_copy" with ("_" ++ "copy")%string. apply ordinary_suffix; [left; exact O2|reflexivity|reflexivity|reflexivity].
  - intros r n [S [Or N]]. refine (hoare_catch W _ (sound W) _ _ (fun _ => sound W) _ n S).
    apply copy_config_post; assumption.
Qed.

Lemma step_crename : forall wa ca nn, ordinary_arg wa = true -> ordinary_arg ca = true -> ordinary nn = true ->
  hoare (sound W) (cf_rename W wa ca nn) (fun _ => sound W).
Proof.
  intros wa ca nn H1 H2 H3. unfold cf_rename. eapply hoare_bind; [apply hoare_known; assumption|].
  intros [w c] n [S [O1 O2]]. cbn [fst snd] in *. revert n S.
  eapply (hoare_bind W _ _ (sound W)); [apply hoare_unique_cfg; [exact O1|exact H3]|].
  intros r n [S [Or N]].
  refine (hoare_catch W _ (fun m => m = n) _ _ (fun _ => sound W) _ n eq_refl). intros m ->.
  unfold thenM. unfold bindM at 1.
  rewrite (rename_config_eq W w c r n (ordinary_plain _ O1) (ordinary_plain _ O2) (ordinary_plain _ Or)), !config_dir_eq.
  destruct (exists_at (cfgs w ++ [c]) n) eqn:E; [|exact S].
  destruct (dir_of (cfgs w) c n (proj1 (sound_cfg W n w S O1)) O2 E) as [d L].
  assert (Nc : c <> r) by congruence.
  destruct (os_rename_new (cfgs w) c (cfgs w) r n _ L N (base_dir _ _ _ E) (apart_siblings _ _ _ _ _ Nc)) as [n' [Mv [L1 [L2 F]]]].
  unfold fs. rewrite Mv.
  destruct (rename_but (cfgs w) c r n n' (sound_cfg W n w S O1) O2 Or E N ltac:(congruence) L2 F) as [Bt Dr].
  assert (P : csemi w c n').
  { exists n. split; [exact S|]. split; [|exact Bt].
    apply (os_rename_deeper W w _ _ (deep_cfg w _) (deep_cfg w _) n n' Mv). }
  destruct (csemi_dir w c n' P) as [D T].
  unfold bindM at 1. rewrite (current_cfg_eq w n' O1), (ws_still w n' O1 D).
  destruct (read_file (cfgs w ++ [".current"]) n') as [t|] eqn:R; cbn [option_map].
  - apply read_file_some in R. destruct (c =? readline t)%string eqn:E2.
    + rewrite set_cfg_eq, (ordinary_given r Or).
      destruct (csemi_select w c r n' O1 P (or_intror (conj Or Dr))) as [n2 [-> S2]]. exact S2.
    + apply String.eqb_neq in E2. unfold ret. apply (csemi_done w c n' O1 P). intros t' L'. congruence.
  - unfold ret. apply (csemi_done w c n' O1 P). intros t Lt. apply read_file_some in Lt. congruence.
Qed.

Lemma step_ccurrent : forall wa ca, ordinary_arg wa = true -> ordinary_arg ca = true ->
  hoare (sound W) (cf_current W wa ca) (fun _ => sound W).
Proof.
  intros wa ca H1 H2. unfold cf_current. eapply hoare_bind; [apply hoare_ws_config; assumption|].
  intros [w c] n [S [O1 O2]]. cbn [fst snd] in *.
  assert (O : ordinary (match w with Some w => w | None => "default" end) = true).
  { destruct w; [apply O1; reflexivity|reflexivity]. }
  set (v := match w with Some w => w | None => "default" end) in *. cbv zeta.
  refine (hoare_catch W _ (sound W) _ _ (fun _ => sound W) _ n S).
  destruct (given c) as [c'|] eqn:G.
  - pose proof (O2 c' eq_refl) as Oc. rewrite set_cfg_eq, (ordinary_given c' Oc).
    apply hoare_set_cfg; [exact O|right; exact Oc].
  - intros m S'. unfold thenM, bindM. rewrite (current_cfg_eq v m O). destruct (exists_at (W ++ [v]) m); exact S'.
Qed.

Lemma hoare_ws_or_default : forall o, (forall w, o = Some w -> ordinary w = true) ->
  hoare (sound W) (match o with Some w => ret w | None => create_default_workspace W end)
        (fun w n => sound W n /\ ordinary w = true).
Proof.
  intros [w|] O.
  - apply hoare_ret. intros n S. auto.
  - eapply hoare_post; [|apply hoare_default]. intros a n [S ->]. split; [exact S|reflexivity].
Qed.

Lemma step_cedit : forall wa ca, ordinary_arg wa = true -> ordinary_arg ca = true ->
  hoare (sound W) (cf_edit W resource wa ca) (fun _ => sound W).
Proof.
  intros wa ca H1 H2. unfold cf_edit. eapply hoare_bind; [apply hoare_ws_config; assumption|].
  intros [w c] n [S [O1 O2]]. cbn [fst snd] in *.
  refine (hoare_catch W _ (sound W) _ _ (fun _ => sound W) _ n S).
  eapply hoare_bind; [apply hoare_ws_or_default; exact O1|].
  intros v m [S' O]. destruct (given c) as [c'|]; [exact S'|]. revert m S'.
  eapply hoare_then; [apply hoare_default_cfg; exact O|]. apply hoare_ret. intros n' S'. exact S'.
Qed.

(** *** Upgrading *)

Lemma write_config_stays : forall w c key text, ordinary w = true -> ordinary c = true -> has_char slash key = false ->
  stays W w (write_config_file W w c key text) /\ stays (cfgs w) c (write_config_file W w c key text).
Proof.
  intros w c key text O1 O2 H. unfold write_config_file. pose proof (config_file_o w c key O1 O2 H) as D.
  split; apply stays_fs, rewrite_file_deeper; [apply (deep_up w c)|]; exact D.
Qed.
Lemma upgrade_stays : forall w c, ordinary w = true -> ordinary c = true ->
  stays W w (upgrade_all_config W upg w c) /\ stays (cfgs w) c (upgrade_all_config W upg w c).
Proof.
  intros w c O1 O2. unfold upgrade_all_config, upgrade_config.
  split; stay; apply write_config_stays; auto.
Qed.

Lemma require_upgrade_eq : forall w c n, fst (require_upgrade W newer w c n) = n.
Proof.
  intros w c n. unfold require_upgrade, bindM, look.
  destruct (read_file (config_file W w c "CHD") n) as [s|]; cbn [need]; unfold ret, fail; [|reflexivity].
  destruct (newer "CHD" s) as [b|]; cbn [need]; unfold ret, fail; [|reflexivity].
  destruct (read_file (config_file W w c "CNF") n) as [s2|]; cbn [need]; unfold ret, fail; [|reflexivity].
  destruct (newer "CNF" s2) as [b2|]; cbn [need]; unfold ret, fail; [|reflexivity].
  destruct (read_file (config_file W w c "CST") n) as [s3|]; cbn [need]; unfold ret, fail; [|reflexivity].
  destruct (newer "CST" s3) as [b3|]; cbn [need]; unfold ret, fail; reflexivity.
Qed.

Lemma hoare_keep : forall A (P : node -> Prop) (m : M A), (forall n, P n -> sound W n) -> (forall n, fst (m n) = n) ->
  hoare P m (fun _ => P).
Proof.
  intros A P m HP H n Hn. specialize (H n). destruct (m n) as [n1 [a|e]]; cbn in H; subst; auto.
Qed.

Lemma step_cupgrade : forall wa ca, ordinary_arg wa = true -> ordinary_arg ca = true ->
  hoare (sound W) (cf_upgrade W upg newer wa ca) (fun _ => sound W).
Proof.
  intros wa ca H1 H2. unfold cf_upgrade. eapply hoare_bind; [apply hoare_ws_config; assumption|].
  intros [w c] n [S [O1 O2]]. cbn [fst snd] in *. destruct w as [w|]; [|exact S].
  pose proof (O1 w eq_refl) as Ow. destruct c as [c|]; [|exact S].
  unfold bindM at 1. cbn [need]. unfold ret. cbv beta iota.
  destruct (given (Some c)) as [c'|] eqn:G.
  - pose proof (O2 c' eq_refl) as Oc. apply given_some in G. destruct G as [G _]. inversion G. subst c'. clear G.
    revert n S. eapply hoare_bind.
    + apply (hoare_keep _ (sound W)); [auto|apply require_upgrade_eq].
    + intros up. cbv beta. destruct up; [|apply hoare_ret; intros n S; exact S].
      apply (hoare_stays _ w c _ Ow Oc); apply upgrade_stays; assumption.
  - apply given_none in G. destruct G as [G|G]; [discriminate|]. inversion G. subst c. clear G.
    (* no configuration selected: there is no such file *)
    assert (R : read_file (config_file W w "" "CHD") n = None).
    { rewrite config_file_below by reflexivity. unfold config_path. rewrite join_empty, (configs_path_o W w Ow).
      change ("CHD" ++ ".json")%string with "CHD.json". destruct (read_file (cfgs w ++ ["CHD.json"]) n) as [s|] eqn:R; [|reflexivity].
      apply read_file_some in R. exfalso.
      destruct (proj2 (proj1 (sound_cfg W n w S Ow)) "CHD.json") as [[X _]|[_ X]];
        [unfold exists_at; rewrite R; reflexivity|discriminate X|]. unfold is_dir in X. rewrite R in X. discriminate. }
    unfold require_upgrade, bindM, look. rewrite R. exact S.
Qed.

(** *** Preparing a run *)

Lemma hoare_ret_sound : forall A (P : node -> Prop) (a : A), (forall n, P n -> sound W n) -> hoare P (ret a) (fun _ => sound W).
Proof. intros A P a H. apply hoare_ret. exact H. Qed.

Lemma get_config_names_keeps : forall w n, fst (get_config_names W w n) = n.
Proof.
  intros w n. unfold get_config_names, assert_ws, thenM, bindM, look, ret, fail.
  destruct (exists_at (ws_path W w) n); [|reflexivity]. destruct (exists_at (configs_path W w) n); [|reflexivity].
  unfold subdirs, bindM, look. destruct (listdir (configs_path W w) n); reflexivity.
Qed.
Lemma get_input_paths_keeps : forall w n, fst (get_input_paths W fnmatch w n) = n.
Proof.
  intros w n. unfold get_input_paths, get_input_names, thenM, bindM, look, ret, fail.
  destruct (exists_at (inputs_path W w) n); [|reflexivity].
  unfold nc_list, bindM, look. destruct (listdir (inputs_path W w) n); reflexivity.
Qed.

Lemma step_plan : forall a, ordinary_arg (ra_ws a) = true -> ordinary_arg (ra_config a) = true ->
  hoare (sound W) (run_plan W resource fnmatch cwd a) (fun _ => sound W).
Proof.
  intros a H1 H2. unfold run_plan.
  assert (G : hoare (sound W)
    (wc <- get_ws_config W (ra_ws a) (ra_config a) ;;
     w <- match fst wc with Some w => ret w | None => create_default_workspace W end ;;
      cs <- (if ra_all a then
               l <- get_config_names W w ;;
               match l with None | Some [] => fail ECmd | Some l' => ret l' end
             else match given (snd wc) with
                  | Some c => ret [c]
                  | None => c <- create_default_config W resource w ;; ret [c]
                  end) ;;
      ps <- match ra_inputs a with
            | [] => get_input_paths W fnmatch w
            | l => ret (map (abspath cwd) l)
            end ;;
      match ps with [] => fail ECmd | _ :: _ => ret (w, cs, ps) end) (fun _ => sound W)).
  { eapply hoare_bind; [apply hoare_ws_config; assumption|].
    intros [w c] n [S [O1 O2]]. cbn [fst snd] in *. revert n S.
    eapply hoare_bind; [apply hoare_ws_or_default; exact O1|].
    intros v n [S O]. revert n S. apply (hoare_bind W _ _ (sound W) _ _ (fun _ => sound W)).
    - destruct (ra_all a).
      + eapply hoare_bind; [apply (hoare_keep _ (sound W)); [auto|apply get_config_names_keeps]|].
        intros [[|x l]|]; cbv beta; [apply hoare_fail|apply hoare_ret|apply hoare_fail]; auto.
      + destruct (given c); [apply hoare_ret; auto|].
        eapply hoare_bind; [apply hoare_default_cfg; exact O|]. intros x. apply hoare_ret. auto.
    - intros cs. eapply (hoare_bind W _ _ (sound W) _ _ (fun _ => sound W)).
      + destruct (ra_inputs a); [apply (hoare_keep _ (sound W)); [auto|apply get_input_paths_keeps]|apply hoare_ret; auto].
      + intros [|p ps]; [apply hoare_fail; auto|apply hoare_ret; auto]. }
  destruct (ra_all a) eqn:A; [destruct (given (ra_config a))|]; [apply hoare_fail; auto|exact G|exact G].
Qed.

(** *** Calls of the manager *)

Lemma inputs_path_o : forall w, ordinary w = true -> inputs_path W w = W ++ [w; "inputs"].
Proof. intros w O. rewrite inputs_path_eq, (ws_path_o W w O), <- app_assoc. reflexivity. Qed.
Lemma notebooks_path_o : forall w, ordinary w = true -> notebooks_path W w = W ++ [w; "notebooks"].
Proof. intros w O. rewrite notebooks_path_eq, (ws_path_o W w O), <- app_assoc. reflexivity. Qed.
Lemma outputs_path_o : forall w c, ordinary w = true -> ordinary c = true -> outputs_path W w c = cfgs w ++ [c; "outputs"].
Proof. intros w c O1 O2. rewrite outputs_path_eq, (config_path_o W w c O1 O2), <- app_assoc. reflexivity. Qed.

Lemma deeper_join : forall w x s, simple s = true -> deeper W w (join (W ++ [w; x]) s).
Proof.
  intros w x s H. destruct (join_simple (W ++ [w; x]) s H) as [r ->]. rewrite <- app_assoc. apply deep_ws.
Qed.

Lemma step_call : forall o, step_ordinary (Call o) = true -> hoare (sound W) (exec W resource upg o) (fun _ => sound W).
Proof.
  intros o H. cbn [step_ordinary] in H.
  apply andb_true_iff in H. destruct H as [H Oc]. apply andb_true_iff in H. destruct H as [H Ow].
  apply andb_true_iff in H. destruct H as [Hs Hn].
  pose proof Hs as Hs'. unfold simple_names in Hs'. apply andb_true_iff in Hs'. destruct Hs' as [_ Hx].
  destruct o; try discriminate; cbn [ws_named configs_named forallb exec] in *;
    repeat match goal with X : _ && _ = true |- _ => apply andb_true_iff in X; destruct X end.
  - eapply hoare_post; [|apply create_ws_post; assumption]. intros a n K. apply K.
  - apply copy_ws_post; assumption.
  - apply hoare_set_current. right. assumption.
  - apply (hoare_stays _ w c); try assumption; apply create_config_stays; assumption.
  - apply copy_config_post; assumption.
  - apply hoare_set_cfg; [assumption|right; assumption].
  - apply negb_true_iff in Hx. apply (hoare_stays _ w c); try assumption; apply write_config_stays; assumption.
  - apply (hoare_stays _ w c); try assumption; apply upgrade_stays; assumption.
  - assert (E : inputs_path W w = W ++ [w; "inputs"]) by (apply inputs_path_o; assumption).
    apply (hoare_aside _ w "inputs"); [assumption|discriminate| |].
    + unfold add_inputs. rewrite E. stay.
      * apply stays_ensure. right. apply deep_ws.
      * apply stays_fs, copy_file_deeper, deeper_join.
        rewrite forallb_forall in Hx. match goal with I : In ?z ps |- _ => specialize (Hx z I); clear I; rename z into q end.
        destruct q as [|a q]; [reflexivity|].
        unfold simple. rewrite orb_true_iff. left.
        rewrite forallb_forall in Hx. apply Hx.
        rewrite (app_removelast_last "" (l := a :: q)) at 2 by discriminate.
        apply in_or_app. right. left. reflexivity.
    + rewrite <- E. apply mod_add_inputs. exact Hx.
  - assert (E : inputs_path W w = W ++ [w; "inputs"]) by (apply inputs_path_o; assumption).
    apply (hoare_aside _ w "inputs"); [assumption|discriminate| |].
    + unfold remove_inputs. rewrite E. stay. apply stays_fs, remove_deeper, deeper_join.
      rewrite forallb_forall in Hx. apply Hx. assumption.
    + rewrite <- E. apply mod_remove_inputs. exact Hx.
  - apply (hoare_stays _ w c); try assumption; unfold remove_outputs; rewrite outputs_path_o by assumption; stay;
      apply stays_fs, remove_deeper; rewrite <- app_assoc; [apply deep_cfg|apply deep_in_cfg].
  - apply negb_true_iff in Hx.
    assert (E : notebooks_path W w = W ++ [w; "notebooks"]) by (apply notebooks_path_o; assumption).
    assert (G : stays W w (write_notebook W fuel w base text)).
    { unfold write_notebook. rewrite E. stay. apply stays_fs, write_file_deeper.
      rewrite (join_plain _ _ (notebook_plain base _ Hx)), <- app_assoc. apply deep_ws. }
    apply (hoare_aside _ w "notebooks"); [assumption|discriminate| |].
    + unfold make_notebook. rewrite E. stay; [exact G|]. match goal with |- stays _ _ (match ?o with _ => _ end) => destruct o end; stay; [|exact G].
      apply stays_fs, mkdir_deeper. apply deep_ws.
    + apply modifies_then; [|apply modifies_ret]. rewrite <- E. apply mod_notebook. exact Hx.
Qed.

(** ** Sessions *)

Lemma step_sound : forall s, step_ordinary s = true ->
  hoare (sound W) (run_step W resource upg fnmatch newer cwd s) (fun _ => sound W).
Proof.
  intros s H. destruct s; cbn [run_step]; try (apply step_call; exact H); cbn [step_ordinary] in H;
    repeat match goal with X : _ && _ = true |- _ => apply andb_true_iff in X; destruct X end.
  - apply step_add; assumption.
  - apply step_remove; assumption.
  - apply step_copy; assumption.
  - apply step_rename; assumption.
  - apply step_current; assumption.
  - apply step_cadd; assumption.
  - apply step_cremove; assumption.
  - apply step_ccopy; assumption.
  - apply step_crename; assumption.
  - apply step_ccurrent; assumption.
  - apply step_cedit; assumption.
  - apply step_cupgrade; assumption.
  - eapply hoare_then; [apply step_plan; assumption|apply hoare_ret; auto].
  - apply step_api_delete; assumption.
  - apply step_api_cdelete; assumption.
Qed.

Lemma session_sound : forall ss n, sound W n -> forallb step_ordinary ss = true ->
  sound W (session W resource upg fnmatch newer cwd ss n).
Proof.
  induction ss as [|s r IH]; intros n S H; [exact S|]. cbn [forallb] in H. apply andb_true_iff in H.
  destruct H as [H1 H2]. cbn [session]. apply IH; [|exact H2].
  apply hoare_run; [apply step_sound; exact H1|exact S].
Qed.

End Sel.
