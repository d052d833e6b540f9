(** C117, C118: workspaces through the web interface. *)
From Coq Require Import Ascii String List Bool Sorted Lia.
From Verif Require Import Common Dict FsModel FsProofs WsModel WsSpec WsProofs CliModel CliSpec CliProofs CurProofs WswModel WswSpec.
Import ListNotations.
Local Open Scope string_scope.
Local Open Scope list_scope.

Lemma mem_s_in : forall x l, mem_s x l = true <-> In x l.
Proof.
  intros x l. unfold mem_s. rewrite existsb_exists. split.
  - intros (y & I & E). apply String.eqb_eq in E. subst. exact I.
  - intros I. exists x. split; [exact I|]. apply String.eqb_refl.
Qed.
Lemma selection_chosen : forall B n l, lists (fun x => is_dir (B ++ [x]) n = true) l -> chosen B n (next_selection l).
Proof.
  intros B n l (L1 & L2). unfold chosen, next_selection. destruct (mem_s "default" l) eqn:M.
  - apply mem_s_in in M. apply L1 in M. split; [auto|]. split; [intros C; congruence|].
    intros C. rewrite C in M. discriminate M.
  - assert (N : is_dir (B ++ ["default"]) n = false).
    { destruct (is_dir (B ++ ["default"]) n) eqn:E; [|reflexivity]. apply L1, mem_s_in in E. congruence. }
    split; [intros C; congruence|]. split.
    + intros _ x X. apply L1 in X. destruct l as [|y l]; [destruct X|].
      split; [apply L1; left; reflexivity|]. destruct X as [<-|X]; [left; reflexivity|right].
      apply StronglySorted_inv in L2. destruct L2 as (_ & F). rewrite Forall_forall in F. apply F, X.
    + intros C. destruct l as [|y l]; [reflexivity|]. exfalso.
      assert (Y : is_dir (B ++ [y]) n = true) by (apply L1; left; reflexivity). rewrite C in Y. discriminate Y.
Qed.
Lemma selection_cases : forall B n l, lists (fun x => is_dir (B ++ [x]) n = true) l -> plain_names B n ->
  next_selection l = "" \/ (plain (next_selection l) = true /\ is_dir (B ++ [next_selection l]) n = true).
Proof.
  intros B n l (L1 & _) P. unfold next_selection. destruct (mem_s "default" l) eqn:M.
  - right. apply mem_s_in, L1 in M. split; [reflexivity|exact M].
  - destruct l as [|y l]; [left; reflexivity|right].
    assert (Y : is_dir (B ++ [y]) n = true) by (apply L1; left; reflexivity). split; [apply P, Y|exact Y].
Qed.

(** Removing an entry and writing the marker, in any directory. *)
Lemma removed_names : forall B w n d n1, lookup (B ++ [w]) n = Some (NDir d) -> rmtree (B ++ [w]) n = Some n1 ->
  is_dir B n1 = true /\ lookup (B ++ [w]) n1 = None /\
  (forall x, x <> w -> lookup (B ++ [x]) n1 = lookup (B ++ [x]) n) /\ (wf n -> wf n1).
Proof.
  intros B w n d n1 L R. pose proof R as R'. unfold rmtree in R. destruct (is_dir (B ++ [w]) n); [|discriminate].
  destruct (write_above _ _ _ _ _ B [w] R eq_refl ltac:(discriminate)) as (D & _). split; [exact D|].
  split; [apply (write_at _ _ _ _ _ R)|]. split.
  - intros x N. apply (write_other _ _ _ _ _ _ R). apply ws_apart. congruence.
  - intros H. exact (rmtree_wf _ _ _ H R').
Qed.
Lemma marked : forall B s n, is_dir B n = true -> is_dir (B ++ [".current"]) n = false -> exists n',
  write_file (B ++ [".current"]) s n = Some n' /\ lookup (B ++ [".current"]) n' = Some (NFile s) /\
  (forall x, x <> ".current" -> lookup (B ++ [x]) n' = lookup (B ++ [x]) n).
Proof.
  intros B s n D N. destruct (write_ok false B ".current" (Some (NFile s)) n D) as (n' & H).
  exists n'. unfold write_file. rewrite N. split; [exact H|]. split; [apply (write_at _ _ _ _ _ H)|].
  intros x X. apply (write_other _ _ _ _ _ _ H). apply ws_apart. congruence.
Qed.

(** Deleting a workspace through the web interface: the workspace is gone, the
    others are as before, and the selection is a workspace that exists - the one
    called "default", else the first by name; the empty name when none is left. *)
Theorem C117_workspace : forall W w n d, wf n -> plain_names W n ->
  lookup (W ++ [w]) n = Some (NDir d) -> is_dir (W ++ [".current"]) n = false ->
  exists n' s, web_delete_ws W w n = (n', Ok tt) /\
    lookup (W ++ [".current"]) n' = Some (NFile s) /\ chosen W n' s /\
    lookup (W ++ [w]) n' = None /\
    forall x, x <> w -> x <> ".current" -> lookup (W ++ [x]) n' = lookup (W ++ [x]) n.
Proof.
  intros W w n d Hn P L N.
  assert (Dw : is_dir (W ++ [w]) n = true) by (unfold is_dir; rewrite L; reflexivity).
  pose proof (P w Dw) as Pw.
  assert (Wc : w <> ".current") by (intros C; rewrite C, N in Dw; discriminate Dw).
  destruct (rmtree_spec W w n d L) as (n1 & R & _).
  destruct (removed_names W w n d n1 L R) as (D1 & L1 & O1 & F1).
  destruct (subdirs_spec W n1 (F1 Hn) D1) as (l & SD & LS).
  set (s := next_selection l).
  assert (N1 : is_dir (W ++ [".current"]) n1 = false) by (unfold is_dir in *; rewrite O1 by congruence; exact N).
  destruct (marked W s n1 D1 N1) as (n2 & M1 & M2 & M3).
  assert (P1 : plain_names W n1).
  { intros x X. destruct (string_dec x w) as [->|E]; [unfold is_dir in X; rewrite L1 in X; discriminate X|].
    apply P. unfold is_dir in *. rewrite O1 in X by exact E. exact X. }
  exists n2, s. split.
  - unfold web_delete_ws, thenM, bindM. rewrite (delete_ws_eq W w n Pw). unfold exists_at, ws_dir. rewrite L.
    unfold fs at 1. rewrite R. unfold get_ws_names, bindM, look. rewrite (is_dir_exists _ _ D1), SD. fold s.
    unfold set_current, assert_ws, thenM, bindM, look.
    assert (E : exists_at (ws_path W s) n1 = true).
    { unfold ws_path. destruct (selection_cases W n1 l LS P1) as [Z|(Z1 & Z2)]; [fold s in Z|fold s in Z1, Z2].
      - rewrite Z, join_empty. apply is_dir_exists, D1.
      - rewrite join_plain by exact Z1. apply is_dir_exists, Z2. }
    rewrite E. unfold ret, writeline, fs. rewrite (current_file_eq W), M1. reflexivity.
  - split; [exact M2|]. split; [|split].
    + pose proof (selection_chosen W n1 l LS) as C. fold s in C.
      assert (Same : forall x, is_dir (W ++ [x]) n2 = is_dir (W ++ [x]) n1).
      { intros x. destruct (string_dec x ".current") as [->|E].
        - unfold is_dir in *. rewrite M2. destruct (lookup (W ++ [".current"]) n1) as [[]|]; congruence.
        - unfold is_dir. rewrite M3 by exact E. reflexivity. }
      unfold chosen in *. destruct C as (C1 & C2 & C3). rewrite !Same. split; [exact C1|]. split.
      * intros Q x. rewrite Same. apply C2. exact Q.
      * intros Q. apply C3. intros x. rewrite <- Same. apply Q.
    + rewrite M3 by exact Wc. exact L1.
    + intros x X1 X2. rewrite M3, O1 by assumption. reflexivity.
Qed.
Print Assumptions C117_workspace.

(** The same for configurations. *)
Theorem C117_config : forall W w c n d, wf n -> plain w = true -> let B := W ++ [w; "configs"] in plain_names B n ->
  lookup (B ++ [c]) n = Some (NDir d) -> is_dir (B ++ [".current"]) n = false ->
  exists n' s, web_delete_config W w c n = (n', Ok tt) /\
    lookup (B ++ [".current"]) n' = Some (NFile s) /\ chosen B n' s /\
    lookup (B ++ [c]) n' = None /\
    forall x, x <> c -> x <> ".current" -> lookup (B ++ [x]) n' = lookup (B ++ [x]) n.
Proof.
  intros W w c n d Hn Pw B P L N.
  assert (Dc : is_dir (B ++ [c]) n = true) by (unfold is_dir; rewrite L; reflexivity).
  pose proof (P c Dc) as Pc.
  assert (Cc : c <> ".current") by (intros C; rewrite C, N in Dc; discriminate Dc).
  assert (EB : configs_path W w = B).
  { rewrite configs_path_eq, (ws_path_plain W w Pw). unfold ws_dir, B. rewrite <- app_assoc. reflexivity. }
  assert (EC : config_dir W w c = B ++ [c]) by (unfold config_dir, B; rewrite <- app_assoc; reflexivity).
  destruct (rmtree_spec B c n d L) as (n1 & R & _).
  destruct (removed_names B c n d n1 L R) as (D1 & L1 & O1 & F1).
  destruct (subdirs_spec B n1 (F1 Hn) D1) as (l & SD & LS).
  set (s := next_selection l).
  assert (N1 : is_dir (B ++ [".current"]) n1 = false) by (unfold is_dir in *; rewrite O1 by congruence; exact N).
  destruct (marked B s n1 D1 N1) as (n2 & M1 & M2 & M3).
  assert (P1 : plain_names B n1).
  { intros x X. destruct (string_dec x c) as [->|E]; [unfold is_dir in X; rewrite L1 in X; discriminate X|].
    apply P. unfold is_dir in *. rewrite O1 in X by exact E. exact X. }
  assert (EW : exists_at (ws_path W w) n1 = true).
  { rewrite (ws_path_plain W w Pw). apply is_dir_exists. unfold ws_dir.
    apply (exists_parent_dir (W ++ [w]) "configs" []). rewrite <- app_assoc. apply is_dir_exists. exact D1. }
  exists n2, s. split.
  - unfold web_delete_config, thenM, bindM. rewrite (delete_config_eq W w c n Pw Pc), EC. unfold exists_at at 1. rewrite L.
    unfold fs at 1. rewrite R. unfold get_config_names, assert_ws, thenM, bindM, look. rewrite EW.
    unfold ret at 1. rewrite EB, (is_dir_exists _ _ D1), SD. unfold ret at 1. cbn [need]. unfold ret at 1. fold s.
    unfold set_current_config, assert_ws, assert_config, thenM, bindM, look. rewrite EW. unfold ret at 1.
    assert (E : exists_at (config_path W w s) n1 = true).
    { unfold config_path. rewrite EB. destruct (selection_cases B n1 l LS P1) as [Z|(Z1 & Z2)]; [fold s in Z|fold s in Z1, Z2].
      - rewrite Z, join_empty. apply is_dir_exists, D1.
      - rewrite join_plain by exact Z1. apply is_dir_exists, Z2. }
    rewrite E. unfold ret, writeline, fs. rewrite (current_config_file_eq W w), EB, M1. reflexivity.
  - split; [exact M2|]. split; [|split].
    + pose proof (selection_chosen B n1 l LS) as C. fold s in C.
      assert (Same : forall x, is_dir (B ++ [x]) n2 = is_dir (B ++ [x]) n1).
      { intros x. destruct (string_dec x ".current") as [->|E].
        - unfold is_dir in *. rewrite M2. destruct (lookup (B ++ [".current"]) n1) as [[]|]; congruence.
        - unfold is_dir. rewrite M3 by exact E. reflexivity. }
      unfold chosen in *. destruct C as (C1 & C2 & C3). rewrite !Same. split; [exact C1|]. split.
      * intros Q x. rewrite Same. apply C2. exact Q.
      * intros Q. apply C3. intros x. rewrite <- Same. apply Q.
    + rewrite M3 by exact Cc. exact L1.
    + intros x X1 X2. rewrite M3, O1 by assumption. reflexivity.
Qed.
Print Assumptions C117_config.

(** False of the code: deleting a workspace that is not selected keeps the
    selection.  Whenever there is a workspace "default", that one is selected
    afterwards. *)
Theorem C117_selection_refuted : forall W w c n d, wf n -> plain_names W n ->
  lookup (W ++ [w]) n = Some (NDir d) -> lookup (W ++ [".current"]) n = Some (NFile c) ->
  is_dir (W ++ [c]) n = true -> c <> w -> c <> "default" -> w <> "default" -> is_dir (W ++ ["default"]) n = true ->
  exists n', web_delete_ws W w n = (n', Ok tt) /\ is_dir (W ++ [c]) n' = true /\
    lookup (W ++ [".current"]) n' = Some (NFile "default").
Proof.
  intros W w c n d Hn P L C Dc Cw Cd Wd D.
  assert (N : is_dir (W ++ [".current"]) n = false) by (unfold is_dir; rewrite C; reflexivity).
  destruct (C117_workspace W w n d Hn P L N) as (n' & s & E & M & (S & _) & _ & O).
  exists n'. split; [exact E|]. split.
  - unfold is_dir in *. rewrite O; [exact Dc|exact Cw|]. intros Q. rewrite Q, C in Dc. discriminate Dc.
  - rewrite M. do 2 f_equal. apply S. unfold is_dir in *. rewrite O; [exact D|congruence|discriminate].
Qed.
Print Assumptions C117_selection_refuted.

(** A tree with the workspaces "a", "b" and "default", "b" selected: deleting "a"
    selects "default"; deleting "default" then selects "b"; deleting "b" leaves the
    empty name. *)
Definition x_tree : node := NDir [("ws", NDir [("a", NDir []); (".current", NFile "b"); ("default", NDir []);
  ("b", NDir [("configs", NDir [("k", NDir []); ("h", NDir []); (".current", NFile "k")])])])].
Definition x_W : path := ["ws"].
Example C117_example :
  let t1 := fst (web_delete_ws x_W "a" x_tree) in
  let t2 := fst (web_delete_ws x_W "default" t1) in
  let t3 := fst (web_delete_ws x_W "b" t2) in
  map (fun t => lookup ["ws"; ".current"] t) [x_tree; t1; t2; t3] =
    [Some (NFile "b"); Some (NFile "default"); Some (NFile "b"); Some (NFile "")] /\
  snd (web_delete_ws x_W "b" t2) = Ok tt /\
  lookup ["ws"; "b"; "configs"; ".current"] (fst (web_delete_config x_W "b" "k" x_tree)) = Some (NFile "h").
Proof. repeat split; reflexivity. Qed.

(** ** C118 *)

(** The objects returned by the operations describe the workspace named. *)
Theorem C118_operations : forall W D w w' n n' o, plain w = true -> plain w' = true ->
  (set_current_object W D w n = (n', Ok o) -> describes W w o /\ o_current o = true /\
     lookup (W ++ [".current"]) n' = Some (NFile w)) /\
  (create_object W D w n = (n', Ok o) -> describes W w o /\ exists_at (W ++ [w]) n' = true) /\
  (copy_object W D w w' n = (n', Ok o) -> describes W w' o) /\
  (rename_object W D w w' n = (n', Ok o) -> describes W w' o).
Proof.
  intros W D w w' n n' o Pw Pw'. unfold describes.
  assert (J : forall x, plain x = true -> ws_path W x = W ++ [x]) by (intros; apply join_plain; assumption).
  split; [|split; [|split]]; intros H.
  - unfold set_current_object, thenM, bindM in H. destruct (set_current W w n) as [n1 [[]|e]] eqn:E; [|discriminate H].
    unfold ret in H. injection H as <- <-. cbn. rewrite (J w Pw). repeat split.
    unfold set_current, assert_ws, thenM, bindM, look in E. destruct (exists_at (ws_path W w) n); [|discriminate E].
    unfold ret, writeline, fs in E. destruct (write_file (current_file W) w n) as [n2|] eqn:F; [|discriminate E].
    injection E as <-. rewrite (current_file_eq W) in F. unfold write_file in F.
    destruct (is_dir (W ++ [".current"]) n); [discriminate F|]. apply (write_at _ _ _ _ _ F).
  - unfold create_object, thenM, bindM in H. destruct (create_ws W w n) as [n1 [[]|e]] eqn:E; [|discriminate H].
    unfold ret in H. injection H as <- <-. cbn. rewrite (J w Pw). repeat split.
    unfold create_ws in E. destruct (w =? "")%string; [discriminate E|]. unfold bindM, look in E.
    destruct (nonempty_dir (ws_path W w) n); [discriminate E|]. rewrite <- (J w Pw). apply (ensure_ok _ _ _ E).
  - unfold copy_object, thenM, bindM in H. destruct (copy_ws W w w' n) as [n1 [[]|e]]; [|discriminate H].
    unfold ret in H. injection H as <- <-. cbn. rewrite (J w' Pw'). auto.
  - unfold rename_object, thenM, bindM in H. destruct (rename_ws W w w' n) as [n1 [[]|e]]; [|discriminate H].
    unfold ret in H. injection H as <- <-. cbn. rewrite (J w' Pw'). auto.
Qed.
Print Assumptions C118_operations.

(** The selected workspace is described correctly as far as its name goes, and its
    directory when the manager works in the default place. *)
Theorem C118_selected_partial : forall W D n w, ordinary w = true ->
  lookup (W ++ [".current"]) n = Some (NFile w) ->
  exists o, current_object W D n = (n, Ok o) /\ o_name o = Some w /\
    (W = D ++ ["workspaces"] -> describes W w o) /\
    (* false of the code: the object says it is the selected workspace *)
    o_current o = false /\
    (* false of the code: its directory is in the manager's directory *)
    (o_dir o = W ++ [w] <-> W = D ++ ["workspaces"]).
Proof.
  intros W D n w Ow L. pose proof (ordinary_plain w Ow) as Pw. unfold current_object, bindM, get_current, readline_at, look.
  rewrite (current_file_eq W), (proj2 (read_file_some _ n w) L). cbn [option_map].
  rewrite (readline_ordinary w Ow). unfold ret. eexists. split; [reflexivity|]. unfold workspace, describes. cbn [o_name o_dir o_current].
  destruct (plain_inv w Pw) as (_ & E & _). apply String.eqb_neq in E. rewrite E, join_plain by exact Pw.
  split; [reflexivity|]. split; [intros ->; auto|]. split; [reflexivity|]. split.
  - intros H. apply app_inj_tail in H. destruct H as (H & _). congruence.
  - intros ->. reflexivity.
Qed.
Print Assumptions C118_selected_partial.

Theorem C118_selected_refuted : exists W D n w o, lookup (W ++ [".current"]) n = Some (NFile w) /\
  is_dir (W ++ [w]) n = true /\ current_object W D n = (n, Ok o) /\ o_current o = false /\ o_dir o <> W ++ [w].
Proof.
  exists x_W, ["home"; ".dedop"], x_tree, "b". eexists. split; [reflexivity|]. split; [reflexivity|].
  split; [reflexivity|]. split; [reflexivity|]. cbn. discriminate.
Qed.
Print Assumptions C118_selected_refuted.

(** The list: one object for every entry of the directory but the marker, each
    with its name and directory; nothing when the directory does not exist. *)
Theorem C118_list_partial : forall W D n,
  (forall d, lookup W n = Some (NDir d) ->
     exists l, all_objects W D n = (n, Ok (Some l)) /\
       (forall x, In x (keys d) -> x <> ".current" -> exists o, In o l /\ describes W x o) /\
       (forall o, In o l -> exists x, In x (keys d) /\ x <> ".current" /\ describes W x o) /\
       (forall o, In o l -> o_current o = false)) /\
  (lookup W n = None -> all_objects W D n = (n, Ok None)).
Proof.
  intros W D n. unfold all_objects, get_workspaces, bindM, look, exists_at. split.
  - intros d L. rewrite L. unfold listdir. rewrite L. cbn [need]. unfold ret. eexists. split; [reflexivity|].
    unfold describes. split; [|split].
    + intros x I N. eexists. split; [apply in_map, filter_In; split; [exact I|]|cbn; auto].
      apply negb_true_iff, String.eqb_neq, N.
    + intros o I. apply in_map_iff in I. destruct I as (x & <- & I). apply filter_In in I. destruct I as (I & N).
      apply negb_true_iff, String.eqb_neq in N. exists x. cbn. auto.
    + intros o I. apply in_map_iff in I. destruct I as (x & <- & _). reflexivity.
  - intros L. rewrite L. reflexivity.
Qed.
Print Assumptions C118_list_partial.

(** False of the code: only workspaces are listed (a file is listed too), and the
    selected one is marked. *)
Theorem C118_list_refuted : exists W D n o l w, all_objects W D n = (n, Ok (Some l)) /\ In o l /\
  is_file (o_dir o) n = true /\ lookup (W ++ [".current"]) n = Some (NFile w) /\
  forall o', In o' l -> o_current o' = false.
Proof.
  set (t := NDir [("ws", NDir [("a", NDir []); (".current", NFile "a"); ("notes", NFile "x")])]).
  exists x_W, ["home"; ".dedop"], t, {| o_dir := ["ws"; "notes"]; o_name := Some "notes"; o_current := false |}.
  eexists. exists "a". split; [reflexivity|]. split; [cbn; tauto|]. split; [reflexivity|]. split; [reflexivity|].
  cbn. intros o' [<-|[<-|[]]]; reflexivity.
Qed.
Print Assumptions C118_list_refuted.

(** False of the code: an object read back from its JSON form is the same.  It has
    the default directory and no name, whatever the object was. *)
Theorem C118_json_refuted : forall D o,
  from_json D (to_json o) = {| o_dir := default_dir D; o_name := None; o_current := o_current o |} /\
  (from_json D (to_json o) = o <-> o_dir o = default_dir D /\ o_name o = None).
Proof.
  intros D [p s b]. unfold from_json, to_json. cbn. split; [reflexivity|]. unfold workspace. split.
  - intros H. injection H as H1 H2. auto.
  - intros (-> & ->). reflexivity.
Qed.
Print Assumptions C118_json_refuted.

(** False of the code: a workspace object can be saved; and an opened workspace is
    the one whose directory was tested. *)
Theorem C118_object_refuted : forall D,
  (forall o n, save o n = Err EAttribute) /\
  (forall base name n n' o, plain name = true -> open_object D base name n = (n', Ok o) ->
     is_dir (base ++ [name]) n = true /\ o_dir o = base /\ o_dir o <> base ++ [name]).
Proof.
  intros D. split; [reflexivity|]. intros base name n n' o P H. unfold open_object, bindM, look in H.
  rewrite join_plain in H by exact P. destruct (is_dir (base ++ [name]) n) eqn:E; [|discriminate H].
  unfold ret in H. injection H as _ <-. cbn. split; [reflexivity|]. split; [reflexivity|].
  intros C. apply (f_equal (@List.length string)) in C. rewrite app_length in C. cbn in C. lia.
Qed.
Print Assumptions C118_object_refuted.

Example C118_example :
  let D := ["home"; ".dedop"] in
  (exists o, snd (set_current_object x_W D "a" x_tree) = Ok o /\ describes x_W "a" o) /\
  (exists o, snd (create_object x_W D "c" x_tree) = Ok o /\ describes x_W "c" o) /\
  (exists o, snd (copy_object x_W D "b" "c" x_tree) = Ok o /\ describes x_W "c" o) /\
  (exists o, snd (rename_object x_W D "b" "c" x_tree) = Ok o /\ describes x_W "c" o) /\
  (exists l, snd (all_objects x_W D x_tree) = Ok (Some l) /\ map o_name l = [Some "a"; Some "default"; Some "b"]) /\
  (exists o, snd (open_object D ["ws"] "b" x_tree) = Ok o).
Proof. cbv zeta. repeat split; eexists; repeat split; reflexivity. Qed.
