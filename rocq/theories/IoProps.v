(** C102-C103: inputs and outputs of a workspace. *)
From Coq Require Import Ascii String List Bool Arith Lia.
From Verif Require Import Common Dict FsModel FsProofs WsModel WsSpec WsProofs WsProps IoSpec IoProofs.
Import ListNotations.
Open Scope string_scope.
Open Scope list_scope.

(** * C102: inputs *)

(** Files with distinct names, none of them from the inputs directory itself
    or named like a directory in it, are copied into the inputs of an existing
    workspace; no other file appears, disappears or changes, and at most the
    inputs directory is made. *)
Theorem C102_add_partial : forall W w l n, plain w = true -> is_dir (ws_dir W w) n = true ->
  is_file (ws_dir W w ++ ["inputs"]) n = false ->
  NoDup (map (fun e => snd (fst e)) l) ->
  (forall b x s, In (b, x, s) l -> plain x = true /\ file_at n (b ++ [x]) s /\
     b <> ws_dir W w ++ ["inputs"] /\ is_dir (ws_dir W w ++ ["inputs"] ++ [x]) n = false) ->
  exists n', add_inputs W w (map (fun e => fst (fst e) ++ [snd (fst e)]) l) n = (n', Ok tt) /\
    files_changed n n' (map (fun e => ws_dir W w ++ ["inputs"] ++ [snd (fst e)]) l)
      (fun q t => exists b x, In (b, x, t) l /\ q = ws_dir W w ++ ["inputs"] ++ [x]) /\
    (forall q, is_dir q n' = true <-> is_dir q n = true \/ q = ws_dir W w ++ ["inputs"]).
Proof.
  intros W w l n Hw Dw Fi Nd H. unfold add_inputs.
  rewrite inputs_path_eq, ws_path_plain by exact Hw.
  set (p := ws_dir W w ++ ["inputs"]) in *.
  destruct (ensure_inputs p n) as (n1 & R1 & D1 & F1 & Q1).
  { destruct (lookup p n) as [[t|d]|] eqn:L.
    - unfold is_file in Fi. rewrite L in Fi. discriminate.
    - left. unfold is_dir. now rewrite L.
    - right. split; [reflexivity|]. exists (ws_dir W w), "inputs". now split. }
  destruct (adding_all p l n1 D1) as (n2 & R2 & D2 & F2).
  { intros b x s I. destruct (H b x s I) as (A1 & A2 & A3 & A4).
    split; [exact A1|]. split; [now apply F1|]. split; [exact A3|].
    destruct (is_dir (p ++ [x]) n1) eqn:X; [|reflexivity]. apply Q1 in X as [X|X].
    - unfold p in X. rewrite <- app_assoc in X. congruence.
    - exfalso. apply (f_equal (@List.length string)) in X. rewrite app_length in X. cbn in X. lia. }
  exists n2. unfold thenM, bindM at 1. rewrite R1. split; [exact R2|]. split.
  - assert (G : forall b x s, In (b, x, s) l -> latest l x = Some s).
    { clear - Nd. induction l as [|[[b y] t] l IH]; intros b' x s I; [contradiction|].
      cbn [map fst snd] in Nd. inversion Nd as [|? ? N1 N2]. subst. cbn [latest].
      destruct I as [E|I].
      - injection E as -> -> ->. destruct (latest l x) as [u|] eqn:L; [|now rewrite String.eqb_refl].
        elim N1. apply latest_in. congruence.
      - now rewrite (IH N2 _ _ _ I). }
    assert (G' : forall x s, latest l x = Some s -> exists b, In (b, x, s) l).
    { clear. induction l as [|[[b y] t] l IH]; intros x s I; [discriminate|]. cbn [latest] in I.
      destruct (latest l x) as [u|] eqn:L.
      - injection I as ->. destruct (IH _ _ L) as (b' & I). exists b'. now right.
      - destruct (x =? y)%string eqn:E; [|discriminate]. injection I as ->. apply String.eqb_eq in E. subst.
        exists b. now left. }
    intros q t. rewrite (F2 q t). rewrite (F1 q t).
    replace (map (fun e => ws_dir W w ++ ["inputs"] ++ [snd (fst e)]) l)
      with (map (fun e : path * string * string => p ++ [snd (fst e)]) l)
      by (apply map_ext; intros e; unfold p; now rewrite <- app_assoc).
    split.
    + intros [(I & x & E & Lx)|X]; [left|now right]. split; [exact I|].
      destruct (G' _ _ Lx) as (b & Ib). exists b, x. split; [exact Ib|]. rewrite E. unfold p. now rewrite <- app_assoc.
    + intros [(I & b & x & Ib & E)|X]; [left|now right]. split; [exact I|].
      exists x. split; [rewrite E; unfold p; now rewrite <- app_assoc|]. now apply (G b).
  - intros q. rewrite D2. apply Q1.
Qed.
Print Assumptions C102_add_partial.

(** Two inputs of the same name: the first is lost without an error. *)
Theorem C102_same_name_refuted : exists n n',
  add_inputs ex_W "b" [["x"; "f.nc"]; ["y"; "f.nc"]] n = (n', Ok tt) /\
  file_at n ["x"; "f.nc"] "1" /\ file_at n ["y"; "f.nc"] "2" /\
  file_at n' (ex_W ++ ["b"; "inputs"; "f.nc"]) "2" /\
  forall q, file_at n' q "1" -> q = ["x"; "f.nc"].
Proof.
  exists (NDir [("x", NDir [("f.nc", NFile "1")]); ("y", NDir [("f.nc", NFile "2")]);
                ("home", NDir [("ws", NDir [("b", NDir [])])])]).
  eexists. split; [vm_compute; reflexivity|]. repeat split.
  intros q. unfold file_at. destruct q as [|a q]; [discriminate|].
  cbn [lookup dget]. destruct (a =? "x")%string eqn:E1.
  { apply String.eqb_eq in E1. subst. destruct q as [|c q]; [discriminate|]. cbn [lookup dget].
    destruct (c =? "f.nc")%string eqn:E; [|discriminate]. apply String.eqb_eq in E. subst.
    destruct q; [reflexivity|discriminate]. }
  destruct (a =? "y")%string.
  { destruct q as [|c q]; [discriminate|]. cbn [lookup dget]. destruct (c =? "f.nc")%string; [|discriminate].
    destruct q; discriminate. }
  destruct (a =? "home")%string; [|discriminate].
  destruct q as [|c q]; [discriminate|]. cbn [lookup dget]. destruct (c =? "ws")%string; [|discriminate].
  destruct q as [|c1 q]; [discriminate|]. cbn [lookup dget]. destruct (c1 =? "b")%string; [|discriminate].
  destruct q as [|c2 q]; [discriminate|]. cbn [lookup dget]. destruct (c2 =? "inputs")%string; [|discriminate].
  destruct q as [|c3 q]; [discriminate|]. cbn [lookup dget]. destruct (c3 =? "f.nc")%string; [|discriminate].
  destruct q; discriminate.
Qed.
Print Assumptions C102_same_name_refuted.

(** Adding inputs to a workspace that does not exist makes it. *)
Theorem C102_unknown_ws_refuted : forall W w l n, plain w = true -> is_dir W n = true ->
  lookup (ws_dir W w) n = None -> l = [] ->
  exists n', add_inputs W w l n = (n', Ok tt) /\ is_dir (ws_dir W w) n' = true.
Proof.
  intros W w l n Hw D L ->. unfold add_inputs. rewrite inputs_path_eq, ws_path_plain by exact Hw.
  unfold ensure_dir, thenM, bindM, look.
  assert (E : exists_at (ws_dir W w ++ ["inputs"]) n = false).
  { apply not_exists_below. unfold exists_at. now rewrite L. }
  rewrite E. unfold fs, makedirs.
  assert (X : exists n', write true (ws_dir W w ++ ["inputs"]) (Some (NDir [])) n = Some n').
  { clear - D L. unfold ws_dir in *. revert n D L. induction W as [|a W IH]; intros n D L.
    - unfold is_dir in D. cbn in D, L. destruct n as [|d]; [discriminate|]. cbn.
      destruct (dget w d); [discriminate|]. eexists. reflexivity.
    - unfold is_dir in D. cbn [lookup app] in D, L. destruct n as [|d]; [discriminate|].
      destruct (dget a d) as [ch|] eqn:G; [|discriminate].
      destruct (IH ch D L) as (ch' & W1). cbn [app write]. rewrite G.
      destruct ((W ++ [w]) ++ ["inputs"]) as [|z r] eqn:Z; [destruct W; discriminate|].
      rewrite W1. eexists. reflexivity. }
  destruct X as (n' & Wr). rewrite Wr. cbn [forM map]. exists n'. split; [reflexivity|].
  destruct (write_above _ _ _ _ _ (ws_dir W w) ["inputs"] Wr eq_refl) as (A & _); [discriminate|exact A].
Qed.
Print Assumptions C102_unknown_ws_refuted.

(** Removing inputs removes the named files and nothing else; names without a
    file are ignored. *)
Theorem C102_remove_partial : forall W w names n, plain w = true -> forallb plain names = true ->
  (forall x, In x names -> is_dir (ws_dir W w ++ ["inputs"; x]) n = false) ->
  exists n', remove_inputs W w names n = (n', Ok tt) /\
    files_changed n n' (map (fun x => ws_dir W w ++ ["inputs"; x]) names) (fun _ _ => False) /\
    (forall q, is_dir q n' = is_dir q n).
Proof.
  intros W w names n Hw Hp H. unfold remove_inputs. rewrite inputs_path_eq, ws_path_plain by exact Hw.
  set (p := ws_dir W w ++ ["inputs"]).
  assert (A : forall x, p ++ [x] = ws_dir W w ++ ["inputs"; x]) by (intros x; unfold p; now rewrite <- app_assoc).
  destruct (removals_ok p names n) as (n' & R & F & D & _).
  { intros x I. rewrite A. now apply H. }
  exists n'. split; [|split; [|exact D]].
  - rewrite <- R. apply forM_ext. intros x m I. unfold removal.
    rewrite forallb_forall in Hp. now rewrite (join_plain p x (Hp _ I)).
  - replace (map (fun x => ws_dir W w ++ ["inputs"; x]) names) with (map (fun x => p ++ [x]) names)
      by (apply map_ext; exact A). exact F.
Qed.
Print Assumptions C102_remove_partial.

(** A name with a path in it removes files elsewhere: here a configuration of
    another workspace. *)
Theorem C102_escape_refuted : exists n',
  remove_inputs ex_W "b" ["../../a/configs/default/CHD.json"] ex_tree = (n', Ok tt) /\
  file_at ex_tree (ex_W ++ ["a"; "configs"; "default"; "CHD.json"]) "2" /\
  lookup (ex_W ++ ["a"; "configs"; "default"; "CHD.json"]) n' = None.
Proof. eexists. split; [vm_compute; reflexivity|]. split; reflexivity. Qed.
Print Assumptions C102_escape_refuted.

Example C102_example : exists n1 n2,
  add_inputs ex_W "a" [["home"; "l1a.nc"]] ex_tree = (n1, Ok tt) /\
  file_at n1 (ex_W ++ ["a"; "inputs"; "l1a.nc"]) "data" /\
  remove_inputs ex_W "a" ["l1a.nc"; "none.nc"] n1 = (n2, Ok tt) /\
  lookup (ex_W ++ ["a"; "inputs"; "l1a.nc"]) n2 = None /\
  file_at n2 ["home"; "l1a.nc"] "data".
Proof. do 2 eexists. repeat split; vm_compute; reflexivity. Qed.

(** * C103: outputs *)

(** If the outputs are files, all of them are removed, the directory stays,
    and no other file changes. *)
Theorem C103_clean_partial : forall W w c n d, plain w = true -> plain c = true ->
  lookup (config_dir W w c ++ ["outputs"]) n = Some (NDir d) ->
  (forall x, is_dir (config_dir W w c ++ ["outputs"; x]) n = false) ->
  exists n', remove_outputs W w c n = (n', Ok tt) /\
    lookup (config_dir W w c ++ ["outputs"]) n' = Some (NDir []) /\
    files_changed n n' (map (fun x => config_dir W w c ++ ["outputs"; x]) (keys d)) (fun _ _ => False) /\
    (forall q, is_dir q n' = is_dir q n).
Proof.
  intros W w c n d Hw Hc L H. unfold remove_outputs. rewrite outputs_path_eq, config_path_dir by assumption.
  set (p := config_dir W w c ++ ["outputs"]) in *.
  assert (A : forall x, p ++ [x] = config_dir W w c ++ ["outputs"; x]) by (intros x; unfold p; now rewrite <- app_assoc).
  destruct (removals_ok p (keys d) n) as (n' & R & F & D & X).
  { intros x _. rewrite A. apply H. }
  unfold bindM at 1, look at 1. assert (E : exists_at p n = true) by (unfold exists_at; now rewrite L).
  rewrite E. unfold bindM at 1, look at 1. unfold listdir. rewrite L. cbn [need].
  exists n'. split; [exact R|]. split; [|split; [|exact D]].
  - rewrite (X d L). now rewrite fold_ddel_keys.
  - replace (map (fun x => config_dir W w c ++ ["outputs"; x]) (keys d)) with (map (fun x => p ++ [x]) (keys d))
      by (apply map_ext; exact A). exact F.
Qed.
Print Assumptions C103_clean_partial.

(** Without an outputs directory nothing happens and an error is raised. *)
Theorem C103_missing : forall W w c n, plain w = true -> plain c = true ->
  lookup (config_dir W w c ++ ["outputs"]) n = None ->
  remove_outputs W w c n = (n, Err EWs).
Proof.
  intros W w c n Hw Hc L. unfold remove_outputs. rewrite outputs_path_eq, config_path_dir by assumption.
  unfold bindM, look, exists_at. now rewrite L.
Qed.
Print Assumptions C103_missing.

(** A directory among the outputs stops the removal: what is listed before it
    is gone, the rest stays. *)
Theorem C103_stops_refuted : forall W w c n d a x v r, plain w = true -> plain c = true ->
  lookup (config_dir W w c ++ ["outputs"]) n = Some (NDir d) -> d = a ++ (x, NDir v) :: r ->
  wf n -> (forall y z, In (y, z) a -> exists s, z = NFile s) ->
  exists n', remove_outputs W w c n = (n', Err EWs) /\
    files_changed n n' (map (fun y => config_dir W w c ++ ["outputs"; y]) (keys a)) (fun _ _ => False).
Proof.
  intros W w c n d a x v r Hw Hc L Ed Wf H. unfold remove_outputs. rewrite outputs_path_eq, config_path_dir by assumption.
  set (p := config_dir W w c ++ ["outputs"]) in *.
  assert (A : forall y, p ++ [y] = config_dir W w c ++ ["outputs"; y]) by (intros y; unfold p; now rewrite <- app_assoc).
  pose proof (Wf _ _ L) as Id.
  assert (Gx : dget x d = Some (NDir v)).
  { apply dget_in; [exact Id|]. rewrite Ed. apply in_or_app. right. now left. }
  destruct (removals_stop p (keys a) x (keys r) n) as (n' & R & F).
  { intros y Hy. unfold keys in Hy. apply in_map_iff in Hy as ((y', z) & E & I). cbn [fst] in E. subst y'.
    destruct (H _ _ I) as (s & ->). unfold is_dir. rewrite lookup_app, L. cbn [lookup].
    rewrite (dget_in y (NFile s) d); [reflexivity|exact Id|]. rewrite Ed. apply in_or_app. now left. }
  { unfold is_dir. rewrite lookup_app, L. cbn [lookup]. now rewrite Gx. }
  unfold bindM at 1, look at 1. assert (E : exists_at p n = true) by (unfold exists_at; now rewrite L).
  rewrite E. unfold bindM at 1, look at 1. unfold listdir. rewrite L. cbn [need].
  exists n'. split.
  - rewrite Ed. unfold keys at 1. rewrite map_app. exact R.
  - replace (map (fun y => config_dir W w c ++ ["outputs"; y]) (keys a)) with (map (fun y => p ++ [y]) (keys a))
      by (apply map_ext; exact A). exact F.
Qed.
Print Assumptions C103_stops_refuted.

Definition ex_out : node :=
  NDir [("home", NDir [("ws", NDir [("a", NDir [("configs", NDir [("default", NDir [
    ("CHD.json", NFile "2");
    ("outputs", NDir [("1.nc", NFile "x"); ("figs", NDir []); ("2.nc", NFile "y")])])])])])])].

Example C103_example : exists n',
  remove_outputs ex_W "a" "default" ex_out = (n', Err EWs) /\
  lookup (ex_W ++ ["a"; "configs"; "default"; "outputs"; "1.nc"]) n' = None /\
  file_at n' (ex_W ++ ["a"; "configs"; "default"; "outputs"; "2.nc"]) "y".
Proof. eexists. repeat split; vm_compute; reflexivity. Qed.
