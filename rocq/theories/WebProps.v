(** C109-C110: the web interface's configurations and coordinates. *)
From Coq Require Import Ascii String List Bool Arith Lia Permutation Sorted Reals Lra.
From Verif Require Import Common Dict FsModel FsProofs WsModel WsSpec WsProofs IoSpec IoProofs ConfModel FigModel WebModel WebSpec WebProofs.
Import ListNotations.
Open Scope string_scope.
Open Scope list_scope.

(** * C109: saving and reading configurations *)

Definition chd_file (W : path) (w c : string) : path := config_dir W w c ++ ["CHD.json"].
Definition cnf_file (W : path) (w c : string) : path := config_dir W w c ++ ["CNF.json"].
Definition cst_file (W : path) (w c : string) : path := config_dir W w c ++ ["CST.json"].

(** All three sections given: exactly the three files of the configuration are
    replaced, each by its own section. *)
Theorem C109_saved_partial : forall W dumps w c conf n, plain w = true -> plain c = true ->
  (exists s, file_at n (chd_file W w c) s) -> (exists s, file_at n (cnf_file W w c) s) ->
  (exists s, file_at n (cst_file W w c) s) ->
  forall chd cnf cst, dget "chd" conf = Some chd -> dget "cnf" conf = Some cnf -> dget "cst" conf = Some cst ->
  exists n', save_configs W dumps w c conf n = (n', Ok tt) /\
    files_changed n n' [chd_file W w c; cnf_file W w c; cst_file W w c]
      (fun q s => q = chd_file W w c /\ s = dumps chd \/ q = cnf_file W w c /\ s = dumps cnf \/
                  q = cst_file W w c /\ s = dumps cst).
Proof.
  intros W dumps w c conf n Hw Hc (s1 & F1) (s2 & F2) (s3 & F3) chd cnf cst E1 E2 E3.
  assert (D12 : chd_file W w c <> cnf_file W w c) by (intros X; apply app_inv_head in X; discriminate).
  assert (D13 : chd_file W w c <> cst_file W w c) by (intros X; apply app_inv_head in X; discriminate).
  assert (D23 : cnf_file W w c <> cst_file W w c) by (intros X; apply app_inv_head in X; discriminate).
  destruct (save_one_ok W dumps w c "CHD" "chd" conf s1 n Hw Hc eq_refl F1) as (n1 & R1 & C1).
  assert (F2' : file_at n1 (cnf_file W w c) s2) by (apply C1; right; split; [intros [X|[]]; now apply D12|exact F2]).
  assert (F3' : file_at n1 (cst_file W w c) s3) by (apply C1; right; split; [intros [X|[]]; now apply D13|exact F3]).
  destruct (save_one_ok W dumps w c "CNF" "cnf" conf s2 n1 Hw Hc eq_refl F2') as (n2 & R2 & C2).
  assert (F3'' : file_at n2 (cst_file W w c) s3) by (apply C2; right; split; [intros [X|[]]; now apply D23|exact F3']).
  destruct (save_one_ok W dumps w c "CST" "cst" conf s3 n2 Hw Hc eq_refl F3'') as (n3 & R3 & C3).
  exists n3. split.
  - unfold save_configs, thenM, bindM. now rewrite R1, R2, R3.
  - rewrite E1 in C1. rewrite E2 in C2. rewrite E3 in C3.
    change (files_changed n n1 [chd_file W w c] (fun _ u => u = dumps chd)) in C1.
    change (files_changed n1 n2 [cnf_file W w c] (fun _ u => u = dumps cnf)) in C2.
    change (files_changed n2 n3 [cst_file W w c] (fun _ u => u = dumps cst)) in C3.
    intros q s. specialize (C1 q s). specialize (C2 q s). specialize (C3 q s). cbn [In] in *.
    rewrite C3, C2, C1. clear - D12 D13 D23.
    destruct (list_eq_dec string_dec q (chd_file W w c)) as [->|N1]; [|
    destruct (list_eq_dec string_dec q (cnf_file W w c)) as [->|N2]; [|
    destruct (list_eq_dec string_dec q (cst_file W w c)) as [->|N3]]]; intuition congruence.
Qed.
Print Assumptions C109_saved_partial.

(** Reading gives the three documents, each with all its names in the order of
    their lower-case forms. *)
Theorem C109_read : forall W loads w c n chd cnf cst s1 s2 s3, plain w = true -> plain c = true ->
  file_at n (chd_file W w c) s1 -> file_at n (cnf_file W w c) s2 -> file_at n (cst_file W w c) s3 ->
  loads s1 = Some (JObj chd) -> loads s2 = Some (JObj cnf) -> loads s3 = Some (JObj cst) ->
  exists o1 o2 o3, get_configs W loads w c n = (n, Ok [(JObj chd, o1); (JObj cnf, o2); (JObj cst, o3)]) /\
    Permutation o1 (keys chd) /\ Permutation o2 (keys cnf) /\ Permutation o3 (keys cst) /\
    Forall (StronglySorted (fun a b => sle (lower a) (lower b))) [o1; o2; o3].
Proof.
  intros W loads w c n chd cnf cst s1 s2 s3 Hw Hc F1 F2 F3 L1 L2 L3.
  exists (sort_lower (keys chd)), (sort_lower (keys cnf)), (sort_lower (keys cst)). split.
  - unfold get_configs, bindM.
    rewrite (get_one W loads w c "CHD" n s1 Hw Hc eq_refl F1), L1.
    rewrite (get_one W loads w c "CNF" n s2 Hw Hc eq_refl F2), L2.
    rewrite (get_one W loads w c "CST" n s3 Hw Hc eq_refl F3), L3. reflexivity.
  - repeat (split; [symmetry; apply sort_lower_perm|]). repeat constructor; apply sort_lower_sorted.
Qed.
Print Assumptions C109_read.

(** False of the code: a section that was not sent is left alone.  Its file is
    replaced by the text of nothing, and the configuration cannot be read any
    more. *)
Theorem C109_missing_refuted : forall W dumps loads w c conf n, plain w = true -> plain c = true ->
  (exists s, file_at n (chd_file W w c) s) -> (exists s, file_at n (cnf_file W w c) s) ->
  (exists s, file_at n (cst_file W w c) s) ->
  dget "chd" conf = None -> loads (dumps JNull) = Some JNull ->
  exists n', save_configs W dumps w c conf n = (n', Ok tt) /\ file_at n' (chd_file W w c) (dumps JNull) /\
    get_configs W loads w c n' = (n', Err FsModel.EType).
Proof.
  intros W dumps loads w c conf n Hw Hc (s1 & F1) (s2 & F2) (s3 & F3) E1 L.
  assert (D12 : chd_file W w c <> cnf_file W w c) by (intros X; apply app_inv_head in X; discriminate).
  assert (D13 : chd_file W w c <> cst_file W w c) by (intros X; apply app_inv_head in X; discriminate).
  assert (D23 : cnf_file W w c <> cst_file W w c) by (intros X; apply app_inv_head in X; discriminate).
  destruct (save_one_ok W dumps w c "CHD" "chd" conf s1 n Hw Hc eq_refl F1) as (n1 & R1 & C1).
  assert (F2' : file_at n1 (cnf_file W w c) s2) by (apply C1; right; split; [intros [X|[]]; now apply D12|exact F2]).
  assert (F3' : file_at n1 (cst_file W w c) s3) by (apply C1; right; split; [intros [X|[]]; now apply D13|exact F3]).
  destruct (save_one_ok W dumps w c "CNF" "cnf" conf s2 n1 Hw Hc eq_refl F2') as (n2 & R2 & C2).
  assert (F3'' : file_at n2 (cst_file W w c) s3) by (apply C2; right; split; [intros [X|[]]; now apply D23|exact F3']).
  destruct (save_one_ok W dumps w c "CST" "cst" conf s3 n2 Hw Hc eq_refl F3'') as (n3 & R3 & C3).
  rewrite E1 in C1. 
  assert (G : file_at n3 (chd_file W w c) (dumps JNull)).
  { apply C3. right. split; [intros [X|[]]; now apply D13|]. apply C2. right. split; [intros [X|[]]; now apply D12|].
    apply C1. left. split; [now left|reflexivity]. }
  exists n3. split; [|split; [exact G|]].
  - unfold save_configs, thenM, bindM. now rewrite R1, R2, R3.
  - unfold get_configs, bindM. now rewrite (get_one W loads w c "CHD" n3 _ Hw Hc eq_refl G), L.
Qed.
Print Assumptions C109_missing_refuted.

(** False of the code: saving is all or nothing.  If the second file is
    missing, the first has been replaced when the failure is reported. *)
Theorem C109_atomic_refuted : forall W dumps w c conf chd n s, plain w = true -> plain c = true ->
  file_at n (chd_file W w c) s -> (forall t, ~ file_at n (cnf_file W w c) t) -> dget "chd" conf = Some chd ->
  exists n', save_configs W dumps w c conf n = (n', Err EOs) /\ file_at n' (chd_file W w c) (dumps chd).
Proof.
  intros W dumps w c conf chd n s Hw Hc F1 M E1.
  assert (D12 : chd_file W w c <> cnf_file W w c) by (intros X; apply app_inv_head in X; discriminate).
  destruct (save_one_ok W dumps w c "CHD" "chd" conf s n Hw Hc eq_refl F1) as (n1 & R1 & C1). rewrite E1 in C1.
  exists n1. split.
  - unfold save_configs, thenM, bindM. rewrite R1.
    rewrite (save_one_missing W dumps w c "CNF" "cnf" conf n1 Hw Hc eq_refl); [reflexivity|].
    intros t X. apply C1 in X as [([X|[]] & _)|(_ & X)]; [now apply D12|exact (M t X)].
  - apply C1. left. split; [now left|reflexivity].
Qed.
Print Assumptions C109_atomic_refuted.

Example C109_example :
  let n := NDir [("ws", NDir [("w", NDir [("configs", NDir [("c", NDir
             [("CHD.json", NFile "1"); ("CNF.json", NFile "2"); ("CST.json", NFile "3")])])])])] in
  let dumps j := match j with JStr s => s | JNull => "null" | _ => "?" end in
  let conf := [("chd", JStr "a"); ("cnf", JStr "b"); ("cst", JStr "c")] in
  save_configs ["ws"] dumps "w" "c" conf n =
    (NDir [("ws", NDir [("w", NDir [("configs", NDir [("c", NDir
       [("CHD.json", NFile "a"); ("CNF.json", NFile "b"); ("CST.json", NFile "c")])])])])], Ok tt) /\
  sort_lower ["b"; "C"; "a"] = ["a"; "b"; "C"].
Proof. split; reflexivity. Qed.

(** * C110: the extent of a file *)
Open Scope R_scope.

(** If latitudes and longitudes only rise or only fall, the service returns
    their extremes. *)
Theorem C110_monotone_partial : forall lat lon, lat <> [] -> lon <> [] ->
  rising lat \/ falling lat -> rising lon \/ falling lon ->
  exists a b, get_max_min_coordinates {| v_lat := Some lat; v_lon := Some lon |} = Some (a, b) /\
    extremes lat a /\ extremes lon b.
Proof.
  assert (G : forall l, l <> [] -> rising l \/ falling l -> exists a, ends l = Some a /\ extremes l a).
  { intros [|x l] N H; [now elim N|]. eexists. split; [reflexivity|]. destruct H as [H|H].
    - left. cbn [fst snd]. split; (split; [|intros y I; now apply (rising_all l x H)]).
      + now left.
      + apply last_in.
    - right. cbn [fst snd]. split; (split; [|intros y I; now apply (falling_all l x H)]).
      + now left.
      + apply last_in. }
  intros lat lon N1 N2 H1 H2. destruct (G lat N1 H1) as (a & E1 & X1). destruct (G lon N2 H2) as (b & E2 & X2).
  exists a, b. unfold get_max_min_coordinates. cbn [v_lat v_lon values]. rewrite E1, E2. now repeat split.
Qed.
Print Assumptions C110_monotone_partial.

(** False of the code in general: for a pass over its northernmost point the
    largest latitude is not returned. *)
Theorem C110_turning_refuted : forall x y z l lon a b, x < y -> z < y ->
  get_max_min_coordinates {| v_lat := Some (x :: y :: l ++ [z]); v_lon := Some lon |} = Some (a, b) ->
  ~ extremes (x :: y :: l ++ [z]) a.
Proof.
  intros x y z l lon a b H1 H2 E. unfold get_max_min_coordinates in E. cbn [v_lat v_lon values ends] in E.
  replace (last (x :: y :: l ++ [z]) x) with z in E.
  - destruct (ends lon) as [p|]; [|discriminate]. injection E as <- _. unfold extremes. cbn [fst snd].
    intros [(_ & _ & M)|((_ & M) & _)].
    + assert (y <= z) by (apply M; cbn; tauto). lra.
    + assert (y <= x) by (apply M; cbn; tauto). lra.
  - change (x :: y :: l ++ [z]) with ((x :: y :: l) ++ [z]). now rewrite last_last.
Qed.
Print Assumptions C110_turning_refuted.

(** A file without the variables or without records: the list of coordinates
    is empty, the extent is an error. *)
Theorem C110_empty : forall lat lon, (lat = None \/ lat = Some []) ->
  fst (get_lat_lon {| v_lat := lat; v_lon := lon |}) = [] /\
  get_max_min_coordinates {| v_lat := lat; v_lon := lon |} = None.
Proof. now intros lat lon [->| ->]. Qed.
Print Assumptions C110_empty.

Theorem C110_all : forall lat lon, get_lat_lon {| v_lat := Some lat; v_lon := Some lon |} = (lat, lon).
Proof. reflexivity. Qed.
Print Assumptions C110_all.

Example C110_example :
  get_max_min_coordinates {| v_lat := Some [80; 82; 81]; v_lon := Some [1; 2; 3] |} = Some ((80, 81), (1, 3)) /\
  rising [1; 2; 3] /\ falling [3; 2; 1].
Proof. split; [reflexivity|]. cbn. lra. Qed.
