(** C130: which product is inspected or compared. *)
From Coq Require Import Ascii String List Bool Arith Lia.
From Verif Require Import Common Dict FsModel FsProofs WsModel WsSpec WsProofs IoSpec IoProofs WsProps CliModel OpenedSpec OpenedProofs.
Import ListNotations.
Open Scope string_scope.
Open Scope list_scope.

(** A name that is a path or can be an entry of a directory *)
Definition fair (file : string) : Prop := has_char "/"%char file = true \/ plain file = true.

Section S.
Variables (W cwd : path) (inspect_text : path -> string) (compare_text : path -> path -> string).
Hypothesis CC : clean cwd.
Lemma outputs_at : forall w c, plain w = true -> plain c = true -> outputs_path W w c = W ++ [w; "configs"; c; "outputs"].
Proof. intros w c Pw Pc. rewrite outputs_path_eq, config_path_dir by assumption. unfold config_dir. rewrite <- app_assoc. reflexivity. Qed.
Lemma named_path : forall w c file p, plain w = true -> plain c = true -> fair file -> product_named W cwd w c file p ->
  p = (if has_dirname file then abspath cwd file else join (outputs_path W w c) file) /\ has_char slash (last p "") = false.
Proof.
  intros w c file p Pw Pc Fa [(D & ->)|(D & ->)]; unfold has_dirname, slash; rewrite D.
  - split; [reflexivity|]. apply last_clean. apply join_clean. exact CC.
  - destruct Fa as [Fa|Fa]; [congruence|]. rewrite outputs_at by assumption. rewrite (join_plain _ _ Fa), <- app_assoc. split; [reflexivity|].
    replace (W ++ [w; "configs"; c; "outputs"; file]) with ((W ++ [w; "configs"; c; "outputs"]) ++ [file]) by (rewrite <- app_assoc; reflexivity).
    rewrite last_app_s. exact D.
Qed.

(** The product named is inspected: the notebook made refers to it, and no file
    changes; a product that is not there is an error. *)
Theorem C130_inspect : forall wa ca file n w c p,
  get_ws_config W wa ca n = (n, Ok (Some w, Some c)) -> plain w = true -> plain c = true -> fair file ->
  product_named W cwd w c file p ->
  (exists_at p n = false -> out_inspect W cwd inspect_text wa ca file n = (n, Err ECmd)) /\
  (exists_at p n = true -> is_dir (W ++ [w]) n = true -> is_file (W ++ [w; "notebooks"]) n = false -> has_char "\"%char (last p "") = false ->
   exists n', out_inspect W cwd inspect_text wa ca file n = (n', Ok tt) /\
     notebook_made W w ("inspect-" ++ last p "") (inspect_text p) n n').
Proof.
  intros wa ca file n w c p G Pw Pc Fa PN. destruct (named_path w c file p Pw Pc Fa PN) as (PP & NS).
  assert (Nc : (c =? "")%string = false) by (unfold plain in Pc; rewrite !andb_true_iff in Pc; destruct Pc as (((_ & Pc) & _) & _); now apply negb_true_iff in Pc).
  assert (R : out_inspect W cwd inspect_text wa ca file n =
    if exists_at p n then catch is_ws (launch W w ("inspect-" ++ nt_base p) (inspect_text p)) n else (n, Err ECmd)).
  { unfold out_inspect. unfold bindM at 1. rewrite G. cbn [fst snd given]. rewrite Nc. unfold catch, bindM, ret, look. cbv beta iota.
    rewrite PP. destruct (has_dirname file); cbv beta iota; destruct (exists_at _ n); reflexivity. }
  split; intros X; rewrite R, X; [reflexivity|]. intros D F B.
  assert (NB : nt_base p = last p "") by (apply after_none; exact B). rewrite NB.
  destruct (launch_made W w ("inspect-" ++ last p "") (inspect_text p) n Pw) as (n' & L & M); try assumption.
  exists n'. unfold catch. rewrite L. auto.
Qed.

(** The same for the two products compared, when both names are paths or both are
    names of outputs; without another workspace or configuration the second
    product is of those of the first. *)
Definition or_else (o : option string) (d : string) : string := match o with Some s => if (s =? "")%string then d else s | None => d end.
Theorem C130_compare_partial : forall wa ca w2 c2 file1 file2 n w c p1 p2,
  get_ws_config W wa ca n = (n, Ok (Some w, Some c)) -> plain w = true -> plain c = true ->
  plain (or_else w2 w) = true -> plain (or_else c2 c) = true -> fair file1 -> fair file2 ->
  has_char "/"%char file1 = has_char "/"%char file2 ->
  product_named W cwd w c file1 p1 -> product_named W cwd (or_else w2 w) (or_else c2 c) file2 p2 ->
  let compare := out_compare W cwd compare_text wa ca w2 c2 file1 (Some file2) n in
  (exists_at p1 n && exists_at p2 n = false -> compare = (n, Err ECmd)) /\
  (exists_at p1 n && exists_at p2 n = true -> is_dir (W ++ [w]) n = true -> is_file (W ++ [w; "notebooks"]) n = false ->
   has_char "\"%char (last p1 "") = false -> has_char "\"%char (last p2 "") = false ->
   exists n', compare = (n', Ok tt) /\
     notebook_made W w ("compare-" ++ last p1 "" ++ "-" ++ last p2 "") (compare_text p1 p2) n n').
Proof.
  intros wa ca w2 c2 file1 file2 n w c p1 p2 G Pw Pc Pw2 Pc2 F1 F2 SD N1 N2 compare.
  destruct (named_path w c file1 p1 Pw Pc F1 N1) as (E1 & S1). destruct (named_path _ _ file2 p2 Pw2 Pc2 F2 N2) as (E2 & S2).
  assert (NE : forall s, plain s = true -> (s =? "")%string = false).
  { intros s Ps. unfold plain in Ps. rewrite !andb_true_iff in Ps. destruct Ps as (((_ & Ps) & _) & _). now apply negb_true_iff in Ps. }
  assert (GW : match given w2 with Some x => x | None => w end = or_else w2 w) by (destruct w2 as [s|]; cbn; [destruct (s =? "")%string; reflexivity|reflexivity]).
  assert (GC : given (match given c2 with Some x => Some x | None => Some c end) = Some (or_else c2 c)).
  { destruct c2 as [s|]; cbn; [|now rewrite (NE c Pc)]. destruct (s =? "")%string eqn:Es; cbn; [now rewrite (NE c Pc)|now rewrite Es]. }
  assert (CP : compare_paths W cwd w (Some c) w2 c2 file1 (Some file2) n = (n, if exists_at p1 n && exists_at p2 n then Ok (p1, p2) else Err ECmd)).
  { unfold compare_paths. cbv zeta. rewrite GW, GC. cbn [given]. rewrite (NE c Pc). unfold bindM, ret, look, fail.
    unfold has_dirname, slash in *. rewrite <- SD in E2. destruct (has_char "/"%char file1); cbv beta iota; rewrite <- E1; destruct (exists_at p1 n) eqn:X1; cbn [negb andb]; try reflexivity;
      rewrite <- E2; destruct (exists_at p2 n) eqn:X2; reflexivity. }
  assert (R : compare = if exists_at p1 n && exists_at p2 n then catch is_ws (launch W w ("compare-" ++ nt_base p1 ++ "-" ++ nt_base p2) (compare_text p1 p2)) n else (n, Err ECmd)).
  { unfold compare, out_compare. unfold bindM at 1. rewrite G. cbn [fst snd]. unfold catch, bindM, ret. cbv beta iota. rewrite CP.
    destruct (exists_at p1 n && exists_at p2 n); reflexivity. }
  split; intros X; rewrite R, X; [reflexivity|]. intros D F B1 B2.
  assert (NB1 : nt_base p1 = last p1 "") by (apply after_none; exact B1). assert (NB2 : nt_base p2 = last p2 "") by (apply after_none; exact B2). rewrite NB1, NB2.
  destruct (launch_made W w ("compare-" ++ last p1 "" ++ "-" ++ last p2 "") (compare_text p1 p2) n Pw) as (n' & L & M); try assumption.
  { apply app_no; [reflexivity|]. apply app_no; [exact S1|]. apply app_no; [reflexivity|exact S2]. }
  exists n'. unfold catch. rewrite L. auto.
Qed.
End S.
Print Assumptions C130_inspect.
Print Assumptions C130_compare_partial.

(** When only the first name is a path, the second one is looked up in the current
    directory, and when only the second one is, below the outputs; the products
    named exist, but are not found.  Without a second name the command fails with
    an error of the language. *)
Definition o_tree : node :=
  NDir [("h", NDir [("p.nc", NFile "0")]);
        ("ws", NDir [("a", NDir [("configs", NDir [("c", NDir [("outputs", NDir [("q.nc", NFile "1")])])])])])].
Theorem C130_compare_refuted : exists W cwd n p q,
  let compare a b := out_compare W cwd (fun _ _ => "") (Some "a") (Some "c") None None a b n in
  product_named W cwd "a" "c" "/h/p.nc" p /\ product_named W cwd "a" "c" "q.nc" q /\ exists_at p n = true /\ exists_at q n = true /\
  compare "/h/p.nc" (Some "q.nc") = (n, Err ECmd) /\
  product_named W cwd "a" "c" "./p.nc" p /\ compare "q.nc" (Some "./p.nc") = (n, Err ECmd) /\
  compare "q.nc" None = (n, Err EType).
Proof.
  exists ["ws"], ["h"], o_tree, ["h"; "p.nc"], ["ws"; "a"; "configs"; "c"; "outputs"; "q.nc"].
  repeat split; try (vm_compute; reflexivity); [left|right|left]; split; reflexivity.
Qed.
Print Assumptions C130_compare_refuted.

(** Non-vacuity *)
Example C130_example : exists n',
  out_inspect ["ws"] ["h"] (fun p => last p "") (Some "a") (Some "c") "q.nc" o_tree = (n', Ok tt) /\
  lookup ["ws"; "a"; "notebooks"; "inspect-q.nc-1.ipynb"] n' = Some (NFile "q.nc") /\
  notebook_made ["ws"] "a" "inspect-q.nc" "q.nc" o_tree n'.
Proof.
  destruct (C130_inspect ["ws"] ["h"] (fun p => last p "") ltac:(repeat constructor) (Some "a") (Some "c") "q.nc" o_tree "a" "c" ["ws"; "a"; "configs"; "c"; "outputs"; "q.nc"])
    as (_ & H); try reflexivity; [right; reflexivity|right; split; reflexivity|].
  destruct H as (n' & E & M); try reflexivity. exists n'. split; [exact E|]. split; [|exact M].
  vm_compute in E. injection E as <-. reflexivity.
Qed.
