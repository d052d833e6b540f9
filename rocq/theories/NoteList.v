(** C52: the notebooks of a workspace. *)
From Coq Require Import Ascii String List Bool Arith Lia Sorted.
From Verif Require Import Common Dict FsModel FsProofs WsModel WsSpec WsProofs WsProps.
Import ListNotations.
Open Scope string_scope.
Open Scope list_scope.

(** Name [x] of a file in the notebooks folder that ends in ".ipynb". *)
Definition notebook_file (W : path) (w : string) (n : node) (x : string) : Prop :=
  (exists b, x = (b ++ ".ipynb")%string) /\ is_file (W ++ [w; "notebooks"; x]) n = true.

Lemma notebooks_dir : forall W w, plain w = true -> notebooks_path W w = W ++ [w; "notebooks"].
Proof. intros W w Hw. rewrite notebooks_path_eq, (ws_path_plain W w Hw). unfold ws_dir. rewrite <- app_assoc. reflexivity. Qed.
Lemma below : forall (W : path) w x, (W ++ [w; "notebooks"]) ++ [x] = W ++ [w; "notebooks"; x].
Proof. intros. rewrite <- app_assoc. reflexivity. Qed.

(** The names listed are exactly the notebook files, in order and each once; without the folder the
    list is empty, and an unknown workspace is an error. *)
Theorem C52_notebooks : forall W w n, wf n -> plain w = true ->
  (is_dir (ws_dir W w) n = true -> is_file (W ++ [w; "notebooks"]) n = false ->
     exists l, get_notebook_names W w n = (n, Ok l) /\ lists (notebook_file W w n) l) /\
  (exists_at (ws_dir W w) n = false -> get_notebook_names W w n = (n, Err EWs)).
Proof.
  intros W w n Hn Hw. unfold get_notebook_names, assert_ws, thenM, bindM, look. rewrite (ws_path_plain W w Hw), (notebooks_dir W w Hw). split.
  - intros D F. rewrite (is_dir_exists _ _ D). unfold ret at 1. cbv beta iota. destruct (exists_at (W ++ [w; "notebooks"]) n) eqn:E.
    + unfold exists_at in E. unfold is_file in F. unfold listdir. destruct (lookup (W ++ [w; "notebooks"]) n) as [[s|d]|] eqn:L; try discriminate.
      unfold need, ret. cbv beta iota. eexists. split; [reflexivity|]. apply listed_sorted; [apply (Hn _ d L)|].
      intros x. unfold notebook_file. rewrite andb_true_iff, ends_with_iff, below. split; [tauto|]. intros (H1 & H2). split; [|tauto].
      rewrite <- below in H2. unfold is_file in H2. rewrite lookup_app, L in H2. cbn [lookup] in H2.
      destruct (dget x d) as [v|] eqn:G; [|discriminate]. apply (dget_keys d x v G).
    + exists []. split; [reflexivity|]. split; [|constructor]. intros x. split; [intros []|]. intros (_ & H). rewrite <- below in H.
      unfold is_file in H. unfold exists_at in E. rewrite lookup_app in H. destruct (lookup (W ++ [w; "notebooks"]) n); discriminate.
  - intros E. rewrite E. reflexivity.
Qed.
Print Assumptions C52_notebooks.

Lemma make_notebook_wf : forall W fuel w base text, keeps_wf (make_notebook W fuel w base text).
Proof.
  intros W fuel w base text. unfold make_notebook, write_notebook.
  repeat first [apply keeps_bind; intros | apply keeps_then | apply keeps_ret | apply keeps_fail | apply keeps_look | apply keeps_need
    | apply keeps_fs; first [apply mkdir_wf | apply write_file_wf] | match goal with |- keeps_wf (if ?b then _ else _) => destruct b | |- keeps_wf (match ?x with _ => _ end) => destruct x end].
Qed.
Lemma str_assoc : forall a b c : string, ((a ++ b) ++ c)%string = (a ++ (b ++ c))%string.
Proof. induction a as [|x a IH]; intros b c; [reflexivity|]. cbn. rewrite IH. reflexivity. Qed.

(** The notebook a command has just written is listed, and so are all that were listed before. *)
Theorem C55_listed : forall W w base text n, wf n -> plain w = true -> has_char slash base = false ->
  is_dir (ws_dir W w) n = true -> is_file (W ++ [w; "notebooks"]) n = false ->
  exists bound, forall fuel, bound < fuel -> exists x n' l', make_notebook W fuel w base text n = (n', Ok (Some (W ++ [w; "notebooks"; x]))) /\
    wf n' /\ get_notebook_names W w n' = (n', Ok l') /\ In x l' /\
    (forall l y, snd (get_notebook_names W w n) = Ok l -> In y l -> In y l' /\ y <> x).
Proof.
  intros W w base text n Hn Hw Hb D F. destruct (C55_fresh W w base text n Hw Hb D F) as (bound & A). exists bound. intros fuel FU.
  destruct (A fuel FU) as (k & n' & M & X & L & KF & KD & _). set (x := (base ++ "-" ++ dec k ++ ".ipynb")%string) in *.
  assert (Hn' : wf n').
  { pose proof (make_notebook_wf W fuel w base text n Hn) as P. rewrite M in P. exact P. }
  assert (F' : is_file (W ++ [w; "notebooks"]) n' = false).
  { unfold is_file. destruct (lookup (W ++ [w; "notebooks"]) n') as [[s|d]|] eqn:E; try reflexivity.
    rewrite <- below in L. rewrite lookup_app, E in L. discriminate. }
  destruct (C52_notebooks W w n' Hn' Hw) as (B & _). destruct (B (KD _ D) F') as (l' & G & I & _).
  exists x, n', l'. split; [exact M|]. split; [exact Hn'|]. split; [exact G|]. split.
  - apply I. split; [exists (base ++ "-" ++ dec k)%string; unfold x; rewrite !str_assoc; reflexivity|]. unfold is_file. rewrite L. reflexivity.
  - intros l y GL Y. destruct (C52_notebooks W w n Hn Hw) as (B0 & _). destruct (B0 D F) as (l0 & G0 & I0 & _). rewrite G0 in GL. inversion GL; subst l0.
    apply I0 in Y. destruct Y as (Y1 & Y2). split.
    + apply I. split; [exact Y1|]. unfold is_file in *. destruct (lookup (W ++ [w; "notebooks"; y]) n) as [[s|d]|] eqn:E; try discriminate.
      rewrite (KF _ _ E). reflexivity.
    + intros ->. unfold is_file in Y2. unfold exists_at in X. destruct (lookup (W ++ [w; "notebooks"; x]) n); discriminate.
Qed.
Print Assumptions C55_listed.

Example C52_notebooks_example :
  let n := snd (0, fst (make_notebook ex_W 3 "b" "inspect" "{}" (fst (make_notebook ex_W 3 "b" "inspect" "{}" ex_tree)))) in
  snd (get_notebook_names ex_W "b" ex_tree) = Ok [] /\ snd (get_notebook_names ex_W "b" n) = Ok ["inspect-1.ipynb"; "inspect-2.ipynb"] /\
  snd (get_notebook_names ex_W "z" n) = Err EWs.
Proof. vm_compute. repeat split. Qed.
