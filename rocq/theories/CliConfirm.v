(** C102-C103: what the commands that remove inputs and outputs do. *)
From Coq Require Import Ascii String List Bool Arith Lia Permutation.
From Verif Require Import Common Dict FsModel FsProofs WsModel WsSpec WsProofs WsProps IoSpec IoProofs IoProps ShowProofs CliModel.
Import ListNotations.
Open Scope string_scope.
Open Scope list_scope.

(** Without confirmation no command removes anything. *)
Theorem C102_confirmation : forall W fnmatch wa ca inputs n,
  fst (ws_remove W wa false n) = n /\ fst (cf_remove W wa ca false n) = n /\
  fst (in_remove W fnmatch wa inputs false n) = n /\ fst (out_clean W fnmatch wa ca false n) = n.
Proof.
  intros W fnmatch wa ca inputs n.
  assert (K : forall wa ca, reads (known W wa ca)) by (intros; unfold known; apply reads_bind; [apply reads_ws_config|]; rd).
  repeat split.
  - revert n. change (reads (ws_remove W wa false)). unfold ws_remove. apply reads_bind; [apply reads_ws_name|]. rd.
  - revert n. change (reads (cf_remove W wa ca false)). unfold cf_remove. apply reads_bind; [apply K|]. rd.
  - revert n. change (reads (in_remove W fnmatch wa inputs false)). unfold in_remove, get_input_names. apply reads_bind; [apply reads_ws_name|]. rd.
  - revert n. change (reads (out_clean W fnmatch wa ca false)). unfold out_clean, get_output_names. apply reads_bind; [apply K|]. rd.
Qed.
Print Assumptions C102_confirmation.

(** The inputs meant by the patterns given; all when there are none *)
Definition meant (fnmatch : string -> string -> bool) (W : path) (w : string) (inputs : list string) (n : node) (x : string) : Prop :=
  ends_with ".nc" x = true /\ is_file (W ++ [w; "inputs"; x]) n = true /\
  match inputs with [] => fnmatch x "*.nc" = true | l => exists p, In p l /\ fnmatch x p = true end.

Lemma select_in : forall fnm pt l x, In x (select fnm pt l) <->
  In x l /\ match pt with PNone | PMany [] => True | POne p => fnm x p = true | PMany ps => exists p, In p ps /\ fnm x p = true end.
Proof.
  intros fnm pt l x. destruct pt as [|p|[|p ps]]; cbn [select]; try tauto.
  - rewrite filter_In. tauto.
  - rewrite in_flat_map. split.
    + intros (y & I & J). apply in_flat_map in J. destruct J as (q & Q & J). destruct (fnm y q) eqn:E; [|contradiction].
      destruct J as [<-|[]]. split; [exact I|]. exists q. auto.
    + intros (I & q & Q & E). exists x. split; [exact I|]. apply in_flat_map. exists q. rewrite E. cbn; auto.
Qed.
Lemma file_listed : forall p x n, is_file (p ++ [x]) n = true -> exists d, lookup p n = Some (NDir d) /\ In x (keys d).
Proof.
  intros p x n H. unfold is_file in H. rewrite lookup_app in H. destruct (lookup p n) as [[s|d]|]; try discriminate.
  exists d. split; [reflexivity|]. cbn [lookup] in H. destruct (dget x d) eqn:G; [|discriminate].
  destruct (in_dec string_dec x (keys d)) as [I|I]; [exact I|]. exfalso. clear H. revert G I. induction d as [|[k v] d IH]; cbn; [discriminate|].
  destruct (String.eqb_spec x k) as [->|]; intros; [apply I; auto|]. apply IH; auto.
Qed.

(** Confirmed, the inputs meant are removed, and no other file. *)
Theorem C102_command : forall W fnmatch w inputs n,
  plain w = true -> w <> "" -> (forall d x, lookup (W ++ [w; "inputs"]) n = Some (NDir d) -> In x (keys d) -> plain x = true) ->
  (forall x v, lookup (W ++ [w; "inputs"]) n = Some x -> x <> NFile v) ->
  let rm := in_remove W fnmatch (Some w) inputs true n in
  ((exists x, meant fnmatch W w inputs n x) -> exists n', rm = (n', Ok tt) /\
     forall q s, file_at n' q s <-> file_at n q s /\ ~ exists x, q = W ++ [w; "inputs"; x] /\ meant fnmatch W w inputs n x) /\
  (~ (exists x, meant fnmatch W w inputs n x) -> rm = (n, Err ECmd)).
Proof.
  intros W fnmatch w inputs n P NE PL ND rm.
  set (pt := match inputs with [] => POne "*.nc" | l => PMany l end).
  destruct (C53_inputs W fnmatch w "" pt n) as (GI & _ & IP & _). rewrite (IP P) in GI.
  assert (G : exists l, get_input_names W fnmatch w pt n = (n, Ok l) /\ forall x, In x l <-> meant fnmatch W w inputs n x).
  { rewrite GI. unfold exists_at. destruct (lookup (W ++ [w; "inputs"]) n) as [[v|d]|] eqn:L.
    - exfalso. exact (ND _ v eq_refl eq_refl).
    - unfold nc_list, bindM, look, listdir. rewrite L. cbn [need]. unfold ret. eexists. split; [reflexivity|].
      intros x. assert (A : (W ++ [w; "inputs"]) ++ [x] = W ++ [w; "inputs"; x]) by (rewrite <- app_assoc; reflexivity).
      split.
      + intros I. apply (Permutation_in _ (Permutation_sym (sort_perm _))) in I. apply select_in in I. destruct I as (I & J).
        apply filter_In in I. destruct I as (_ & I). apply andb_true_iff in I. rewrite A in I. destruct I as (I1 & I2).
        split; [exact I1|]. split; [exact I2|]. unfold pt in J. destruct inputs; exact J.
      + intros (E & F & J). apply (Permutation_in _ (sort_perm _)). apply select_in. split.
        * apply filter_In. rewrite <- A in F. split; [|now rewrite E, F]. destruct (file_listed _ _ _ F) as (d' & L' & I). rewrite L in L'. injection L' as <-. exact I.
        * unfold pt. destruct inputs; exact J.
    - exists []. split; [reflexivity|]. intros x. split; [intros []|]. intros (_ & F & _).
      assert (A : (W ++ [w; "inputs"]) ++ [x] = W ++ [w; "inputs"; x]) by (rewrite <- app_assoc; reflexivity).
      rewrite <- A in F. destruct (file_listed _ _ _ F) as (d' & L' & _). congruence. }
  destruct G as (l & G & M).
  assert (R : rm = match l with [] => (n, Err ECmd) | _ :: _ => catch is_ws (remove_inputs W w l) n end).
  { unfold rm, in_remove, get_ws_name, given. destruct (String.eqb_spec w ""); [congruence|]. fold pt. unfold bindM, ret. rewrite G. destruct l; reflexivity. }
  split.
  - intros (x0 & I0). apply M in I0. rewrite R. destruct l as [|a l]; [contradiction|].
    destruct (C102_remove_partial W w (a :: l) n) as (n' & RM & FC & _).
    + exact P.
    + apply forallb_forall. intros x I. apply M in I. destruct I as (_ & F & _).
      assert (A : (W ++ [w; "inputs"]) ++ [x] = W ++ [w; "inputs"; x]) by (rewrite <- app_assoc; reflexivity).
      rewrite <- A in F. destruct (file_listed _ _ _ F) as (d & L & K). exact (PL d x L K).
    + intros x I. apply M in I. destruct I as (_ & F & _). unfold ws_dir. rewrite <- app_assoc. cbn [app]. unfold is_dir, is_file in *.
      destruct (lookup (W ++ [w; "inputs"; x]) n) as [[]|]; congruence.
    + exists n'. unfold catch. rewrite RM. split; [reflexivity|]. intros q s. rewrite (FC q s). split.
      * intros [(_ & [])|(NI & F)]. split; [exact F|]. intros (x & -> & I). apply NI. apply in_map_iff. exists x. split; [|apply M; exact I].
        unfold ws_dir. rewrite <- app_assoc. reflexivity.
      * intros (F & NI). right. split; [|exact F]. intros I. apply in_map_iff in I. destruct I as (x & <- & I). apply NI. exists x.
        split; [unfold ws_dir; rewrite <- app_assoc; reflexivity|apply M; exact I].
  - intros N. rewrite R. destruct l as [|a l]; [reflexivity|]. exfalso. apply N. exists a. apply M. cbn; auto.
Qed.
Print Assumptions C102_command.

(** Cleaning removes all files of the outputs, also those that are not listed
    because they are no products; but only when one is listed. *)
Theorem C103_command : forall W fnmatch w c n d, plain w = true -> plain c = true -> w <> "" -> c <> "" ->
  lookup (config_dir W w c ++ ["outputs"]) n = Some (NDir d) ->
  (forall x, is_dir (config_dir W w c ++ ["outputs"; x]) n = false) ->
  let clean := out_clean W fnmatch (Some w) (Some c) true n in
  let product x := ends_with ".nc" x = true /\ is_file (config_dir W w c ++ ["outputs"; x]) n = true in
  ((exists x, product x) -> exists n', clean = (n', Ok tt) /\
     forall q s, file_at n' q s <-> file_at n q s /\ ~ exists x, q = config_dir W w c ++ ["outputs"; x]) /\
  (~ (exists x, product x) -> clean = (n, Err ECmd)).
Proof.
  intros W fnmatch w c n d Pw Pc Nw Nc L ND clean product.
  destruct (C53_inputs W fnmatch w c PNone n) as (_ & GO & _ & OP). specialize (OP Pw Pc).
  assert (OE : outputs_path W w c = config_dir W w c ++ ["outputs"]) by (rewrite outputs_path_eq, config_path_dir by assumption; reflexivity).
  rewrite OE in GO. unfold exists_at in GO. rewrite L in GO.
  assert (A : forall x, (config_dir W w c ++ ["outputs"]) ++ [x] = config_dir W w c ++ ["outputs"; x]) by (intros; rewrite <- app_assoc; reflexivity).
  assert (G : exists l, get_output_names W fnmatch w c PNone n = (n, Ok l) /\ forall x, In x l <-> product x).
  { rewrite GO. unfold nc_list, bindM, look, listdir. rewrite L. cbn [need]. unfold ret. eexists. split; [reflexivity|].
    intros x. unfold product. split.
    - intros I. apply (Permutation_in _ (Permutation_sym (sort_perm _))) in I. apply select_in in I. destruct I as (I & _).
      apply filter_In in I. destruct I as (_ & I). apply andb_true_iff in I. rewrite A in I. exact I.
    - intros (E & F). apply (Permutation_in _ (sort_perm _)). apply select_in. split; [|exact I].
      apply filter_In. rewrite <- A in F. split; [|now rewrite E, F]. destruct (file_listed _ _ _ F) as (d' & L' & J). rewrite L in L'. injection L' as <-. exact J. }
  destruct G as (l & G & M).
  assert (R : clean = match l with [] => (n, Err ECmd) | _ :: _ => catch is_ws (remove_outputs W w c) n end).
  { unfold clean, out_clean, known, get_ws_config, get_ws_name, given. destruct (String.eqb_spec w ""); [congruence|].
    destruct (String.eqb_spec c ""); [congruence|]. unfold bindM, ret. cbn [fst snd]. destruct (String.eqb_spec c ""); [congruence|]. cbv beta iota zeta.
    rewrite G. destruct l; reflexivity. }
  split.
  - intros (x0 & I0). apply M in I0. rewrite R. destruct l as [|a l]; [contradiction|].
    destruct (C103_clean_partial W w c n d Pw Pc L ND) as (n' & RM & _ & FC & _). exists n'. unfold catch. rewrite RM. split; [reflexivity|].
    intros q s. rewrite (FC q s). split.
    + intros [(_ & [])|(NI & F)]. split; [exact F|]. intros (x & ->). apply NI. apply in_map_iff. exists x. split; [reflexivity|].
      assert (F' : is_file ((config_dir W w c ++ ["outputs"]) ++ [x]) n = true) by (rewrite A; unfold is_file; unfold file_at in F; rewrite F; reflexivity).
      destruct (file_listed _ _ _ F') as (d' & L' & J). rewrite L in L'. injection L' as <-. exact J.
    + intros (F & NI). right. split; [|exact F]. intros I. apply in_map_iff in I. destruct I as (x & <- & _). apply NI. eauto.
  - intros N. rewrite R. destruct l as [|a l]; [reflexivity|]. exfalso. apply N. exists a. apply M. cbn; auto.
Qed.
Print Assumptions C103_command.

Example C102_command_example : let fnm x p := (p =? "*")%string || (x =? p)%string in exists n',
  in_remove ex_W fnm (Some "b") ["z.nc"; "*"] true ex_tree = (n', Ok tt) /\
  snd (get_input_names ex_W fnm "b" PNone ex_tree) = Ok ["a.nc"; "z.nc"] /\
  snd (get_input_names ex_W fnm "b" PNone n') = Ok [] /\
  lookup (ex_W ++ ["b"; "inputs"; "readme.txt"]) n' = lookup (ex_W ++ ["b"; "inputs"; "readme.txt"]) ex_tree /\
  in_remove ex_W fnm (Some "b") ["none.nc"] true ex_tree = (ex_tree, Err ECmd).
Proof. eexists. repeat split; vm_compute; reflexivity. Qed.
