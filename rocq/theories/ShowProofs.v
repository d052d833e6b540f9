From Coq Require Import Ascii String List Bool Arith NArith ZArith Lia Permutation DecimalNat.
From Verif Require Import Common Dict FsModel FsProofs WsModel WsSpec WsProofs NameModel CliModel CliSpec CurProofs ShowModel ShowSpec.
Import ListNotations.
Open Scope string_scope.
Open Scope list_scope.

(** * Sizes *)

Fixpoint files (n : node) : list (path * string) :=
  match n with
  | NFile s => [([], s)]
  | NDir d => (fix go (d : dict node) : list (path * string) :=
                 match d with
                 | [] => []
                 | (k, x) :: r => map (fun e => (k :: fst e, snd e)) (files x) ++ go r
                 end) d
  end.
Fixpoint files_d (d : dict node) : list (path * string) :=
  match d with
  | [] => []
  | (k, x) :: r => map (fun e => (k :: fst e, snd e)) (files x) ++ files_d r
  end.
Fixpoint size_d (d : dict node) : N :=
  match d with
  | [] => 0%N
  | (_, x) :: r => (size x + size_d r)%N
  end.
Lemma files_dir : forall d, files (NDir d) = files_d d.
Proof. intros d. induction d as [|[k x] r IH]; [reflexivity|]. cbn [files files_d] in *. rewrite <- IH. reflexivity. Qed.
Lemma size_dir : forall d, size (NDir d) = size_d d.
Proof. intros d. induction d as [|[k x] r IH]; [reflexivity|]. cbn [size size_d] in *. rewrite <- IH. reflexivity. Qed.

(** induction on trees *)
Fixpoint depth (n : node) : nat :=
  match n with
  | NFile _ => 0
  | NDir d => S ((fix go (d : dict node) : nat :=
                    match d with [] => 0 | (_, x) :: r => Nat.max (depth x) (go r) end) d)
  end.
Lemma depth_in : forall k x d, In (k, x) d -> depth x < depth (NDir d).
Proof.
  intros k x d. induction d as [|[k' y] r IH]; [intros []|]. intros [E|H].
  - injection E as -> ->. cbn [depth]. lia.
  - specialize (IH H). cbn [depth] in *. lia.
Qed.
Lemma node_ind' : forall P : node -> Prop, (forall s, P (NFile s)) ->
  (forall d, (forall k x, In (k, x) d -> P x) -> P (NDir d)) -> forall n, P n.
Proof.
  intros P HF HD. assert (H : forall m n, depth n < m -> P n).
  { induction m as [|m IH]; intros n L; [lia|]. destruct n as [s|d]; [apply HF|]. apply HD. intros k x I.
    apply IH. pose proof (depth_in k x d I). lia. }
  intros n. apply (H (S (depth n))). lia.
Qed.

Lemma weight_app : forall a b, weight (a ++ b) = (weight a + weight b)%N.
Proof. induction a as [|e a IH]; intros b; [reflexivity|]. cbn [app weight fold_right]. fold (weight (a ++ b)) (weight a). rewrite IH. lia. Qed.
Lemma weight_map : forall k l, weight (map (fun e : path * string => (k :: fst e, snd e)) l) = weight l.
Proof. induction l as [|e l IH]; [reflexivity|]. cbn [map weight fold_right snd]. fold (weight l). f_equal. exact IH. Qed.
Lemma weight_perm : forall a b, Permutation a b -> weight a = weight b.
Proof.
  intros a b H. induction H; cbn [weight fold_right] in *; try reflexivity.
  - fold (weight l) (weight l') in *. lia.
  - fold (weight l). lia.
  - congruence.
Qed.
Lemma size_files : forall n, size n = weight (files n).
Proof.
  apply node_ind'; [intros s; cbn; lia|]. intros d H. rewrite size_dir, files_dir.
  induction d as [|[k x] r IH]; [reflexivity|]. cbn [size_d files_d]. rewrite weight_app, weight_map.
  rewrite (H k x (or_introl eq_refl)), IH; [reflexivity|]. intros k' y I. apply (H k'). right. exact I.
Qed.

Lemma files_d_in : forall d p s, In (p, s) (files_d d) -> exists k q x, p = k :: q /\ In (k, x) d /\ In (q, s) (files x).
Proof.
  induction d as [|[k x] r IH]; intros p s H; [destruct H|]. cbn [files_d] in H. apply in_app_or in H as [H|H].
  - apply in_map_iff in H as ([q s'] & E & I). cbn [fst snd] in E. injection E as <- <-. exists k, q, x. cbn. auto.
  - destruct (IH _ _ H) as (k' & q & y & E & I & J). exists k', q, y. cbn. auto.
Qed.
Lemma files_d_of : forall d k x q s, In (k, x) d -> In (q, s) (files x) -> In (k :: q, s) (files_d d).
Proof.
  induction d as [|[k' y] r IH]; intros k x q s I J; [destruct I|]. cbn [files_d]. apply in_or_app. destruct I as [E|I].
  - injection E as -> ->. left. apply in_map_iff. exists (q, s). auto.
  - right. apply (IH k x); assumption.
Qed.
Lemma nodup_app : forall A (l l' : list A), NoDup l -> NoDup l' -> (forall x, In x l -> ~ In x l') -> NoDup (l ++ l').
Proof.
  intros A l l' H H' D. induction H as [|x l N H IH]; [exact H'|]. cbn [app]. constructor.
  - intros I. apply in_app_or in I as [I|I]; [exact (N I)|]. apply (D x); [left; reflexivity|exact I].
  - apply IH. intros y I. apply D. right. exact I.
Qed.
Lemma append_assoc_s : forall a b c : string, ((a ++ b) ++ c)%string = (a ++ b ++ c)%string.
Proof. induction a as [|x a IH]; intros b c; [reflexivity|]. cbn. f_equal. apply IH. Qed.
Lemma files_lookup : forall n, wf n -> enumerates n (files n).
Proof.
  apply (node_ind' (fun n => wf n -> enumerates n (files n))).
  - intros s _. split; [cbn; constructor; [intros []|constructor]|]. intros p s'. cbn [files In]. destruct p as [|c p]; cbn [lookup]; split.
    + intros [E|[]]. injection E as <-. reflexivity.
    + intros E. injection E as <-. auto.
    + intros [E|[]]. discriminate.
    + discriminate.
  - intros d IH Wf. assert (D : is_dict d) by (apply (Wf [] d); reflexivity).
    assert (Ch : forall k x, In (k, x) d -> enumerates x (files x)).
    { intros k x I. apply (IH k x I). apply (wf_child k d x Wf). apply dget_in; assumption. }
    rewrite files_dir. split.
    + clear Wf IH. unfold is_dict, keys in D. induction d as [|[k x] r IHd]; [constructor|]. cbn [files_d map fst] in *.
      apply NoDup_cons_iff in D as [Nk D]. rewrite map_app. 
      assert (Dj : NoDup (map fst (map (fun e : path * string => (k :: fst e, snd e)) (files x)))).
      { rewrite map_map. cbn [fst]. rewrite <- (map_map fst (cons k)). apply FinFun.Injective_map_NoDup; [intros a b E; injection E as E; exact E|].
        apply (Ch k x). left. reflexivity. }
      assert (Rj : NoDup (map fst (files_d r))) by (apply IHd; [exact D|intros k' y I; apply (Ch k'); right; exact I]).
      assert (Sep : forall p, In p (map fst (map (fun e : path * string => (k :: fst e, snd e)) (files x))) -> ~ In p (map fst (files_d r))).
      { intros p I J. apply in_map_iff in I as ([p1 s1] & E1 & I). apply in_map_iff in I as ([p2 s2] & E2 & _). cbn [fst snd] in *.
        injection E2 as <- <-. subst p. apply in_map_iff in J as ([p3 s3] & E3 & J). cbn [fst] in E3. subst p3.
        destruct (files_d_in r _ _ J) as (k' & q & y & E & I' & _). injection E as <- <-. apply Nk.
        apply in_map_iff. exists (k, y). auto. }
      apply nodup_app; assumption.
    + intros p s. split.
      * intros H. destruct (files_d_in d p s H) as (k & q & x & -> & I & J). cbn [lookup].
        rewrite (dget_in k x d D I). apply (Ch k x I). exact J.
      * destruct p as [|k q]; cbn [lookup]; [discriminate|]. destruct (dget k d) as [x|] eqn:G; [|discriminate].
        intros H. pose proof (dget_some_in k x d G) as I. apply (files_d_of d k x q s I). apply (Ch k x I). exact H.
Qed.

Lemma nodup_pairs : forall l : list (path * string), NoDup (map fst l) -> NoDup l.
Proof. intros l H. apply (NoDup_map_inv fst). exact H. Qed.
Lemma enumerates_perm : forall n l l', enumerates n l -> enumerates n l' -> Permutation l l'.
Proof.
  intros n l l' [A B] [A' B']. apply NoDup_Permutation; [apply nodup_pairs; exact A|apply nodup_pairs; exact A'|].
  intros [p s]. rewrite B, B'. reflexivity.
Qed.
Lemma size_weight : forall n l, wf n -> enumerates n l -> size n = weight l.
Proof. intros n l H E. rewrite size_files. apply weight_perm. apply (enumerates_perm n); [apply files_lookup; exact H|exact E]. Qed.
Lemma weighs_size : forall p n x, wf n -> lookup p n = Some x -> forall t, weighs p n t <-> t = size x.
Proof.
  intros p n x Wf L t. assert (Wx : wf x) by (apply (wf_lookup p n x Wf L)). split.
  - intros (y & l & Ly & E & <-). rewrite L in Ly. injection Ly as <-. symmetry. apply size_weight; assumption.
  - intros ->. exists x, (files x). split; [exact L|]. split; [apply files_lookup; exact Wx|]. symmetry. apply size_files.
Qed.

Lemma wf_build : forall d, is_dict d -> Forall wf (map snd d) -> wf (NDir d).
Proof.
  intros d D F q d' H. destruct q as [|k q]; cbn [lookup] in H; [injection H as <-; exact D|].
  destruct (dget k d) as [x|] eqn:G; [|discriminate]. rewrite Forall_forall in F.
  apply (F x) with (q := q); [|exact H]. apply in_map_iff. exists (k, x). split; [reflexivity|apply dget_some_in; exact G].
Qed.

(** * Sizes after changes *)

Definition osize (o : option node) : N := match o with Some x => size x | None => 0%N end.
Lemma size_dset : forall c v d, is_dict d -> (size_d (dset c v d) + osize (dget c d) = size_d d + size v)%N.
Proof.
  intros c v. induction d as [|[k x] r IH]; intros D; [cbn; lia|]. cbn [dset dget].
  apply NoDup_cons_iff in D as [_ D]. destruct (c =? k)%string; cbn [size_d osize]; [lia|]. specialize (IH D). lia.
Qed.
Lemma ddel_out : forall c (d : dict node), ~ In c (keys d) -> ddel c d = d.
Proof.
  intros c. induction d as [|[k x] r IH]; intros H; [reflexivity|]. unfold ddel in *. cbn [filter fst keys map] in *.
  destruct (c =? k)%string eqn:E; cbn [negb].
  - exfalso. apply H. left. apply String.eqb_eq in E. symmetry. exact E.
  - f_equal. apply IH. intros I. apply H. right. exact I.
Qed.
Lemma size_ddel : forall c d, is_dict d -> (size_d (ddel c d) + osize (dget c d) = size_d d)%N.
Proof.
  intros c. induction d as [|[k x] r IH]; intros D; [reflexivity|]. apply NoDup_cons_iff in D as [Nk D].
  cbn [dget]. destruct (c =? k)%string eqn:E.
  - apply String.eqb_eq in E. subst k. unfold ddel. cbn [filter fst]. rewrite String.eqb_refl. cbn [negb].
    fold (ddel c r). rewrite (ddel_out c r Nk). cbn [osize size_d]. lia.
  - unfold ddel. cbn [filter fst]. rewrite E. cbn [negb size_d]. fold (ddel c r). specialize (IH D). lia.
Qed.
Lemma size_put1 : forall c v d, is_dict d -> (size_d (put1 c v d) + osize (dget c d) = size_d d + osize v)%N.
Proof. intros c [v|] d D; cbn [put1 osize]; [apply size_dset; exact D|rewrite N.add_0_r; apply size_ddel; exact D]. Qed.
Lemma size_write : forall mk p v n n', wf n -> write mk p v n = Some n' -> (size n' + osize (lookup p n) = size n + osize v)%N.
Proof.
  intros mk p. induction p as [|c r IH]; intros v n n' Wf H.
  - cbn in H. subst v. cbn. lia.
  - destruct (write_cons _ _ _ _ _ _ H) as (d & v' & -> & -> & C). rewrite !size_dir. cbn [lookup].
    assert (D : is_dict d) by (apply (Wf [] d); reflexivity). pose proof (size_put1 c v' d D) as P.
    destruct C as [[-> ->]|[Hr (ch & ch' & -> & G & Hw)]].
    + destruct (dget c d); exact P.
    + destruct G as [G|(G & _ & ->)]; rewrite G in P |- *; cbn [osize] in *.
      * specialize (IH _ _ _ (wf_child c d ch Wf G) Hw). lia.
      * specialize (IH _ _ _ wf_nil Hw). rewrite (lookup_nil_dir r Hr) in IH. cbn [osize size] in *. lia.
Qed.
Lemma sub_write : forall mk p q v n n' x, q <> [] -> lookup p n = Some x -> write mk (p ++ q) v n = Some n' ->
  exists x', lookup p n' = Some x' /\ write mk q v x = Some x'.
Proof.
  intros mk p. induction p as [|c r IH]; intros q v n n' x Hq L H.
  - cbn in L, H. injection L as <-. exists n'. auto.
  - cbn [app] in H. destruct (write_cons _ _ _ _ _ _ H) as (d & v' & -> & -> & C). cbn [lookup] in L |- *.
    destruct (dget c d) as [ch|] eqn:G; [|discriminate]. rewrite dget_put1, String.eqb_refl.
    destruct C as [[E _]|[_ (ch0 & ch' & -> & G' & Hw)]]; [apply app_eq_nil in E as [_ E]; congruence|].
    destruct G' as [G'|[G' _]]; [|congruence]. injection G' as <-. apply (IH q v ch ch' x Hq L Hw).
Qed.
(** a change below the directory [W] *)
Lemma dir_size_write : forall mk W q v n n' d, wf n -> q <> [] -> lookup W n = Some (NDir d) -> write mk (W ++ q) v n = Some n' ->
  exists d', lookup W n' = Some (NDir d') /\ (size (NDir d') + osize (lookup (W ++ q) n) = size (NDir d) + osize v)%N.
Proof.
  intros mk W q v n n' d Wf Hq L H. destruct (sub_write mk W q v n n' _ Hq L H) as (x' & L' & Hw).
  destruct q as [|c r]; [congruence|]. destruct (write_cons _ _ _ _ _ _ Hw) as (d0 & v' & _ & E & _). subst x'.
  eexists. split; [exact L'|]. rewrite lookup_app, L. apply (size_write mk); [apply (wf_lookup W n _ Wf L)|exact Hw].
Qed.

(** * Lists *)

Lemma pad3_numbers : forall i x, numbers i x (pad3 i ++ ": " ++ x)%string.
Proof.
  intros i x. unfold numbers, pad3. destruct (String.length (dec i)) as [|[|[|k]]] eqn:E.
  - exfalso. assert (H : dec i = ""). { destruct (dec i); [reflexivity|discriminate]. }
    revert H. unfold dec. destruct (Nat.to_uint i) eqn:U; cbn; try discriminate.
    intros _. pose proof (DecimalNat.Unsigned.of_to i) as O. rewrite U in O. cbn in O. subst i. discriminate U.
  - exists "  ". rewrite append_assoc_s. cbn. auto.
  - exists " ". rewrite append_assoc_s. cbn. auto.
  - exists "". cbn [String.append blanks String.length]. split; [reflexivity|]. split; [exact I|]. lia.
Qed.
Lemma lines_shows : forall l i, List.length (lines_from i l) = List.length l /\
  forall k x, nth_error l k = Some x -> exists t, nth_error (lines_from i l) k = Some t /\ numbers (i + k) x t.
Proof.
  induction l as [|y l IH]; intros i; [split; [reflexivity|intros [|k] x H; discriminate]|].
  destruct (IH (S i)) as [A B]. split; [cbn; rewrite A; reflexivity|]. intros [|k] x H; cbn [nth_error lines_from] in *.
  - injection H as <-. eexists. split; [reflexivity|]. rewrite Nat.add_0_r. apply pad3_numbers.
  - destruct (B k x H) as (t & Ht & Nt). exists t. split; [exact Ht|]. replace (i + S k) with (S i + k) by lia. exact Nt.
Qed.
Lemma listing_shows : forall a b c l, exists h r, listing a b c l = h :: r /\ shows l r /\
  h = match l with [] => a | [_] => ("1 " ++ b)%string | _ => (dec (List.length l) ++ " " ++ c)%string end.
Proof.
  intros a b c l. unfold listing. eexists. eexists. split; [reflexivity|]. split; [|destruct l as [|x [|y l]]; reflexivity].
  destruct (lines_shows l 1) as [A B]. split; [exact A|exact B].
Qed.
Lemma append_len_inj : forall a b x y : string, String.length a = String.length b -> (a ++ x)%string = (b ++ y)%string -> x = y.
Proof. induction a as [|c a IH]; intros [|c' b] x y L H; cbn in *; try discriminate; [exact H|]. injection H as _ H. injection L as L. apply (IH b); assumption. Qed.
Lemma numbers_inj : forall i x y l, numbers i x l -> numbers i y l -> x = y.
Proof.
  intros i x y l (b & E & _ & L) (b' & E' & _ & L'). subst l. apply append_len_inj in E'; [|lia].
  apply append_inj_l in E'. apply append_inj_l in E'. exact E'.
Qed.
Lemma shows_inj : forall l l' t, shows l t -> shows l' t -> l = l'.
Proof.
  intros l l' t [A B] [A' B']. assert (N : List.length l = List.length l') by congruence.
  assert (H : forall i, nth_error l i = nth_error l' i).
  { intros i. destruct (nth_error l i) as [x|] eqn:X; destruct (nth_error l' i) as [y|] eqn:Y; try reflexivity.
    - destruct (B i x X) as (s & Hs & Ns). destruct (B' i y Y) as (s' & Hs' & Ns'). f_equal.
      apply (numbers_inj (S i) x y s); [exact Ns|]. congruence.
    - exfalso. apply nth_error_None in Y. assert (i < List.length l) by (apply nth_error_Some; congruence). lia.
    - exfalso. apply nth_error_None in X. assert (i < List.length l') by (apply nth_error_Some; congruence). lia. }
  clear - H. revert l' H. induction l as [|x l IH]; intros [|y l'] H; [reflexivity|specialize (H 0); discriminate|specialize (H 0); discriminate|].
  pose proof (H 0) as E. injection E as <-. f_equal. apply IH. intros i. apply (H (S i)).
Qed.

(** * Nothing is changed *)

Definition reads {A} (m : M A) : Prop := forall n, fst (m n) = n.
Lemma reads_ret : forall A (a : A), reads (ret a).
Proof. intros A a n. reflexivity. Qed.
Lemma reads_fail : forall A e, reads (@fail A e).
Proof. intros A e n. reflexivity. Qed.
Lemma reads_look : forall A (f : node -> A), reads (look f).
Proof. intros A f n. reflexivity. Qed.
Lemma reads_need : forall A e (o : option A), reads (need e o).
Proof. intros A e [a|] n; reflexivity. Qed.
Lemma reads_bind : forall A B (m : M A) (f : A -> M B), reads m -> (forall a, reads (f a)) -> reads (bindM m f).
Proof.
  intros A B m f H K n. unfold bindM. specialize (H n). destruct (m n) as [n' [a|e]]; cbn [fst] in H; subst n'; [apply K|reflexivity].
Qed.
Lemma reads_then : forall A B (m : M A) (k : M B), reads m -> reads k -> reads (thenM m k).
Proof. intros A B m k H K. apply reads_bind; [exact H|intros _; exact K]. Qed.
Lemma reads_if : forall A (b : bool) (m k : M A), reads m -> reads k -> reads (if b then m else k).
Proof. intros A [] m k H K; assumption. Qed.
Ltac rd := repeat first
  [ progress intros
  | apply reads_bind | apply reads_then | apply reads_ret | apply reads_fail | apply reads_look | apply reads_need | apply reads_if
  | match goal with |- reads (match ?x with _ => _ end) => destruct x end ].

Section Reads.
Variable W : path.
Variable fnmatch : string -> string -> bool.
Variable version : string -> option Z.
Variables location W_text error_text : string.
Lemma reads_subdirs : forall p, reads (subdirs p).
Proof. intros p. unfold subdirs. rd. Qed.
Lemma reads_ws_names : reads (get_ws_names W).
Proof. unfold get_ws_names. rd. Qed.
Lemma reads_current : reads (get_current W).
Proof. unfold get_current, readline_at. rd. Qed.
Lemma reads_assert_ws : forall w, reads (assert_ws W w).
Proof. unfold assert_ws. rd. Qed.
Lemma reads_current_config : forall w, reads (get_current_config W w).
Proof. unfold get_current_config, readline_at. rd. Qed.
Lemma reads_ws_name : forall wa, reads (get_ws_name W wa).
Proof. unfold get_ws_name. rd. Qed.
Lemma reads_ws_config : forall wa ca, reads (get_ws_config W wa ca).
Proof. unfold get_ws_config. rd; try apply reads_ws_name. Qed.
Lemma reads_config_names : forall w, reads (get_config_names W w).
Proof. unfold get_config_names. rd; try apply reads_ws_name; try apply reads_ws_config; try apply reads_current_config; try apply reads_ws_names; try apply reads_current. Qed.
Lemma reads_nc_list : forall p pt, reads (nc_list fnmatch p pt).
Proof. unfold nc_list. rd; try apply reads_ws_name; try apply reads_ws_config; try apply reads_current_config; try apply reads_ws_names; try apply reads_current. Qed.
Lemma reads_ws_list : reads (ws_list W).
Proof. unfold ws_list. rd; try apply reads_ws_name; try apply reads_ws_config; try apply reads_current_config; try apply reads_ws_names; try apply reads_current. Qed.
Lemma reads_cf_list : forall wa, reads (cf_list W wa).
Proof. unfold cf_list. rd; try apply reads_ws_name; try apply reads_ws_config; try apply reads_current_config; try apply reads_ws_names; try apply reads_current. Qed.
Lemma reads_in_list : forall wa pt, reads (in_list W fnmatch wa pt).
Proof. unfold in_list, get_input_names. rd; try apply reads_ws_name; try apply reads_ws_config; try apply reads_current_config; try apply reads_ws_names; try apply reads_current. Qed.
Lemma reads_out_list : forall wa ca pt, reads (out_list W fnmatch wa ca pt).
Proof. unfold out_list, get_output_names. rd; try apply reads_ws_name; try apply reads_ws_config; try apply reads_current_config; try apply reads_ws_names; try apply reads_current. Qed.
Lemma reads_cf_version : forall wa ca, reads (cf_version W version wa ca).
Proof. unfold cf_version, get_version. rd; try apply reads_ws_name; try apply reads_ws_config; try apply reads_current_config; try apply reads_ws_names; try apply reads_current. Qed.
Lemma reads_status : forall long, reads (status W location W_text error_text long).
Proof. unfold status. rd; try apply reads_ws_name; try apply reads_ws_config; try apply reads_current_config; try apply reads_ws_names; try apply reads_current. Qed.

(** * The status *)

Lemma given_marked : forall B n, exists o, option_map readline (read_file (B ++ [".current"]) n) = o /\
  match given o with Some x => marked B n x | None => unmarked B n end.
Proof.
  intros B n. eexists. split; [reflexivity|]. unfold read_file, unmarked, marked.
  destruct (lookup (B ++ [".current"]) n) as [[t|d]|] eqn:L; cbn [option_map given].
  - destruct (readline t =? "")%string eqn:E.
    + apply String.eqb_eq in E. intros x (t' & Lt & R & Nx). injection Lt as <-. congruence.
    + apply String.eqb_neq in E. exists t. auto.
  - intros x (t' & Lt & _). discriminate.
  - intros x (t' & Lt & _). discriminate.
Qed.
Lemma status_sound : forall n long, wf n -> sound W n -> exists_at W n = true ->
  exists names t w c, lists (fun x => is_dir (W ++ [x]) n = true) names /\ weighs W n t /\ selection W n w c /\
    status W location W_text error_text long n =
    (n, Ok ((if long then ["warning: option ""--long"" not yet supported"] else []) ++
            report location W_text (decN (mebi t) ++ " MiB") (match names with [] => "(not set)" | _ => commas names end) w c)).
Proof.
  intros n long Wf [[T V] K] Ex.
  assert (D : is_dir W n = true).
  { destruct T as [T _]. unfold is_dir, is_file, exists_at in *. destruct (lookup W n) as [[]|]; congruence. }
  destruct (subdirs_spec W n Wf D) as (names & Sd & Ls).
  destruct (lookup W n) as [[s|d]|] eqn:L; [unfold is_dir in D; rewrite L in D; discriminate| |unfold is_dir in D; rewrite L in D; discriminate].
  assert (Sz : dir_size W n = Some (size (NDir d))) by (unfold dir_size; rewrite L; reflexivity).
  destruct (given_marked W n) as (o & Eo & Mo).
  assert (Cur : get_current W n = (n, Ok o)).
  { unfold get_current, readline_at, look. rewrite current_file_eq, Eo. reflexivity. }
  assert (Ns : get_ws_names W n = (n, Ok names)).
  { unfold get_ws_names, bindM, look. rewrite Ex. exact Sd. }
  assert (Wt : weighs W n (size (NDir d))) by (apply (weighs_size W n (NDir d) Wf L); reflexivity).
  destruct (given o) as [w|] eqn:G.
  - destruct Mo as (t & Lt & Rt & Nw).
    assert (Dw : is_dir (W ++ [w]) n = true).
    { destruct (V t Lt) as [E|E]; rewrite Rt in E; [congruence|exact E]. }
    assert (Ow : ordinary w = true) by (apply (dir_ordinary W w n T Dw)).
    assert (Pw : plain w = true) by (apply ordinary_plain; exact Ow).
    destruct (given_marked (W ++ [w; "configs"]) n) as (oc & Ec & Mc).
    assert (CurC : get_current_config W w n = (n, Ok oc)).
    { unfold get_current_config, thenM, bindM, assert_ws, look, readline_at. unfold bindM, look.
      rewrite (ws_path_plain W w Pw). unfold ws_dir. rewrite (is_dir_exists _ _ Dw). unfold ret.
      rewrite current_config_file_eq, configs_path_eq, (ws_path_plain W w Pw). unfold ws_dir.
      replace ((W ++ [w]) ++ ["configs"]) with (W ++ [w; "configs"]) by (rewrite <- app_assoc; reflexivity). rewrite Ec. reflexivity. }
    exists names, (size (NDir d)), w, (match given oc with Some c => c | None => "(not set)" end).
    split; [exact Ls|]. split; [exact Wt|]. split.
    + right. split; [exists t; auto|]. split; [exact Dw|]. destruct (given oc) as [c|] eqn:Gc; [|left; auto]. right. split; [exact Mc|].
      destruct Mc as (tc & Lc & Rc & Nc). destruct (K w Ow) as [_ Vc]. destruct (Vc tc Lc) as [E|E]; rewrite Rc in E; [congruence|].
      rewrite <- app_assoc in E. exact E.
    + unfold status, bindM, look. rewrite Ex, Ns, Cur, G, CurC. cbv beta iota. unfold ret. rewrite Sz. reflexivity.
  - exists names, (size (NDir d)), "(not set)", "(not set)". split; [exact Ls|]. split; [exact Wt|]. split; [left; auto|].
    unfold status, bindM, look. rewrite Ex, Ns, Cur, G. cbv beta iota. unfold ret. rewrite Sz. reflexivity.
Qed.
End Reads.

(** * What copying, deleting and renaming a workspace do to the size *)

Section Sizes.
Variable W : path.
Lemma base_of : forall w n x, lookup (W ++ [w]) n = Some x -> exists d, lookup W n = Some (NDir d).
Proof.
  intros w n x H. rewrite lookup_app in H. destruct (lookup W n) as [[s|d]|]; [discriminate|eexists; reflexivity|discriminate].
Qed.
Lemma copy_size : forall w w' n n' t s, wf n -> plain w = true -> plain w' = true -> copy_ws W w w' n = (n', Ok tt) ->
  weighs W n t -> weighs (W ++ [w]) n s -> weighs W n' (t + s).
Proof.
  intros w w' n n' t s Wf Hw Hw' H T S. rewrite copy_ws_eq in H by assumption.
  destruct S as (x & lx & Lx & Ex & Sx). destruct (base_of w n x Lx) as (d & Ld).
  assert (Wn' : wf n'). { unfold ws_dir in H.
    destruct (exists_at (W ++ [w]) n); [|discriminate]. unfold fs in H. destruct (copytree (W ++ [w]) (W ++ [w']) n) as [m|] eqn:C; [|discriminate].
    injection H as <-. apply (copytree_wf (W ++ [w]) (W ++ [w']) n m); assumption. }
  unfold ws_dir in H. destruct (exists_at (W ++ [w]) n); [|discriminate]. unfold fs in H.
  destruct (copytree (W ++ [w]) (W ++ [w']) n) as [m|] eqn:C; [|discriminate]. injection H as <-.
  unfold copytree in C. rewrite Lx in C. destruct x as [c|dx]; [discriminate|].
  destruct (exists_at (W ++ [w']) n) eqn:E'; [discriminate|].
  destruct (dir_size_write true W [w'] _ n m d Wf ltac:(discriminate) Ld C) as (d' & Ld' & Sz).
  assert (Nl : lookup (W ++ [w']) n = None) by (unfold exists_at in E'; destruct (lookup (W ++ [w']) n); congruence).
  rewrite Nl in Sz. cbn [osize] in Sz. apply (weighs_size W m _ Wn' Ld').
  apply (weighs_size W n _ Wf Ld) in T. subst t s. rewrite (size_weight (NDir dx) lx) in Sz; [lia| |exact Ex].
  apply (wf_lookup _ _ _ Wf Lx).
Qed.
Lemma delete_size : forall w n n' t s, wf n -> plain w = true -> delete_ws W w n = (n', Ok tt) ->
  weighs W n t -> weighs (W ++ [w]) n s -> exists r, weighs W n' r /\ (r + s = t)%N.
Proof.
  intros w n n' t s Wf Hw H T S. rewrite delete_ws_eq in H by assumption.
  destruct S as (x & lx & Lx & Ex & Sx). destruct (base_of w n x Lx) as (d & Ld). unfold ws_dir in H.
  destruct (exists_at (W ++ [w]) n); [|discriminate]. unfold fs in H.
  destruct (rmtree (W ++ [w]) n) as [m|] eqn:C; [|discriminate]. injection H as <-.
  assert (Wm : wf m) by (apply (rmtree_wf (W ++ [w]) n m); assumption).
  unfold rmtree in C. destruct (is_dir (W ++ [w]) n); [|discriminate].
  destruct (dir_size_write false W [w] _ n m d Wf ltac:(discriminate) Ld C) as (d' & Ld' & Sz).
  exists (size (NDir d')). split; [apply (weighs_size W m _ Wm Ld'); reflexivity|].
  rewrite Lx in Sz. cbn [osize] in Sz. apply (weighs_size W n _ Wf Ld) in T. subst t s.
  rewrite <- (size_weight x lx); [lia| |exact Ex]. apply (wf_lookup _ _ _ Wf Lx).
Qed.
(** two writes: the content appears at [q'] and disappears at [q] *)
Lemma swap_size : forall mk q q' x n n1 n2 d, wf n -> q <> [] -> q' <> [] -> apart (W ++ q) (W ++ q') -> lookup W n = Some (NDir d) ->
  lookup (W ++ q) n = Some x -> osize (lookup (W ++ q') n) = 0%N ->
  write mk (W ++ q') (Some x) n = Some n1 -> write false (W ++ q) None n1 = Some n2 ->
  exists d2, lookup W n2 = Some (NDir d2) /\ size (NDir d2) = size (NDir d).
Proof.
  intros mk q q' x n n1 n2 d Wf Hq Hq' A Ld Lx Z H1 H2.
  destruct (dir_size_write mk W q' _ n n1 d Wf Hq' Ld H1) as (d1 & Ld1 & S1).
  assert (W1 : wf n1) by (apply (wf_write _ _ _ _ _ Wf) with (2 := H1); intros y E; injection E as <-; apply (wf_lookup _ _ _ Wf Lx)).
  destruct (dir_size_write false W q _ n1 n2 d1 W1 Hq Ld1 H2) as (d2 & Ld2 & S2).
  exists d2. split; [exact Ld2|]. rewrite (write_other _ _ _ _ _ _ H1 (apart_sym _ _ A)), Lx in S2. cbn [osize] in *. lia.
Qed.
Lemma os_rename_size : forall q q' n m d, wf n -> q <> [] -> q' <> [] -> lookup W n = Some (NDir d) -> is_dir (W ++ q) n = true ->
  is_prefix (W ++ q') (W ++ q) = false \/ q = q' ->
  os_rename (W ++ q) (W ++ q') n = Some m -> exists d2, lookup W m = Some (NDir d2) /\ size (NDir d2) = size (NDir d).
Proof.
  intros q q' n m d Wf Hq Hq' Ld Dx A H. unfold os_rename in H. unfold is_dir in Dx.
  destruct (lookup (W ++ q) n) as [[c|dx]|] eqn:Lx; try discriminate.
  destruct (path_eqb (W ++ q) (W ++ q')) eqn:E; [injection H as <-; eauto|].
  destruct (is_prefix (W ++ q) (W ++ q')) eqn:P; [discriminate|].
  destruct A as [A| ->]; [|rewrite is_prefix_refl in P; discriminate].
  assert (Z : osize (lookup (W ++ q') n) = 0%N /\ exists n1, write false (W ++ q') (Some (NDir dx)) n = Some n1 /\ write false (W ++ q) None n1 = Some m).
  { destruct (lookup (W ++ q') n) as [[c'|[|e r]]|]; try discriminate;
      (destruct (write false (W ++ q') (Some (NDir dx)) n) as [n1|] eqn:H1; [|discriminate]); (split; [reflexivity|eauto]). }
  destruct Z as [Z (n1 & H1 & H2)].
  apply (swap_size false q q' (NDir dx) n n1 m d); auto. split; assumption.
Qed.
Lemma rename_size : forall w w' n n' t, wf n -> plain w = true -> plain w' = true -> is_dir (W ++ [w]) n = true ->
  rename_ws W w w' n = (n', Ok tt) -> weighs W n t -> weighs W n' t.
Proof.
  intros w w' n n' t Wf Hw Hw' Dw H T. rewrite rename_ws_eq in H by assumption. unfold ws_dir in H.
  assert (Ew := is_dir_exists _ _ Dw). rewrite Ew in H. unfold fs in H.
  destruct (move (W ++ [w]) (W ++ [w']) n) as [m|] eqn:Mv; [|discriminate]. injection H as <-.
  assert (Wm : wf m) by (apply (move_wf (W ++ [w]) (W ++ [w']) n m); assumption).
  destruct (lookup (W ++ [w]) n) as [x|] eqn:Lx; [|unfold is_dir in Dw; rewrite Lx in Dw; discriminate].
  destruct (base_of w n x Lx) as (d & Ld).
  enough (G : exists d2, lookup W m = Some (NDir d2) /\ size (NDir d2) = size (NDir d)).
  { destruct G as (d2 & L2 & S2). apply (weighs_size W m _ Wm L2). rewrite S2. apply (weighs_size W n _ Wf Ld). exact T. }
  unfold move in Mv. rewrite Lx in Mv. cbv zeta in Mv.
  destruct (is_dir (W ++ [w']) n && path_eqb (W ++ [w]) (W ++ [w']))%bool eqn:Sm.
  - apply andb_prop in Sm as [_ Sm]. apply path_eqb_eq in Sm. apply app_inv_head in Sm. injection Sm as <-.
    apply (os_rename_size [w] [w] n m d); auto; discriminate.
  - set (q' := if is_dir (W ++ [w']) n then [w'; w] else [w']).
    assert (Q : (if is_dir (W ++ [w']) n then (W ++ [w']) ++ [last (W ++ [w]) ""] else W ++ [w']) = W ++ q').
    { unfold q'. destruct (is_dir (W ++ [w']) n); [|reflexivity]. rewrite last_snoc, <- app_assoc. reflexivity. }
    rewrite Q in Mv.
    destruct (is_dir (W ++ [w']) n && exists_at (W ++ q') n)%bool eqn:Tk; [discriminate|].
    assert (Nq : q' <> []) by (unfold q'; destruct (is_dir (W ++ [w']) n); discriminate).
    destruct (string_dec w w') as [->|Ne].
    + assert (Dx : is_dir (W ++ [w']) n = true) by exact Dw. rewrite Dx in Sm.
      assert (R : path_eqb (W ++ [w']) (W ++ [w']) = true) by (apply path_eqb_eq; reflexivity). rewrite R in Sm. discriminate.
    + assert (A : apart (W ++ [w]) (W ++ q')).
      { unfold q'. destruct (is_dir (W ++ [w']) n); apply (apart_siblings W w w' []); congruence. }
      destruct (os_rename (W ++ [w]) (W ++ q') n) as [m'|] eqn:R.
      * injection Mv as <-. apply (os_rename_size [w] q' n m' d); auto; [discriminate|]. left. apply A.
      * rewrite Dw in Mv. destruct (is_prefix (W ++ [w]) (W ++ q')); [discriminate|].
        destruct (copytree (W ++ [w]) (W ++ q') n) as [n1|] eqn:C; [|discriminate].
        unfold copytree in C. rewrite Lx in C. destruct x as [c|dx]; [discriminate|].
        destruct (exists_at (W ++ q') n) eqn:Eq; [discriminate|].
        unfold rmtree in Mv. destruct (is_dir (W ++ [w]) n1); [|discriminate].
        apply (swap_size true [w] q' (NDir dx) n n1 m d); auto; [discriminate|].
        unfold exists_at in Eq. destruct (lookup (W ++ q') n); [discriminate|reflexivity].
Qed.
End Sizes.

(** * Trees stay well-formed in a session *)

Lemma reads_wf : forall A (m : M A), reads m -> keeps_wf m.
Proof. intros A m H n Wn. rewrite (H n). exact Wn. Qed.
Lemma keeps_catch : forall A sel (m : M A), keeps_wf m -> keeps_wf (catch sel m).
Proof. intros A sel m H n Wn. unfold catch. specialize (H n Wn). destruct (m n) as [n' [a|e]]; exact H. Qed.
Section Wf.
Variable W : path.
Variable resource : bool -> string -> string.
Variable upg : string -> string -> option string.
Variable fnmatch : string -> string -> bool.
Variable newer : string -> string -> option bool.
Variable cwd : path.
Let kop : forall o, keeps_wf (exec W resource upg o) := exec_wf W resource upg.
Lemma kw_create_ws : forall w, keeps_wf (create_ws W w). Proof. intros w. exact (kop (OCreate w)). Qed.
Lemma kw_set_current : forall w, keeps_wf (set_current W w). Proof. intros w. exact (kop (OSetCurrent w)). Qed.
Lemma kw_delete_ws : forall w, keeps_wf (delete_ws W w). Proof. intros w. exact (kop (ODelete w)). Qed.
Lemma kw_copy_ws : forall w v, keeps_wf (copy_ws W w v). Proof. intros w v. exact (kop (OCopy w v)). Qed.
Lemma kw_rename_ws : forall w v, keeps_wf (rename_ws W w v). Proof. intros w v. exact (kop (ORename w v)). Qed.
Lemma kw_create_config : forall w c b, keeps_wf (create_config W resource w c b). Proof. intros w c b. exact (kop (OCreateConfig w c b)). Qed.
Lemma kw_delete_config : forall w c, keeps_wf (delete_config W w c). Proof. intros w c. exact (kop (ODeleteConfig w c)). Qed.
Lemma kw_copy_config : forall w c v, keeps_wf (copy_config W w c v). Proof. intros w c v. exact (kop (OCopyConfig w c v)). Qed.
Lemma kw_rename_config : forall w c v, keeps_wf (rename_config W w c v). Proof. intros w c v. exact (kop (ORenameConfig w c v)). Qed.
Lemma kw_set_config : forall w c, keeps_wf (set_current_config W w c). Proof. intros w c. exact (kop (OSetCurrentConfig w c)). Qed.
Lemma kw_upgrade : forall w c, keeps_wf (upgrade_all_config W upg w c). Proof. intros w c. exact (kop (OUpgradeConfig w c)). Qed.
Ltac keeps :=
  match goal with
  | |- keeps_wf (ret _) => apply keeps_ret
  | |- keeps_wf (fail _) => apply keeps_fail
  | |- keeps_wf (look _) => apply keeps_look
  | |- keeps_wf (need _ _) => apply keeps_need
  | |- keeps_wf (thenM _ _) => apply keeps_then
  | |- keeps_wf (if _ then _ else _) => apply keeps_if
  | |- keeps_wf (bindM _ _) => apply keeps_bind; [|intro]
  end.
Ltac kw := repeat first
  [ progress intros
  | apply kw_create_ws | apply kw_set_current | apply kw_delete_ws | apply kw_copy_ws | apply kw_rename_ws
  | apply kw_create_config | apply kw_delete_config | apply kw_copy_config | apply kw_rename_config | apply kw_set_config | apply kw_upgrade
  | apply keeps_catch
  | keeps
  | match goal with |- keeps_wf (match ?x with _ => _ end) => destruct x end
  | match goal with |- keeps_wf (let '(_, _) := ?x in _) => destruct x end
  | progress unfold ws_add, ws_remove, ws_copy, ws_rename, ws_current, cf_add, cf_remove, cf_copy, cf_rename, cf_current, cf_edit, cf_upgrade,
      create_workspace, create_default_workspace, set_current_ws, set_current_cfg, create_cfg, create_default_config, unique_ws, unique_config,
      known, get_ws_config, get_ws_name, get_ws_names, get_current, get_current_config, get_config_names, readline_at, subdirs, assert_ws,
      ws_exists, config_exists, get_input_paths, get_input_names, nc_list, require_upgrade, run_plan, api_delete, api_delete_config ].
Lemma step_wf : forall s, keeps_wf (run_step W resource upg fnmatch newer cwd s).
Proof.
  intros s. destruct s; cbn [run_step]; [..|apply kop]; kw.
Qed.
Lemma session_wf : forall ss n, wf n -> wf (session W resource upg fnmatch newer cwd ss n).
Proof. induction ss as [|s r IH]; intros n H; [exact H|]. cbn [session]. apply IH. apply step_wf. exact H. Qed.
End Wf.
