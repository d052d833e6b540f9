(** Facts about the file tree, paths and name orderings of FsModel. *)
From Coq Require Import Ascii String List Bool Arith Lia Sorted Permutation NArith.
From Coq Require DecimalString DecimalNat.
From Verif Require Import Common Dict FsModel.
Import ListNotations.
Open Scope string_scope.
Open Scope list_scope.

(** * Prefixes *)

Lemma is_prefix_app : forall p q, is_prefix p q = true <-> exists r, q = p ++ r.
Proof.
  induction p as [|a p IH]; intros q.
  - split; [exists q; reflexivity|reflexivity].
  - destruct q as [|b q]; cbn [is_prefix].
    + split; [discriminate|intros [r H]; discriminate].
    + rewrite andb_true_iff, String.eqb_eq, IH. split.
      * intros [E [r H]]. subst. exists r. reflexivity.
      * intros [r H]. cbn in H. inversion H. subst. split; [reflexivity|exists r; reflexivity].
Qed.

Lemma is_prefix_refl : forall p, is_prefix p p = true.
Proof. intros. apply is_prefix_app. exists []. rewrite app_nil_r. reflexivity. Qed.

Lemma is_prefix_trans : forall p q r,
  is_prefix p q = true -> is_prefix q r = true -> is_prefix p r = true.
Proof.
  intros p q r H1 H2. apply is_prefix_app in H1. apply is_prefix_app in H2.
  destruct H1 as [a H1]. destruct H2 as [b H2]. subst.
  apply is_prefix_app. exists (a ++ b). rewrite app_assoc. reflexivity.
Qed.

(** Neither path is inside the other. *)
Definition apart (p q : path) : Prop := is_prefix p q = false /\ is_prefix q p = false.

Lemma apart_sym : forall p q, apart p q -> apart q p.
Proof. unfold apart. tauto. Qed.

Lemma prefix_down : forall p q r, is_prefix p (q ++ r) = true ->
  is_prefix p q = true \/ is_prefix q p = true.
Proof.
  induction p as [|a p IH]; intros q r H; [left; reflexivity|].
  destruct q as [|b q]; [right; reflexivity|]. cbn in H |- *.
  apply andb_true_iff in H. destruct H as [E H]. apply String.eqb_eq in E. subst.
  rewrite !String.eqb_refl. cbn. eapply IH. exact H.
Qed.

Lemma apart_down : forall p p' q, is_prefix p p' = true -> apart p q -> apart p' q.
Proof.
  intros p p' q H [H1 H2]. split.
  - destruct (is_prefix p' q) eqn:E; [|reflexivity].
    rewrite (is_prefix_trans _ _ _ H E) in H1. discriminate.
  - destruct (is_prefix q p') eqn:E; [|reflexivity].
    apply is_prefix_app in H. destruct H as [r H]. subst p'.
    destruct (prefix_down _ _ _ E) as [E1|E1]; congruence.
Qed.

Lemma apart_siblings : forall b x y p q, x <> y -> apart (b ++ x :: p) (b ++ y :: q).
Proof.
  intros b x y p q H. unfold apart. induction b as [|a b [IH1 IH2]]; cbn.
  - apply String.eqb_neq in H. rewrite H. rewrite String.eqb_sym in H. rewrite H. auto.
  - rewrite !String.eqb_refl. cbn. auto.
Qed.

Lemma path_eqb_eq : forall p q, path_eqb p q = true <-> p = q.
Proof. intros. unfold path_eqb. destruct (list_eq_dec string_dec p q); split; congruence. Qed.

Lemma prefix_longer : forall (b : path) x y p q, x <> y -> is_prefix (b ++ x :: p) (b ++ y :: q) = false.
Proof. intros. apply (apart_siblings b x y p q). assumption. Qed.

(** * Joining names *)

Lemma split_plain : forall s, has_char slash s = false -> split_slash s = [s].
Proof.
  induction s as [|c r IH]; intro H; [reflexivity|].
  cbn [has_char] in H. apply orb_false_iff in H. destruct H as [H1 H2].
  cbn [split_slash]. rewrite Ascii.eqb_sym, H1. rewrite (IH H2). reflexivity.
Qed.

Lemma plain_inv : forall s, plain s = true ->
  has_char slash s = false /\ s <> "" /\ s <> "." /\ s <> "..".
Proof.
  intros s H. unfold plain in H.
  repeat (apply andb_true_iff in H; destruct H as [H ?]).
  repeat match goal with X : negb _ = true |- _ => apply negb_true_iff in X end.
  repeat match goal with X : (_ =? _)%string = false |- _ => apply String.eqb_neq in X end.
  auto.
Qed.

Lemma join_plain : forall b s, plain s = true -> join b s = b ++ [s].
Proof.
  intros b s H. destruct (plain_inv s H) as [H1 [H2 [H3 H4]]].
  assert (R : forall b', resolve b' (split_slash s) = b' ++ [s]).
  { intro b'. rewrite (split_plain s H1). cbn [resolve].
    apply String.eqb_neq in H2, H3, H4. rewrite H2, H3, H4. reflexivity. }
  destruct s as [|c r]; [congruence|]. unfold join.
  cbn [has_char] in H1. apply orb_false_iff in H1. destruct H1 as [H1 _].
  rewrite Ascii.eqb_sym, H1. apply R.
Qed.

Lemma join_empty : forall b, join b "" = b.
Proof. reflexivity. Qed.

(** * Reading after writing *)

Lemma dget_ddel_same : forall {V} k (d : dict V), dget k (ddel k d) = None.
Proof.
  intros V k d. induction d as [|[k' v] r IH]; [reflexivity|].
  unfold ddel. cbn [filter fst]. destruct (k =? k')%string eqn:E; cbn [negb]; [exact IH|].
  cbn [dget]. rewrite E. exact IH.
Qed.

Lemma dget_ddel_other : forall {V} k k' (d : dict V), k <> k' -> dget k (ddel k' d) = dget k d.
Proof.
  intros V k k' d H. induction d as [|[k0 v] r IH]; [reflexivity|].
  unfold ddel. cbn [filter fst]. destruct (k' =? k0)%string eqn:E; cbn [negb].
  - apply String.eqb_eq in E. subst k0. cbn [dget].
    apply String.eqb_neq in H. rewrite H. exact IH.
  - cbn [dget]. destruct (k =? k0)%string; [reflexivity|exact IH].
Qed.

Definition put1 (c : string) (v : option node) (d : dict node) : dict node :=
  match v with Some x => dset c x d | None => ddel c d end.

Lemma dget_put1 : forall c c' v d, dget c (put1 c' v d) = if (c =? c')%string then v else dget c d.
Proof.
  intros c c' v d. unfold put1. destruct (c =? c')%string eqn:E.
  - apply String.eqb_eq in E. subst. destruct v; [apply dget_dset_same|apply dget_ddel_same].
  - apply String.eqb_neq in E. destruct v; [apply dget_dset_other|apply dget_ddel_other]; assumption.
Qed.

(** One step of [write]. *)
Lemma write_cons : forall mk c r v n n', write mk (c :: r) v n = Some n' ->
  exists d v', n = NDir d /\ n' = NDir (put1 c v' d) /\
    ((r = [] /\ v' = v) \/
     (r <> [] /\ exists ch ch', v' = Some ch' /\
        (dget c d = Some ch \/ (dget c d = None /\ mk = true /\ ch = NDir [])) /\
        write mk r v ch = Some ch')).
Proof.
  intros mk c r v n n' H. cbn [write] in H. destruct n as [s|d]; [discriminate|].
  destruct r as [|c' r].
  - exists d, v. inversion H. split; [reflexivity|]. split; [reflexivity|]. left. auto.
  - destruct (dget c d) as [ch|] eqn:E.
    + destruct (write mk (c' :: r) v ch) as [ch'|] eqn:E1; [|discriminate].
      exists d, (Some ch'). inversion H. split; [reflexivity|]. split; [reflexivity|].
      right. split; [discriminate|]. exists ch, ch'. auto.
    + destruct mk; [|discriminate].
      destruct (write true (c' :: r) v (NDir [])) as [ch'|] eqn:E1; [|discriminate].
      exists d, (Some ch'). inversion H. split; [reflexivity|]. split; [reflexivity|].
      right. split; [discriminate|]. exists (NDir []), ch'. auto 10.
Qed.

Lemma lookup_nil_dir : forall q, q <> [] -> lookup q (NDir []) = None.
Proof. intros q H. destruct q; [congruence|reflexivity]. Qed.

Lemma write_other : forall mk p v n n' q,
  write mk p v n = Some n' -> apart p q -> lookup q n' = lookup q n.
Proof.
  intros mk p. induction p as [|c r IH]; intros v n n' q H A.
  - destruct A as [A _]. discriminate.
  - destruct q as [|c' q]; [destruct A as [_ A]; discriminate|].
    destruct (write_cons _ _ _ _ _ _ H) as [d [v' [-> [-> C]]]].
    cbn [lookup]. rewrite dget_put1.
    destruct (c' =? c)%string eqn:E; [|reflexivity].
    apply String.eqb_eq in E. subst c'.
    destruct A as [A1 A2]. cbn [is_prefix] in A1, A2. rewrite String.eqb_refl in A1, A2.
    cbn [andb] in A1, A2.
    destruct C as [[-> _]|[_ [ch [ch' [-> [D Hw]]]]]]; [discriminate|].
    rewrite (IH _ _ _ q Hw (conj A1 A2)).
    destruct D as [D|[D [_ ->]]]; rewrite D; [reflexivity|].
    apply lookup_nil_dir. destruct q; [discriminate|discriminate].
Qed.

Lemma write_below : forall mk p v n n' s, write mk p v n = Some n' ->
  lookup (p ++ s) n' = match v with Some x => lookup s x | None => None end.
Proof.
  intros mk p. induction p as [|c r IH]; intros v n n' s H.
  - cbn in H. subst v. reflexivity.
  - destruct (write_cons _ _ _ _ _ _ H) as [d [v' [-> [-> C]]]].
    cbn [app lookup]. rewrite dget_put1, String.eqb_refl.
    destruct C as [[-> ->]|[_ [ch [ch' [-> [D Hw]]]]]]; [reflexivity|].
    apply (IH _ _ _ s Hw).
Qed.

Lemma write_at : forall mk p v n n', write mk p v n = Some n' -> lookup p n' = v.
Proof.
  intros mk p v n n' H. rewrite <- (app_nil_r p) at 1. rewrite (write_below _ _ _ _ _ [] H).
  destruct v; reflexivity.
Qed.

(** Above the written path there are directories, before and after
    (before: or nothing, if parents are made). *)
Lemma write_above : forall mk p v n n' q r, write mk p v n = Some n' -> p = q ++ r -> r <> [] ->
  is_dir q n' = true /\ (is_dir q n = true \/ (mk = true /\ lookup q n = None)).
Proof.
  intros mk p. induction p as [|c p IH]; intros v n n' q r H E Hr.
  - destruct q; [cbn in E; congruence|discriminate].
  - destruct (write_cons _ _ _ _ _ _ H) as [d [v' [-> [-> C]]]].
    destruct q as [|c' q]; [unfold is_dir; cbn; auto|].
    cbn [app] in E. injection E as -> E.
    unfold is_dir. cbn [lookup]. rewrite dget_put1, String.eqb_refl.
    destruct C as [[-> ->]|[_ [ch [ch' [-> [D Hw]]]]]].
    + symmetry in E. apply app_eq_nil in E. destruct E; subst. congruence.
    + destruct (IH _ _ _ q r Hw E Hr) as [H1 H2]. split; [exact H1|].
      destruct D as [D|[D [-> ->]]]; rewrite D; [exact H2|]. right. auto.
Qed.

Lemma write_ok : forall mk p c v n, is_dir p n = true ->
  exists n', write mk (p ++ [c]) v n = Some n'.
Proof.
  intros mk p. induction p as [|a p IH]; intros c v n H.
  - unfold is_dir in H. cbn in H. destruct n as [s|d]; [discriminate|]. cbn. eexists; reflexivity.
  - unfold is_dir in H. cbn [lookup] in H. destruct n as [s|d]; [discriminate|].
    destruct (dget a d) as [ch|] eqn:E; [|discriminate].
    destruct (IH c v ch H) as [ch' Hw].
    cbn [app write]. rewrite E.
    destruct (p ++ [c]) as [|x l] eqn:E1; [destruct p; discriminate|].
    rewrite Hw. eexists; reflexivity.
Qed.

(** Making a path with its parents works when no ancestor is a file. *)
Lemma lookup_app : forall p q n,
  lookup (p ++ q) n = match lookup p n with Some x => lookup q x | None => None end.
Proof.
  induction p as [|c p IH]; intros q n; [reflexivity|].
  cbn [app lookup]. destruct n as [s|d]; [reflexivity|].
  destruct (dget c d) as [ch|]; [apply IH|reflexivity].
Qed.

Lemma exists_parent : forall p q n, exists_at (p ++ q) n = true -> exists_at p n = true.
Proof.
  intros p q n. unfold exists_at. rewrite lookup_app. destruct (lookup p n); auto.
Qed.

Lemma exists_parent_dir : forall p c q n, exists_at (p ++ c :: q) n = true -> is_dir p n = true.
Proof.
  intros p c q n. unfold exists_at, is_dir. rewrite lookup_app.
  destruct (lookup p n) as [[s|d]|]; cbn; auto.
Qed.

Lemma is_dir_exists : forall p n, is_dir p n = true -> exists_at p n = true.
Proof. intros p n. unfold is_dir, exists_at. destruct (lookup p n) as [[]|]; auto. Qed.

Lemma not_exists_below : forall p q n, exists_at p n = false -> exists_at (p ++ q) n = false.
Proof.
  intros p q n H. unfold exists_at in *. rewrite lookup_app.
  destruct (lookup p n); [discriminate|reflexivity].
Qed.

(** * Well-formed trees: no two entries of a directory have the same name *)

Definition wf (n : node) : Prop := forall q d, lookup q n = Some (NDir d) -> is_dict d.

Lemma wf_child : forall c d ch, wf (NDir d) -> dget c d = Some ch -> wf ch.
Proof.
  intros c d ch H E q d' L. apply (H (c :: q)). cbn [lookup]. rewrite E. exact L.
Qed.

Lemma is_dict_ddel : forall {V} k (d : dict V), is_dict d -> is_dict (ddel k d).
Proof.
  intros V k d. unfold is_dict, keys, ddel. induction d as [|[k' v] r IH]; cbn; intro H; [constructor|].
  inversion H as [|? ? H1 H2]. subst. destruct (k =? k')%string; cbn; [auto|].
  constructor; [|auto]. intro I. apply H1. rewrite in_map_iff in *.
  destruct I as [x [E I]]. apply filter_In in I. exists x. tauto.
Qed.

Lemma wf_nil : wf (NDir []).
Proof.
  intros q d H. destruct q as [|c q]; cbn in H; [inversion H; constructor|discriminate].
Qed.

Lemma wf_file : forall s, wf (NFile s).
Proof. intros s q d H. destruct q; discriminate. Qed.

Lemma wf_write : forall mk p v n n', wf n -> (forall x, v = Some x -> wf x) ->
  write mk p v n = Some n' -> wf n'.
Proof.
  intros mk p. induction p as [|c r IH]; intros v n n' Hn Hv H.
  - cbn in H. apply Hv. exact H.
  - destruct (write_cons _ _ _ _ _ _ H) as [d [v' [-> [-> C]]]].
    assert (Hv' : forall x, v' = Some x -> wf x).
    { destruct C as [[_ ->]|[_ [ch [ch' [-> [D Hw]]]]]]; [exact Hv|].
      intros x E. inversion E. subst x.
      apply (IH v ch ch'); [|exact Hv|exact Hw].
      destruct D as [D|[_ [_ ->]]]; [apply (wf_child c d); assumption|apply wf_nil]. }
    intros q d' L. destruct q as [|c' q].
    + cbn in L. inversion L. subst d'. assert (D : is_dict d) by (apply (Hn []); reflexivity).
      unfold put1. destruct v'; [apply is_dict_dset|apply is_dict_ddel]; exact D.
    + cbn [lookup] in L. rewrite dget_put1 in L.
      destruct (c' =? c)%string.
      * destruct v' as [x|]; [|discriminate]. apply (Hv' x eq_refl q). exact L.
      * apply (Hn (c' :: q)). cbn [lookup]. exact L.
Qed.

Lemma wf_lookup : forall p n x, wf n -> lookup p n = Some x -> wf x.
Proof.
  intros p n x H L q d Hq. apply (H (p ++ q)). rewrite lookup_app, L. exact Hq.
Qed.

(** * What an operation leaves alone *)

(** Every file keeps its content and every directory stays a directory. *)
Definition preserved (n n' : node) : Prop :=
  (forall q s, lookup q n = Some (NFile s) -> lookup q n' = Some (NFile s)) /\
  (forall q, is_dir q n = true -> is_dir q n' = true).

Lemma preserved_refl : forall n, preserved n n.
Proof. intro n. split; auto. Qed.

Lemma preserved_trans : forall a b c, preserved a b -> preserved b c -> preserved a c.
Proof. intros a b c [H1 H2] [H3 H4]. split; auto. Qed.

Lemma path_cases : forall p q : path,
  apart p q \/ (exists r, q = p ++ r) \/ (exists r, r <> [] /\ p = q ++ r).
Proof.
  intros p q. destruct (is_prefix p q) eqn:E1.
  - right. left. apply is_prefix_app. exact E1.
  - destruct (is_prefix q p) eqn:E2; [|left; split; assumption].
    right. right. apply is_prefix_app in E2. destruct E2 as [r E2]. exists r. split; [|exact E2].
    intro H. subst. rewrite app_nil_r, is_prefix_refl in E1. discriminate.
Qed.

Lemma write_new_preserves : forall mk p x n n',
  exists_at p n = false -> write mk p (Some x) n = Some n' -> preserved n n'.
Proof.
  intros mk p x n n' N H.
  assert (B : forall r, lookup (p ++ r) n = None).
  { intro r. rewrite lookup_app. unfold exists_at in N. destruct (lookup p n); [discriminate|reflexivity]. }
  split.
  - intros q s L. destruct (path_cases p q) as [A|[[r ->]|[r [Hr ->]]]].
    + rewrite (write_other _ _ _ _ _ _ H A). exact L.
    + rewrite B in L. discriminate.
    + destruct (write_above _ _ _ _ _ q r H eq_refl Hr) as [_ [D|[_ D]]].
      * unfold is_dir in D. rewrite L in D. discriminate.
      * congruence.
  - intros q D. destruct (path_cases p q) as [A|[[r ->]|[r [Hr ->]]]].
    + unfold is_dir in *. rewrite (write_other _ _ _ _ _ _ H A). exact D.
    + unfold is_dir in D. rewrite B in D. discriminate.
    + apply (write_above _ _ _ _ _ q r H eq_refl Hr).
Qed.

(** Everything apart from the paths [Ps] is unchanged. *)
Definition only (Ps : list path) (n n' : node) : Prop :=
  forall q, (forall P, In P Ps -> apart P q) -> lookup q n' = lookup q n.

Lemma only_refl : forall Ps n, only Ps n n.
Proof. intros Ps n q _. reflexivity. Qed.

Lemma only_trans : forall Ps a b c, only Ps a b -> only Ps b c -> only Ps a c.
Proof. intros Ps a b c H1 H2 q A. rewrite (H2 q A). apply H1. exact A. Qed.

Lemma only_incl : forall Ps Qs a b, only Ps a b ->
  (forall P, In P Ps -> exists Q, In Q Qs /\ is_prefix Q P = true) -> only Qs a b.
Proof.
  intros Ps Qs a b H I q A. apply H. intros P HP. destruct (I P HP) as [Q [HQ E]].
  apply (apart_down Q P q E). apply A. exact HQ.
Qed.

(** A path is covered by [Ps] when it lies below one of them. *)
Definition covered (Ps : list path) (p : path) : Prop :=
  exists P, In P Ps /\ is_prefix P p = true.

Lemma covered_app : forall Ps p r, covered Ps p -> covered Ps (p ++ r).
Proof.
  intros Ps p r [P [H E]]. exists P. split; [exact H|].
  apply (is_prefix_trans _ _ _ E). apply is_prefix_app. exists r. reflexivity.
Qed.

Lemma covered_here : forall Ps p r, In p Ps -> covered Ps (p ++ r).
Proof.
  intros Ps p r H. exists p. split; [exact H|]. apply is_prefix_app. exists r. reflexivity.
Qed.

Definition prim_only (Ps : list path) (f : node -> option node) : Prop :=
  forall n n', f n = Some n' -> only Ps n n'.
Definition prim_wf (f : node -> option node) : Prop :=
  forall n n', wf n -> f n = Some n' -> wf n'.

Lemma write_only : forall Ps mk p v, covered Ps p -> prim_only Ps (write mk p v).
Proof.
  intros Ps mk p v [P [HP E]] n n' H q A. apply (write_other _ _ _ _ _ _ H).
  apply (apart_down P p q E). apply A. exact HP.
Qed.

Lemma makedirs_only : forall Ps p, covered Ps p -> prim_only Ps (makedirs p).
Proof. intros. apply write_only. assumption. Qed.

Lemma mkdir_only : forall Ps p, covered Ps p -> prim_only Ps (mkdir p).
Proof.
  intros Ps p C n n' H. unfold mkdir in H. destruct (exists_at p n); [discriminate|].
  exact (write_only Ps _ p _ C n n' H).
Qed.

Lemma rmtree_only : forall Ps p, covered Ps p -> prim_only Ps (rmtree p).
Proof.
  intros Ps p C n n' H. unfold rmtree in H. destruct (is_dir p n); [|discriminate].
  exact (write_only Ps _ p _ C n n' H).
Qed.

Lemma remove_only : forall Ps p, covered Ps p -> prim_only Ps (remove p).
Proof.
  intros Ps p C n n' H. unfold remove in H. destruct (is_file p n); [|discriminate].
  exact (write_only Ps _ p _ C n n' H).
Qed.

Lemma write_file_only : forall Ps p s, covered Ps p -> prim_only Ps (write_file p s).
Proof.
  intros Ps p s C n n' H. unfold write_file in H. destruct (is_dir p n); [discriminate|].
  exact (write_only Ps _ p _ C n n' H).
Qed.

Lemma rewrite_file_only : forall Ps p s, covered Ps p -> prim_only Ps (rewrite_file p s).
Proof.
  intros Ps p s C n n' H. unfold rewrite_file in H. destruct (is_file p n); [|discriminate].
  exact (write_only Ps _ p _ C n n' H).
Qed.

Lemma copytree_only : forall Ps src dst, covered Ps dst -> prim_only Ps (copytree src dst).
Proof.
  intros Ps src dst C n n' H. unfold copytree in H.
  destruct (lookup src n) as [[s|d]|]; try discriminate.
  destruct (exists_at dst n); [discriminate|].
  exact (write_only Ps _ dst _ C n n' H).
Qed.

Lemma os_rename_only : forall Ps src dst,
  covered Ps src -> covered Ps dst -> prim_only Ps (os_rename src dst).
Proof.
  intros Ps src dst C1 C2 n n' H. unfold os_rename in H.
  destruct (lookup src n) as [x|]; [|discriminate].
  destruct (path_eqb src dst); [inversion H; apply only_refl|].
  destruct (is_prefix src dst); [discriminate|].
  assert (K : forall n1, write false dst (Some x) n = Some n1 ->
                         write false src None n1 = Some n' -> only Ps n n').
  { intros n1 H1 H2. apply (only_trans Ps n n1 n').
    - exact (write_only Ps _ dst _ C2 n n1 H1).
    - exact (write_only Ps _ src _ C1 n1 n' H2). }
  destruct (lookup dst n) as [[s|[|e d]]|]; destruct x as [s'|d']; try discriminate;
    (destruct (write false dst _ n) as [n1|] eqn:E1; [|discriminate]; apply (K n1 eq_refl H)).
Qed.

Lemma move_only : forall Ps src dst,
  covered Ps src -> covered Ps dst -> prim_only Ps (move src dst).
Proof.
  intros Ps src dst C1 C2 n n' H. unfold move in H.
  destruct (lookup src n) as [x|]; [|discriminate].
  destruct (is_dir dst n && path_eqb src dst) eqn:E0.
  - exact (os_rename_only Ps src dst C1 C2 n n' H).
  - cbv zeta in H. set (real := if is_dir dst n then dst ++ [last src ""] else dst) in *.
    assert (C3 : covered Ps real).
    { unfold real. destruct (is_dir dst n); [apply covered_app|]; exact C2. }
    destruct (is_dir dst n && exists_at real n); [discriminate|].
    destruct (os_rename src real n) as [n1|] eqn:E1.
    + inversion H. subst n1. exact (os_rename_only Ps src real C1 C3 n n' E1).
    + destruct (is_dir src n); [|discriminate].
      destruct (is_prefix src real); [discriminate|].
      destruct (copytree src real n) as [n1|] eqn:E2; [|discriminate].
      apply (only_trans Ps n n1 n').
      * exact (copytree_only Ps src real C3 n n1 E2).
      * exact (rmtree_only Ps src C1 n1 n' H).
Qed.

Lemma copy_file_only : forall Ps src dst, covered Ps dst -> prim_only Ps (copy_file src dst).
Proof.
  intros Ps src dst C n n' H. unfold copy_file in H.
  set (real := if is_dir dst n then dst ++ [last src ""] else dst) in *.
  assert (C3 : covered Ps real).
  { unfold real. destruct (is_dir dst n); [apply covered_app|]; exact C. }
  destruct (path_eqb src real); [discriminate|].
  destruct (lookup src n) as [[s|d]|]; try discriminate.
  exact (write_file_only Ps real s C3 n n' H).
Qed.

(** ** Well-formedness *)

Lemma prim_wf_write : forall mk p v, (forall x, v = Some x -> wf x) -> prim_wf (write mk p v).
Proof. intros mk p v Hv n n' Hn H. exact (wf_write mk p v n n' Hn Hv H). Qed.

Lemma wf_none : forall x : node, None = Some x -> wf x.
Proof. discriminate. Qed.
Lemma wf_some_nil : forall x, Some (NDir []) = Some x -> wf x.
Proof. intros x H. inversion H. apply wf_nil. Qed.
Lemma wf_some_file : forall s x, Some (NFile s) = Some x -> wf x.
Proof. intros s x H. inversion H. apply wf_file. Qed.

Lemma makedirs_wf : forall p, prim_wf (makedirs p).
Proof. intro p. apply prim_wf_write. apply wf_some_nil. Qed.
Lemma mkdir_wf : forall p, prim_wf (mkdir p).
Proof.
  intros p n n' Hn H. unfold mkdir in H. destruct (exists_at p n); [discriminate|].
  exact (wf_write _ _ _ _ _ Hn wf_some_nil H).
Qed.
Lemma rmtree_wf : forall p, prim_wf (rmtree p).
Proof.
  intros p n n' Hn H. unfold rmtree in H. destruct (is_dir p n); [|discriminate].
  exact (wf_write _ _ _ _ _ Hn wf_none H).
Qed.
Lemma remove_wf : forall p, prim_wf (remove p).
Proof.
  intros p n n' Hn H. unfold remove in H. destruct (is_file p n); [|discriminate].
  exact (wf_write _ _ _ _ _ Hn wf_none H).
Qed.
Lemma write_file_wf : forall p s, prim_wf (write_file p s).
Proof.
  intros p s n n' Hn H. unfold write_file in H. destruct (is_dir p n); [discriminate|].
  exact (wf_write _ _ _ _ _ Hn (wf_some_file s) H).
Qed.
Lemma rewrite_file_wf : forall p s, prim_wf (rewrite_file p s).
Proof.
  intros p s n n' Hn H. unfold rewrite_file in H. destruct (is_file p n); [|discriminate].
  exact (wf_write _ _ _ _ _ Hn (wf_some_file s) H).
Qed.
Lemma copytree_wf : forall src dst, prim_wf (copytree src dst).
Proof.
  intros src dst n n' Hn H. unfold copytree in H.
  destruct (lookup src n) as [[s|d]|] eqn:E; try discriminate.
  destruct (exists_at dst n); [discriminate|].
  refine (wf_write _ _ _ _ _ Hn _ H). intros x Hx. inversion Hx. subst x.
  apply (wf_lookup src n); assumption.
Qed.
Lemma os_rename_wf : forall src dst, prim_wf (os_rename src dst).
Proof.
  intros src dst n n' Hn H. unfold os_rename in H.
  destruct (lookup src n) as [x|] eqn:E; [|discriminate].
  destruct (path_eqb src dst); [inversion H; subst; exact Hn|].
  destruct (is_prefix src dst); [discriminate|].
  assert (Hx : forall y, Some x = Some y -> wf y).
  { intros y Hy. inversion Hy. subst y. apply (wf_lookup src n); assumption. }
  assert (K : forall n1, write false dst (Some x) n = Some n1 ->
                         write false src None n1 = Some n' -> wf n').
  { intros n1 H1 H2. apply (wf_write _ _ _ n1 n' (wf_write _ _ _ _ _ Hn Hx H1) wf_none H2). }
  destruct (lookup dst n) as [[s|[|e d]]|]; destruct x as [s'|d']; try discriminate;
    (destruct (write false dst _ n) as [n1|] eqn:E1; [|discriminate]; apply (K n1 eq_refl H)).
Qed.
Lemma move_wf : forall src dst, prim_wf (move src dst).
Proof.
  intros src dst n n' Hn H. unfold move in H.
  destruct (lookup src n) as [x|]; [|discriminate].
  destruct (is_dir dst n && path_eqb src dst).
  - exact (os_rename_wf src dst n n' Hn H).
  - cbv zeta in H. set (real := if is_dir dst n then dst ++ [last src ""] else dst) in *.
    destruct (is_dir dst n && exists_at real n); [discriminate|].
    destruct (os_rename src real n) as [n1|] eqn:E1.
    + inversion H. subst n1. exact (os_rename_wf src real n n' Hn E1).
    + destruct (is_dir src n); [|discriminate].
      destruct (is_prefix src real); [discriminate|].
      destruct (copytree src real n) as [n1|] eqn:E2; [|discriminate].
      exact (rmtree_wf src n1 n' (copytree_wf src real n n1 Hn E2) H).
Qed.
Lemma copy_file_wf : forall src dst, prim_wf (copy_file src dst).
Proof.
  intros src dst n n' Hn H. unfold copy_file in H.
  destruct (path_eqb src _); [discriminate|].
  destruct (lookup src n) as [[s|d]|]; try discriminate.
  exact (write_file_wf _ s n n' Hn H).
Qed.

(** * Computations *)

Definition modifies {A} (Ps : list path) (m : M A) : Prop := forall n, only Ps n (fst (m n)).
Definition keeps_wf {A} (m : M A) : Prop := forall n, wf n -> wf (fst (m n)).

Lemma modifies_ret : forall A Ps (a : A), modifies Ps (ret a).
Proof. intros A Ps a n. apply only_refl. Qed.
Lemma modifies_fail : forall A Ps e, modifies Ps (@fail A e).
Proof. intros A Ps e n. apply only_refl. Qed.
Lemma modifies_look : forall A Ps (f : node -> A), modifies Ps (look f).
Proof. intros A Ps f n. apply only_refl. Qed.
Lemma modifies_need : forall A Ps e (o : option A), modifies Ps (need e o).
Proof. intros A Ps e [a|] n; apply only_refl. Qed.
Lemma modifies_fs : forall Ps e f, prim_only Ps f -> modifies Ps (fs e f).
Proof.
  intros Ps e f H n. unfold fs. destruct (f n) as [n'|] eqn:E; cbn; [apply H; exact E|apply only_refl].
Qed.
Lemma modifies_bind : forall A B Ps (m : M A) (f : A -> M B),
  modifies Ps m -> (forall a, modifies Ps (f a)) -> modifies Ps (bindM m f).
Proof.
  intros A B Ps m f H1 H2 n. unfold bindM. specialize (H1 n).
  destruct (m n) as [n1 [a|e]]; cbn in H1 |- *; [|exact H1].
  apply (only_trans Ps n n1); [exact H1|apply H2].
Qed.
Lemma modifies_then : forall A B Ps (m : M A) (k : M B),
  modifies Ps m -> modifies Ps k -> modifies Ps (thenM m k).
Proof. intros. unfold thenM. apply modifies_bind; auto. Qed.
Lemma modifies_if : forall A Ps (b : bool) (m k : M A),
  modifies Ps m -> modifies Ps k -> modifies Ps (if b then m else k).
Proof. intros A Ps [] m k H1 H2; assumption. Qed.
Lemma modifies_for : forall A Ps (f : A -> M unit) l,
  (forall x, In x l -> modifies Ps (f x)) -> modifies Ps (forM f l).
Proof.
  intros A Ps f l. induction l as [|x r IH]; intro H; cbn [forM]; [apply modifies_ret|].
  apply modifies_then; [apply H; left; reflexivity|apply IH; intros; apply H; right; assumption].
Qed.

Lemma keeps_ret : forall A (a : A), keeps_wf (ret a).
Proof. intros A a n H. exact H. Qed.
Lemma keeps_fail : forall A e, keeps_wf (@fail A e).
Proof. intros A e n H. exact H. Qed.
Lemma keeps_look : forall A (f : node -> A), keeps_wf (look f).
Proof. intros A f n H. exact H. Qed.
Lemma keeps_need : forall A e (o : option A), keeps_wf (need e o).
Proof. intros A e [a|] n H; exact H. Qed.
Lemma keeps_fs : forall e f, prim_wf f -> keeps_wf (fs e f).
Proof.
  intros e f H n Hn. unfold fs. destruct (f n) as [n'|] eqn:E; cbn; [apply (H n); assumption|exact Hn].
Qed.
Lemma keeps_bind : forall A B (m : M A) (f : A -> M B),
  keeps_wf m -> (forall a, keeps_wf (f a)) -> keeps_wf (bindM m f).
Proof.
  intros A B m f H1 H2 n Hn. unfold bindM. specialize (H1 n Hn).
  destruct (m n) as [n1 [a|e]]; cbn in H1 |- *; [apply H2; exact H1|exact H1].
Qed.
Lemma keeps_then : forall A B (m : M A) (k : M B), keeps_wf m -> keeps_wf k -> keeps_wf (thenM m k).
Proof. intros. unfold thenM. apply keeps_bind; auto. Qed.
Lemma keeps_if : forall A (b : bool) (m k : M A), keeps_wf m -> keeps_wf k -> keeps_wf (if b then m else k).
Proof. intros A [] m k H1 H2; assumption. Qed.
Lemma keeps_for : forall A (f : A -> M unit) l, (forall x, In x l -> keeps_wf (f x)) -> keeps_wf (forM f l).
Proof.
  intros A f l. induction l as [|x r IH]; intro H; cbn [forM]; [apply keeps_ret|].
  apply keeps_then; [apply H; left; reflexivity|apply IH; intros; apply H; right; assumption].
Qed.

(** * Sorting names *)

Definition slt (a b : string) : Prop := String.compare a b = Lt.
Definition sle (a b : string) : Prop := (a <=? b)%string = true.

Lemma ascii_compare_trans : forall a b c, Ascii.compare a b = Lt -> Ascii.compare b c = Lt -> Ascii.compare a c = Lt.
Proof. unfold Ascii.compare. intros a b c. rewrite !N.compare_lt_iff. apply N.lt_trans. Qed.

Lemma slt_trans : forall a b c, slt a b -> slt b c -> slt a c.
Proof.
  unfold slt. induction a as [|x a IH]; intros b c H1 H2.
  - destruct b; [discriminate|]. destruct c; [cbn in H2; discriminate|reflexivity].
  - destruct b as [|y b]; [discriminate|]. destruct c as [|z c]; [cbn in H2; discriminate|].
    cbn [String.compare] in *.
    destruct (Ascii.compare x y) eqn:E1; [|clear H1|discriminate].
    + apply Ascii.compare_eq_iff in E1. subst y.
      destruct (Ascii.compare x z) eqn:E2; try discriminate; [|reflexivity].
      apply (IH b c); assumption.
    + destruct (Ascii.compare y z) eqn:E2; try discriminate.
      * apply Ascii.compare_eq_iff in E2. subst z. rewrite E1. reflexivity.
      * rewrite (ascii_compare_trans x y z E1 E2). reflexivity.
Qed.

Lemma sle_iff : forall a b, sle a b <-> a = b \/ slt a b.
Proof.
  intros a b. unfold sle, String.leb, slt. destruct (String.compare a b) eqn:E.
  - split; [left; apply String.compare_eq_iff; exact E|reflexivity].
  - split; auto.
  - split; [discriminate|]. intros [H|H]; [|discriminate]. subst.
    pose proof (String.compare_antisym b b) as A. rewrite E in A. discriminate.
Qed.

Lemma sle_total_neg : forall a b, (a <=? b)%string = false -> sle b a.
Proof.
  intros a b H. unfold sle. destruct (String.leb_total a b) as [E|E]; [congruence|exact E].
Qed.

Lemma sle_trans : forall a b c, sle a b -> sle b c -> sle a c.
Proof.
  intros a b c H1 H2. apply sle_iff in H1, H2. apply sle_iff.
  destruct H1 as [->|H1]; [exact H2|]. destruct H2 as [<-|H2]; [auto|].
  right. apply (slt_trans a b c); assumption.
Qed.

Lemma insert_perm : forall x l, Permutation (x :: l) (insert_s x l).
Proof.
  intros x l. induction l as [|y r IH]; cbn [insert_s]; [apply Permutation_refl|].
  destruct (x <=? y)%string; [apply Permutation_refl|].
  apply perm_trans with (y :: x :: r); [apply perm_swap|apply perm_skip; exact IH].
Qed.

Lemma sort_perm : forall l, Permutation l (sort_s l).
Proof.
  induction l as [|x r IH]; cbn [sort_s]; [apply perm_nil|].
  apply perm_trans with (x :: sort_s r); [apply perm_skip; exact IH|apply insert_perm].
Qed.

Lemma sort_in : forall x l, In x (sort_s l) <-> In x l.
Proof.
  intros x l. split; apply Permutation_in; [apply Permutation_sym|]; apply sort_perm.
Qed.

Lemma insert_sorted : forall x l, StronglySorted sle l -> StronglySorted sle (insert_s x l).
Proof.
  intros x l H. induction H as [|y r H IH F]; cbn [insert_s]; [repeat constructor|].
  destruct (x <=? y)%string eqn:E.
  - constructor; [constructor; assumption|]. constructor; [exact E|].
    apply Forall_impl with (P := sle y); [|exact F]. intros z Hz. apply (sle_trans x y z); assumption.
  - constructor; [exact IH|]. apply Forall_forall. intros z Hz.
    apply (Permutation_in _ (Permutation_sym (insert_perm x r))) in Hz. destruct Hz as [<-|Hz].
    + apply sle_total_neg. exact E.
    + rewrite Forall_forall in F. apply F. exact Hz.
Qed.

Lemma sort_sorted : forall l, StronglySorted sle (sort_s l).
Proof. induction l as [|x r IH]; cbn [sort_s]; [constructor|apply insert_sorted; exact IH]. Qed.

Lemma sorted_nodup_strict : forall l, StronglySorted sle l -> NoDup l -> StronglySorted slt l.
Proof.
  intros l H. induction H as [|y r H IH F]; intro N; [constructor|].
  inversion N as [|? ? N1 N2]. subst. constructor; [apply IH; exact N2|].
  rewrite Forall_forall in *. intros z Hz. specialize (F z Hz). apply sle_iff in F.
  destruct F as [->|F]; [contradiction|exact F].
Qed.

Lemma sort_nodup : forall l, NoDup l -> NoDup (sort_s l).
Proof. intros l H. apply (Permutation_NoDup (sort_perm l) H). Qed.

(** * Decimal numbers in names *)

Lemma dec_inj : forall a b, dec a = dec b -> a = b.
Proof.
  intros a b H. apply DecimalNat.Unsigned.to_uint_inj.
  apply (f_equal DecimalString.NilEmpty.uint_of_string) in H. unfold dec in H.
  rewrite !DecimalString.NilEmpty.usu in H. inversion H. reflexivity.
Qed.

Lemma append_inj_l : forall p a b : string, (p ++ a)%string = (p ++ b)%string -> a = b.
Proof. induction p as [|c p IH]; cbn; intros a b H; [exact H|]. inversion H. auto. Qed.

Lemma append_inj_r : forall a b s : string, (a ++ s)%string = (b ++ s)%string -> a = b.
Proof.
  assert (L : forall a b : string, String.length (a ++ b) = String.length a + String.length b).
  { induction a; cbn; intros; auto. }
  induction a as [|c a IH]; intros b s H.
  - destruct b as [|c b]; [reflexivity|]. exfalso.
    apply (f_equal String.length) in H. cbn in H. rewrite L in H. lia.
  - destruct b as [|c' b].
    + exfalso. apply (f_equal String.length) in H. cbn in H. rewrite L in H. lia.
    + cbn in H. inversion H. f_equal. eapply IH. eassumption.
Qed.

Lemma has_char_append : forall c a b, has_char c (a ++ b)%string = has_char c a || has_char c b.
Proof.
  induction a as [|x a IH]; intro b; cbn; [reflexivity|]. rewrite IH, orb_assoc. reflexivity.
Qed.

(** The first of [length l + 1] distinct candidates that is not in [l]. *)
Lemma fresh_exists : forall (f : nat -> string) (l : list string) i,
  (forall a b, f a = f b -> a = b) ->
  exists k, i <= k <= i + length l /\ ~ In (f k) l.
Proof.
  intros f l i Hf.
  assert (D : (exists k, i <= k <= i + length l /\ ~ In (f k) l) \/
              incl (map f (seq i (S (length l)))) l).
  { destruct (Exists_dec (fun k => ~ In (f k) l) (seq i (S (length l)))) as [E|E].
    - intro k. destruct (in_dec string_dec (f k) l) as [I|I]; [right|left]; tauto.
    - left. apply Exists_exists in E. destruct E as [k [Hk N]]. apply in_seq in Hk.
      exists k. split; [lia|exact N].
    - right. intros x Hx. apply in_map_iff in Hx. destruct Hx as [k [<- Hk]].
      destruct (in_dec string_dec (f k) l) as [I|I]; [exact I|].
      exfalso. apply E. apply Exists_exists. exists k. split; assumption. }
  destruct D as [D|D]; [exact D|]. exfalso.
  assert (N : NoDup (map f (seq i (S (length l))))).
  { apply FinFun.Injective_map_NoDup; [exact Hf|apply seq_NoDup]. }
  pose proof (NoDup_incl_length N D) as L. rewrite map_length, seq_length in L. lia.
Qed.
