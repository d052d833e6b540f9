(** Directories with a marker file naming a current entry. *)
From Coq Require Import Ascii String List Bool Arith Lia.
From Verif Require Import Common Dict FsModel FsProofs WsModel WsSpec WsProofs NameModel CliModel CliSpec.
From Coq Require DecimalString.
Import ListNotations.
Open Scope string_scope.
Open Scope list_scope.

(** * Ordinary names *)

Lemma ordinary_inv : forall s, ordinary s = true ->
  plain s = true /\ has_char nl s = false /\ has_char cr s = false /\ s <> ".current".
Proof.
  intros s H. unfold ordinary in H.
  apply andb_true_iff in H. destruct H as [H H4]. apply andb_true_iff in H. destruct H as [H H3].
  apply andb_true_iff in H. destruct H as [H1 H2]. apply negb_true_iff in H2, H3, H4.
  repeat split; auto. apply String.eqb_neq. assumption.
Qed.
Lemma ordinary_plain : forall s, ordinary s = true -> plain s = true.
Proof. intros s H. apply ordinary_inv. exact H. Qed.
Lemma ordinary_ne : forall s, ordinary s = true -> s <> ".current".
Proof. intros s H. apply ordinary_inv. exact H. Qed.
Lemma ordinary_nonempty : forall s, ordinary s = true -> s <> "".
Proof. intros s H. apply ordinary_plain in H. apply plain_inv in H. tauto. Qed.
Lemma ordinary_given : forall s, ordinary s = true -> given (Some s) = Some s.
Proof.
  intros s H. apply ordinary_nonempty in H. apply String.eqb_neq in H. cbn. rewrite H. reflexivity.
Qed.

Lemma readline_one : forall s, has_char nl s = false -> has_char cr s = false -> readline s = s.
Proof.
  induction s as [|c s IH]; intros H1 H2; [reflexivity|]. cbn [has_char] in H1, H2.
  apply orb_false_iff in H1. apply orb_false_iff in H2. destruct H1 as [A1 A2]. destruct H2 as [B1 B2].
  cbn [readline]. rewrite Ascii.eqb_sym, A1. rewrite Ascii.eqb_sym, B1. cbn [orb]. rewrite IH; auto.
Qed.
Lemma readline_ordinary : forall s, ordinary s = true -> readline s = s.
Proof. intros s H. apply ordinary_inv in H. apply readline_one; tauto. Qed.

(** A name with an underscore is neither empty, ".", ".." nor the marker. *)
Lemma ordinary_underscore : forall s, has_char "_"%char s = true -> has_char slash s = false ->
  has_char nl s = false -> has_char cr s = false -> ordinary s = true.
Proof.
  intros s U S N C. unfold ordinary, plain. rewrite S, N, C.
  repeat (apply andb_true_iff; split); try reflexivity; apply negb_true_iff; apply String.eqb_neq;
    intros ->; discriminate.
Qed.

Lemma dec_chars : forall c i, (forall d, In d ["0"; "1"; "2"; "3"; "4"; "5"; "6"; "7"; "8"; "9"]%char -> Ascii.eqb c d = false) ->
  has_char c (dec i) = false.
Proof.
  intros c i H. unfold dec. generalize (Nat.to_uint i). intro u.
  induction u; cbn [DecimalString.NilEmpty.string_of_uint has_char]; try reflexivity;
    rewrite IHu, H by (cbn; tauto); reflexivity.
Qed.

Lemma ordinary_suffix : forall s t, ordinary s = true \/ s = "" ->
  has_char slash t = false -> has_char nl t = false -> has_char cr t = false ->
  ordinary (s ++ "_" ++ t)%string = true.
Proof.
  intros s t Hs T1 T2 T3.
  assert (S : has_char slash s = false /\ has_char nl s = false /\ has_char cr s = false).
  { destruct Hs as [H| ->]; [|repeat split; reflexivity].
    apply ordinary_inv in H. destruct H as [H [H1 [H2 _]]]. apply plain_inv in H. tauto. }
  destruct S as [S1 [S2 S3]].
  apply ordinary_underscore; rewrite !has_char_append; rewrite ?S1, ?S2, ?S3, ?T1, ?T2, ?T3; try reflexivity.
  rewrite orb_true_iff. right. reflexivity.
Qed.

Lemma ordinary_numbered : forall s i, ordinary s = true \/ s = "" -> ordinary (numbered s i) = true.
Proof.
  intros s i H. unfold numbered. apply ordinary_suffix; [exact H| | |];
    apply dec_chars; intros d D; cbn in D;
    repeat (destruct D as [<-|D]; [reflexivity|]); destruct D.
Qed.

(** * Unique names *)

Lemma mem_s_in : forall x l, mem_s x l = true <-> In x l.
Proof.
  intros x l. unfold mem_s. rewrite existsb_exists. split.
  - intros [y [I E]]. apply String.eqb_eq in E. subst. exact I.
  - intro I. exists x. split; [exact I|apply String.eqb_refl].
Qed.
Lemma mem_s_out : forall x l, mem_s x l = false <-> ~ In x l.
Proof.
  intros x l. rewrite <- mem_s_in. destruct (mem_s x l); split; congruence.
Qed.

Lemma numbered_inj : forall s a b, numbered s a = numbered s b -> a = b.
Proof.
  intros s a b H. unfold numbered in H. apply append_inj_l in H. apply append_inj_l in H.
  apply dec_inj. exact H.
Qed.

(** Result of the loop: the first free candidate. *)
Lemma unique_loop_spec : forall names s fuel i v r, unique_loop names s fuel i v = Some r ->
  ~ In r names /\
  (r = v \/ (In v names /\ exists k, i <= k /\ r = numbered s k /\
                                     forall j, i <= j < k -> In (numbered s j) names)).
Proof.
  induction fuel as [|f IH]; intros i v r H; [discriminate|]. cbn [unique_loop] in H.
  destruct (mem_s v names) eqn:E.
  - apply mem_s_in in E. destruct (IH _ _ _ H) as [N [->|[I [k [K1 [K2 K3]]]]]]; split; auto; right; split; auto.
    + exists i. repeat split; auto. intros j J. lia.
    + exists k. split; [lia|]. split; [exact K2|]. intros j J.
      destruct (Nat.eq_dec j i) as [->|D]; [exact I|]. apply K3. lia.
  - apply mem_s_out in E. inversion H. subst. auto.
Qed.

Lemma unique_loop_none : forall names s fuel i v, unique_loop names s fuel i v = None ->
  forall k, S k < fuel -> In (numbered s (i + k)) names.
Proof.
  induction fuel as [|f IH]; intros i v H k K; [lia|]. cbn [unique_loop] in H.
  destruct (mem_s v names) eqn:E; [|discriminate].
  destruct f as [|f]; [lia|]. destruct k as [|k].
  - rewrite Nat.add_0_r. cbn [unique_loop] in H.
    destruct (mem_s (numbered s i) names) eqn:E2; [|discriminate]. apply mem_s_in. exact E2.
  - replace (i + S k) with (S i + k) by lia. apply (IH (S i) _ H k). lia.
Qed.

(** The loop needs at most one round more than there are names. *)
Lemma unique_name_total : forall names s, exists r, unique_name names s = Some r.
Proof.
  intros names s. unfold unique_name.
  destruct (unique_loop names s (S (length names)) 2 s) as [r|] eqn:E; [eauto|]. exfalso.
  pose (f := fun k => match k with O => s | S k' => numbered s (2 + k') end).
  assert (L : forall j, s <> numbered s j).
  { intros j H. unfold numbered in H. apply (f_equal String.length) in H.
    rewrite length_app_s in H. cbn in H. lia. }
  destruct (fresh_exists f names 0) as [k [K N]].
  - intros [|a] [|b] H; cbn [f] in H; auto.
    + exfalso. apply (L _ H).
    + exfalso. symmetry in H. apply (L _ H).
    + apply numbered_inj in H. lia.
  - apply N. destruct k as [|k]; cbn [f].
    + cbn [unique_loop] in E. destruct (mem_s s names) eqn:V; [|discriminate]. apply mem_s_in. exact V.
    + apply (unique_loop_none names s _ 2 s E k). lia.
Qed.

Lemma unique_name_spec : forall names s r, unique_name names s = Some r ->
  ~ In r names /\ (~ In s names -> r = s) /\
  (In s names -> exists k, 2 <= k /\ r = numbered s k /\
                           forall j, 2 <= j < k -> In (numbered s j) names).
Proof.
  intros names s r H. apply unique_loop_spec in H. destruct H as [N [->|[I K]]].
  - repeat split; auto. contradiction.
  - repeat split; auto. contradiction.
Qed.

(** * A directory with a marker *)

Definition cinv (B : path) (n : node) : Prop := tidy B n /\ current_valid B n.

(** Only what is at [B] matters. *)
Lemma cinv_ext : forall B B' n n', lookup B' n' = lookup B n -> cinv B n -> cinv B' n'.
Proof.
  intros B B' n n' E [[F T] C].
  assert (K : forall p, lookup (B' ++ p) n' = lookup (B ++ p) n).
  { intro p. rewrite !lookup_app, E. reflexivity. }
  split; [split|].
  - unfold is_file in *. rewrite E. exact F.
  - intros x X. unfold exists_at, is_file, is_dir in *. rewrite K in *. apply T. exact X.
  - intros t L. rewrite K in L. destruct (C t L) as [H|H]; [left; exact H|right].
    unfold is_dir in *. rewrite K. exact H.
Qed.
Lemma cinv_none : forall B n, lookup B n = None -> cinv B n.
Proof.
  intros B n E.
  assert (K : forall p, lookup (B ++ p) n = None) by (intro p; rewrite lookup_app, E; reflexivity).
  split; [split|].
  - unfold is_file. rewrite E. reflexivity.
  - intros x X. unfold exists_at in X. rewrite K in X. discriminate.
  - intros t L. rewrite K in L. discriminate.
Qed.

Section Cur.
Variable B : path.

Lemma child_apart : forall x y, x <> y -> apart (B ++ [x]) (B ++ [y]).
Proof. intros. apply apart_siblings. assumption. Qed.

(** What is the same outside the entry [w]. *)
Definition others (w : string) (n n' : node) : Prop :=
  forall x, x <> w -> lookup (B ++ [x]) n' = lookup (B ++ [x]) n.

Lemma only_others : forall w n n', only [B ++ [w]] n n' -> others w n n'.
Proof. intros w n n' H x D. apply H. intros P [<-|[]]. apply child_apart. congruence. Qed.

Lemma others_refl : forall w n, others w n n.
Proof. intros w n x _. reflexivity. Qed.

(** An entry is added, or a directory is changed. *)
Lemma put_dir : forall w n n', tidy B n -> others w n n' -> ordinary w = true ->
  is_dir (B ++ [w]) n' = true ->
  tidy B n' /\ (current_valid B n -> current_valid B n').
Proof.
  intros w n n' [F T] O Hw D. split; [split|].
  - pose proof (exists_parent_dir B w [] n' (is_dir_exists _ _ D)) as DB.
    unfold is_dir in DB. unfold is_file. destruct (lookup B n') as [[]|]; congruence.
  - intros x E. destruct (string_dec x w) as [->|N]; [right; auto|].
    unfold exists_at, is_file, is_dir in *. rewrite (O x N) in *. apply T. exact E.
  - intros C t L. rewrite (O ".current") in L by (intro X; apply (ordinary_ne w Hw); congruence).
    destruct (C t L) as [H|H]; [left; exact H|]. right.
    destruct (string_dec (readline t) w) as [->|N]; [exact D|].
    unfold is_dir in *. rewrite (O _ N). exact H.
Qed.

(** An entry is removed. *)
Lemma drop_entry : forall w n n', tidy B n -> is_file B n' = false -> others w n n' -> ordinary w = true ->
  lookup (B ++ [w]) n' = None ->
  tidy B n' /\
  (current_valid B n ->
   (forall t, lookup (B ++ [".current"]) n' = Some (NFile t) -> readline t <> w) -> current_valid B n').
Proof.
  intros w n n' [F T] F' O Hw L. split; [split; [exact F'|]|].
  - intros x E. destruct (string_dec x w) as [->|N]; [unfold exists_at in E; rewrite L in E; discriminate|].
    unfold exists_at, is_file, is_dir in *. rewrite (O x N) in *. apply T. exact E.
  - intros C R t Lt. pose proof (R t Lt) as N.
    rewrite (O ".current") in Lt by (intro X; apply (ordinary_ne w Hw); congruence).
    destruct (C t Lt) as [H|H]; [left; exact H|]. right. unfold is_dir in *. rewrite (O _ N). exact H.
Qed.

(** Writing the marker always succeeds and makes it valid. *)
Lemma mark : forall s n, tidy B n -> is_dir B n = true ->
  s = "" \/ (ordinary s = true /\ is_dir (B ++ [s]) n = true) ->
  exists n', write_file (B ++ [".current"]) s n = Some n' /\ tidy B n' /\ current_valid B n' /\
             others ".current" n n'.
Proof.
  intros s n [F T] D Hs.
  assert (NC : is_dir (B ++ [".current"]) n = false).
  { destruct (is_dir (B ++ [".current"]) n) eqn:E; [|reflexivity].
    destruct (T _ (is_dir_exists _ _ E)) as [[_ X]|[X _]]; [|discriminate].
    unfold is_dir in E. unfold is_file in X. destruct (lookup (B ++ [".current"]) n) as [[]|]; discriminate. }
  destruct (write_ok false B ".current" (Some (NFile s)) n D) as [n' H].
  exists n'. unfold write_file. rewrite NC. split; [exact H|].
  pose proof (write_at _ _ _ _ _ H) as L.
  assert (O : others ".current" n n').
  { intros x N. apply (write_other _ _ _ _ _ _ H). apply child_apart. congruence. }
  split; [split|split; [|exact O]].
  - pose proof (write_above _ _ _ _ _ B [".current"] H eq_refl ltac:(discriminate)) as [X _].
    unfold is_dir in X. unfold is_file. destruct (lookup B n') as [[]|]; congruence.
  - intros x E. destruct (string_dec x ".current") as [->|N].
    + left. split; [reflexivity|]. unfold is_file. rewrite L. reflexivity.
    + unfold exists_at, is_file, is_dir in *. rewrite (O x N) in *. apply T. exact E.
  - intros t Lt. rewrite L in Lt. inversion Lt. subst t. destruct Hs as [->|[Hs Ds]]; [left; reflexivity|].
    right. rewrite (readline_ordinary s Hs). unfold is_dir in *. rewrite (O s (ordinary_ne s Hs)). exact Ds.
Qed.

(** Names of sub-directories: no assumption on the tree. *)
Lemma subdirs_in : forall n, is_dir B n = true ->
  exists l, subdirs B n = (n, Ok l) /\ forall x, In x l <-> is_dir (B ++ [x]) n = true.
Proof.
  intros n D. unfold is_dir in D. destruct (lookup B n) as [[s|d]|] eqn:L; try discriminate.
  exists (sort_s (filter (fun x => is_dir (B ++ [x]) n) (keys d))). split.
  - unfold subdirs, bindM, look, listdir, need. rewrite L. reflexivity.
  - intro x. rewrite sort_in, filter_In. split; [tauto|]. intro H. split; [|exact H].
    unfold is_dir in H. rewrite lookup_app, L in H. cbn [lookup] in H.
    destruct (dget x d) as [v|] eqn:E; [|discriminate]. apply (dget_keys d x v E).
Qed.

Lemma tidy_dir : forall x n, tidy B n -> x <> ".current" -> exists_at (B ++ [x]) n = true ->
  ordinary x = true /\ is_dir (B ++ [x]) n = true.
Proof. intros x n [_ T] N E. destruct (T x E) as [[H _]|H]; [contradiction|exact H]. Qed.

Lemma dir_ordinary : forall x n, tidy B n -> is_dir (B ++ [x]) n = true -> ordinary x = true.
Proof.
  intros x n [_ T] D. destruct (T x (is_dir_exists _ _ D)) as [[_ H]|[H _]]; [|exact H].
  unfold is_dir in D. unfold is_file in H. destruct (lookup (B ++ [x]) n) as [[]|]; discriminate.
Qed.

Lemma base_dir : forall x n, exists_at (B ++ [x]) n = true -> is_dir B n = true.
Proof. intros x n. apply (exists_parent_dir B x []). Qed.

Lemma fallback_in : forall l x, fallback l = Some x -> In x l.
Proof.
  intros l x H. unfold fallback in H. destruct (mem_s "default" l) eqn:E.
  - apply mem_s_in in E. inversion H. subst. exact E.
  - destruct l; inversion H. left. reflexivity.
Qed.

(** ** Removing, renaming and copying entries *)

(** The marker may name an entry [x] that is gone. *)
Definition but (x : string) (n : node) : Prop :=
  tidy B n /\ is_dir B n = true /\
  forall t, lookup (B ++ [".current"]) n = Some (NFile t) ->
    readline t = "" \/ readline t = x \/ is_dir (B ++ [readline t]) n = true.

Lemma but_done : forall x n, but x n ->
  (forall t, lookup (B ++ [".current"]) n = Some (NFile t) -> readline t <> x) -> cinv B n.
Proof.
  intros x n [T [_ C]] H. split; [exact T|]. intros t L. destruct (C t L) as [E|[E|E]]; auto.
  exfalso. apply (H t L E).
Qed.

Lemma dir_of : forall x n, tidy B n -> ordinary x = true -> exists_at (B ++ [x]) n = true ->
  exists d, lookup (B ++ [x]) n = Some (NDir d).
Proof.
  intros x n T O E. destruct (tidy_dir x n T (ordinary_ne x O) E) as [_ D].
  unfold is_dir in D. destruct (lookup (B ++ [x]) n) as [[s|d]|]; try discriminate. exists d. reflexivity.
Qed.

Lemma rmtree_but : forall x n, cinv B n -> ordinary x = true -> exists_at (B ++ [x]) n = true ->
  exists n', rmtree (B ++ [x]) n = Some n' /\ but x n' /\ lookup (B ++ [x]) n' = None /\
             others x n n'.
Proof.
  intros x n [T C] O E. destruct (dir_of x n T O E) as [d L].
  destruct (write_ok false B x None n (base_dir x n E)) as [n' H].
  exists n'. unfold rmtree, is_dir. rewrite L. split; [exact H|].
  pose proof (write_at _ _ _ _ _ H) as L'.
  assert (F : others x n n').
  { intros y N. apply (write_other _ _ _ _ _ _ H). apply child_apart. congruence. }
  pose proof (write_above _ _ _ _ _ B [x] H eq_refl ltac:(discriminate)) as [D' _].
  split; [|split; [exact L'|exact F]].
  destruct (drop_entry x n n' T) as [T' _]; auto.
  { unfold is_dir in D'. unfold is_file. destruct (lookup B n') as [[]|]; congruence. }
  split; [exact T'|]. split; [exact D'|]. intros t Lt.
  rewrite (F ".current") in Lt by (intro X; apply (ordinary_ne x O); congruence).
  destruct (C t Lt) as [K|K]; [left; exact K|]. right.
  destruct (string_dec (readline t) x) as [Q|Q]; [left; exact Q|]. right. unfold is_dir in *. rewrite (F _ Q). exact K.
Qed.

Lemma rename_but : forall x y n n', cinv B n -> ordinary x = true -> ordinary y = true ->
  exists_at (B ++ [x]) n = true -> exists_at (B ++ [y]) n = false ->
  lookup (B ++ [y]) n' = lookup (B ++ [x]) n -> lookup (B ++ [x]) n' = None ->
  only [B ++ [x]; B ++ [y]] n n' ->
  but x n' /\ is_dir (B ++ [y]) n' = true.
Proof.
  intros x y n n' [T C] Ox Oy E N L1 L2 F. destruct (dir_of x n T Ox E) as [d L].
  assert (D : is_dir (B ++ [y]) n' = true) by (unfold is_dir; rewrite L1, L; reflexivity).
  assert (O : forall z, z <> x -> z <> y -> lookup (B ++ [z]) n' = lookup (B ++ [z]) n).
  { intros z Zx Zy. apply F. intros P [<-|[<-|[]]]; apply child_apart; congruence. }
  pose proof (base_dir y n' (is_dir_exists _ _ D)) as DB.
  split; [|exact D]. split; [|split; [exact DB|]].
  - split.
    + unfold is_dir in DB. unfold is_file. destruct (lookup B n') as [[]|]; congruence.
    + intros z Z. destruct (string_dec z x) as [->|Zx]; [unfold exists_at in Z; rewrite L2 in Z; discriminate|].
      destruct (string_dec z y) as [->|Zy]; [right; auto|].
      destruct T as [_ T]. unfold exists_at, is_file, is_dir in *. rewrite (O z Zx Zy) in *. apply T. exact Z.
  - intros t Lt.
    rewrite (O ".current") in Lt; [|intro X; apply (ordinary_ne x Ox); congruence|intro X; apply (ordinary_ne y Oy); congruence].
    destruct (C t Lt) as [K|K]; [left; exact K|]. right.
    destruct (string_dec (readline t) x) as [Q|Q]; [left; exact Q|]. right.
    destruct (string_dec (readline t) y) as [->|Q2]; [exact D|]. unfold is_dir in *. rewrite (O _ Q Q2). exact K.
Qed.

Lemma new_entry : forall y d n n', cinv B n -> ordinary y = true -> others y n n' ->
  lookup (B ++ [y]) n' = Some (NDir d) -> cinv B n'.
Proof.
  intros y d n n' [T C] O F L.
  destruct (put_dir y n n' T F O) as [T' C']; [unfold is_dir; rewrite L; reflexivity|]. split; auto.
Qed.

(** ** Changes strictly below an entry *)

Definition below (w : string) (n n' : node) : Prop :=
  n' = n \/ (others w n n' /\ is_dir (B ++ [w]) n' = true).

Lemma below_trans : forall w a b c, below w a b -> below w b c -> below w a c.
Proof.
  intros w a b c [->|[H1 H2]] [->|[H3 H4]]; [left; reflexivity|right; auto|right; auto|].
  right. split; [|exact H4]. intros x N. rewrite (H3 x N). apply H1. exact N.
Qed.

Lemma below_keeps : forall w n n', ordinary w = true -> below w n n' ->
  tidy B n -> current_valid B n -> tidy B n' /\ current_valid B n'.
Proof.
  intros w n n' Hw [->|[H1 H2]] T C; [auto|].
  destruct (put_dir w n n' T H1 Hw H2) as [T' C']. auto.
Qed.

Definition prim_below (w : string) (f : node -> option node) : Prop :=
  forall n n', f n = Some n' -> below w n n'.

Lemma write_below_entry : forall w c r mk v, prim_below w (write mk (B ++ w :: c :: r) v).
Proof.
  intros w c r mk v n n' H. right. split.
  - intros x N. apply (write_other _ _ _ _ _ _ H). apply apart_siblings. congruence.
  - apply (write_above mk (B ++ w :: c :: r) v n n' (B ++ [w]) (c :: r) H); [|discriminate].
    rewrite <- app_assoc. reflexivity.
Qed.

Definition deeper (w : string) (p : path) : Prop := exists c r, p = B ++ w :: c :: r.

Lemma write_deeper : forall w p mk v, deeper w p -> prim_below w (write mk p v).
Proof. intros w p mk v [c [r ->]]. apply write_below_entry. Qed.
Lemma makedirs_deeper : forall w p, deeper w p -> prim_below w (makedirs p).
Proof. intros. apply write_deeper. assumption. Qed.
Lemma mkdir_deeper : forall w p, deeper w p -> prim_below w (mkdir p).
Proof. intros w p D n n' H. unfold mkdir in H. destruct (exists_at p n); [discriminate|]. exact (write_deeper w p _ _ D n n' H). Qed.
Lemma rmtree_deeper : forall w p, deeper w p -> prim_below w (rmtree p).
Proof. intros w p D n n' H. unfold rmtree in H. destruct (is_dir p n); [|discriminate]. exact (write_deeper w p _ _ D n n' H). Qed.
Lemma remove_deeper : forall w p, deeper w p -> prim_below w (remove p).
Proof. intros w p D n n' H. unfold remove in H. destruct (is_file p n); [|discriminate]. exact (write_deeper w p _ _ D n n' H). Qed.
Lemma write_file_deeper : forall w p s, deeper w p -> prim_below w (write_file p s).
Proof. intros w p s D n n' H. unfold write_file in H. destruct (is_dir p n); [discriminate|]. exact (write_deeper w p _ _ D n n' H). Qed.
Lemma rewrite_file_deeper : forall w p s, deeper w p -> prim_below w (rewrite_file p s).
Proof. intros w p s D n n' H. unfold rewrite_file in H. destruct (is_file p n); [|discriminate]. exact (write_deeper w p _ _ D n n' H). Qed.
Lemma copytree_deeper : forall w p q, deeper w q -> prim_below w (copytree p q).
Proof.
  intros w p q D n n' H. unfold copytree in H. destruct (lookup p n) as [[]|]; try discriminate.
  destruct (exists_at q n); [discriminate|]. exact (write_deeper w q _ _ D n n' H).
Qed.
Lemma os_rename_deeper : forall w p q, deeper w p -> deeper w q -> prim_below w (os_rename p q).
Proof.
  intros w p q D1 D2 n n' H. unfold os_rename in H. destruct (lookup p n) as [x|]; [|discriminate].
  destruct (path_eqb p q); [inversion H; left; reflexivity|]. destruct (is_prefix p q); [discriminate|].
  assert (K : forall n1, write false q (Some x) n = Some n1 -> write false p None n1 = Some n' -> below w n n').
  { intros n1 H1 H2. apply (below_trans w n n1 n'); [exact (write_deeper w q _ _ D2 n n1 H1)|exact (write_deeper w p _ _ D1 n1 n' H2)]. }
  destruct (lookup q n) as [[s|[|e d]]|]; destruct x as [s'|d']; try discriminate;
    (destruct (write false q _ n) as [n1|] eqn:E1; [|discriminate]; apply (K n1 eq_refl H)).
Qed.
Lemma deeper_app : forall w p r, deeper w p -> deeper w (p ++ r).
Proof. intros w p r [c [q ->]]. exists c, (q ++ r). rewrite <- app_assoc. reflexivity. Qed.
Lemma copy_file_deeper : forall w p q, deeper w q -> prim_below w (copy_file p q).
Proof.
  intros w p q D n n' H. unfold copy_file in H.
  set (real := if is_dir q n then q ++ [last p ""] else q) in *.
  assert (D' : deeper w real) by (unfold real; destruct (is_dir q n); [apply deeper_app|]; exact D).
  destruct (path_eqb p real); [discriminate|]. destruct (lookup p n) as [[]|]; try discriminate.
  exact (write_file_deeper w real _ D' n n' H).
Qed.

Definition stays {A} (w : string) (m : M A) : Prop := forall n, below w n (fst (m n)).

Lemma stays_ret : forall A w (a : A), stays w (ret a).
Proof. intros A w a n. left. reflexivity. Qed.
Lemma stays_fail : forall A w e, stays w (@fail A e).
Proof. intros A w e n. left. reflexivity. Qed.
Lemma stays_look : forall A w (f : node -> A), stays w (look f).
Proof. intros A w f n. left. reflexivity. Qed.
Lemma stays_need : forall A w e (o : option A), stays w (need e o).
Proof. intros A w e [a|] n; left; reflexivity. Qed.
Lemma stays_fs : forall w e f, prim_below w f -> stays w (fs e f).
Proof. intros w e f H n. unfold fs. destruct (f n) as [n'|] eqn:E; [apply H; exact E|left; reflexivity]. Qed.
Lemma stays_bind : forall A C w (m : M A) (f : A -> M C),
  stays w m -> (forall a, stays w (f a)) -> stays w (bindM m f).
Proof.
  intros A C w m f H1 H2 n. unfold bindM. specialize (H1 n).
  destruct (m n) as [n1 [a|e]]; cbn in H1 |- *; [|exact H1].
  apply (below_trans w n n1); [exact H1|apply H2].
Qed.
Lemma stays_then : forall A C w (m : M A) (k : M C), stays w m -> stays w k -> stays w (thenM m k).
Proof. intros. unfold thenM. apply stays_bind; auto. Qed.
Lemma stays_if : forall A w (b : bool) (m k : M A), stays w m -> stays w k -> stays w (if b then m else k).
Proof. intros A w [] m k H1 H2; assumption. Qed.
Lemma stays_for : forall A w (f : A -> M unit) l, (forall x, In x l -> stays w (f x)) -> stays w (forM f l).
Proof.
  intros A w f l. induction l as [|x r IH]; intro H; cbn [forM]; [apply stays_ret|].
  apply stays_then; [apply H; left; reflexivity|apply IH; intros; apply H; right; assumption].
Qed.
Lemma stays_catch : forall A w sel (m : M A), stays w m -> stays w (catch sel m).
Proof. intros A w sel m H n. unfold catch. specialize (H n). destruct (m n) as [n1 [a|e]]; exact H. Qed.

End Cur.

Ltac stay :=
  repeat match goal with
  | |- stays _ _ (ret _) => apply stays_ret
  | |- stays _ _ (fail _) => apply stays_fail
  | |- stays _ _ (look _) => apply stays_look
  | |- stays _ _ (need _ _) => apply stays_need
  | |- stays _ _ (thenM _ _) => apply stays_then
  | |- stays _ _ (if _ then _ else _) => apply stays_if
  | |- stays _ _ (bindM _ _) => apply stays_bind; [|intro]
  | |- stays _ _ (forM _ _) => apply stays_for; intros
  | |- stays _ _ (catch _ _) => apply stays_catch
  end.
