(** List lemmas used by the processing-chain proofs. *)
From Coq Require Import List ZArith QArith Bool Lia Arith Sorted.
From Verif Require Import Common BeamModel BeamSpec BeamProofs ChainModel ChainSpec.
Import ListNotations.
Local Open Scope nat_scope.

Lemma increasing_app : forall l1 l2,
  increasing (l1 ++ l2) <->
  increasing l1 /\ increasing l2 /\ (forall a b, In a l1 -> In b l2 -> a < b).
Proof.
  unfold increasing. induction l1 as [|x l1 IH]; intros l2; cbn.
  - split; [intro H; repeat split; auto; [constructor|tauto]|tauto].
  - split.
    + intro H. inversion H as [|? ? H1 H2]; subst. apply IH in H1. destruct H1 as (A & B & C).
      rewrite Forall_app in H2. destruct H2 as [F1 F2].
      repeat split; auto. { constructor; auto. }
      intros a b [->|Ha] Hb; auto. rewrite Forall_forall in F2. auto.
    + intros (A & B & C). inversion A as [|? ? A1 A2]; subst. constructor.
      * apply IH. repeat split; auto.
      * rewrite Forall_app; split; auto. apply Forall_forall. intros; apply C; auto.
Qed.

Lemma increasing_nil : increasing []. Proof. constructor. Qed.
Lemma increasing_one : forall x, increasing [x].
Proof. intros; repeat constructor. Qed.

Lemma increasing_snoc : forall l x,
  increasing l -> (forall a, In a l -> a < x) -> increasing (l ++ [x]).
Proof.
  intros l x H1 H2. apply increasing_app. repeat split; auto using increasing_one.
  intros a b Ha [->|[]]; auto.
Qed.

Lemma increasing_NoDup : forall l, increasing l -> NoDup l.
Proof.
  induction 1; constructor; auto. intro HI. rewrite Forall_forall in H0.
  specialize (H0 _ HI). lia.
Qed.

Lemma seq_increasing : forall n a, increasing (seq a n).
Proof.
  induction n; intros a; cbn; constructor. apply IHn.
  apply Forall_forall. intros x Hx. apply in_seq in Hx. lia.
Qed.

(** Subsequences. *)
Inductive subseq {A} : list A -> list A -> Prop :=
| sub_nil : forall l, subseq [] l
| sub_keep : forall x a b, subseq a b -> subseq (x :: a) (x :: b)
| sub_drop : forall x a b, subseq a b -> subseq a (x :: b).

Lemma subseq_refl : forall {A} (l : list A), subseq l l.
Proof. induction l; constructor; auto. Qed.

Lemma subseq_in : forall {A} (a b : list A), subseq a b -> forall x, In x a -> In x b.
Proof. induction 1; cbn; intros; intuition. Qed.

Lemma subseq_trans : forall {A} (b c : list A), subseq b c -> forall a, subseq a b -> subseq a c.
Proof.
  induction 1; intros a' Ha.
  - inversion Ha; subst; constructor.
  - inversion Ha; subst; constructor; auto.
  - constructor; auto.
Qed.

Lemma subseq_map : forall {A B} (f : A -> B) a b, subseq a b -> subseq (map f a) (map f b).
Proof. induction 1; cbn; constructor; auto. Qed.

Lemma subseq_skipn : forall {A} n (l : list A), subseq (skipn n l) l.
Proof. induction n; intros [|x l]; cbn; try apply subseq_refl. constructor. apply IHn. Qed.

Lemma subseq_last_n : forall {A} n (l : list A), subseq (last_n n l) l.
Proof. intros. apply subseq_skipn. Qed.

Lemma subseq_take_while : forall {A} p (l : list A), subseq (take_while p l) l.
Proof. induction l; cbn; [constructor|]. destruct (p a); constructor; auto. Qed.

Lemma subseq_drop_while : forall {A} p (l : list A), subseq (drop_while p l) l.
Proof.
  induction l as [|x l IH]; cbn; [constructor|].
  destruct (p x); [constructor; auto|apply subseq_refl].
Qed.

Lemma subseq_first_run : forall {A} p (l : list A), subseq (first_run p l) l.
Proof.
  intros. unfold first_run. eapply subseq_trans; [|apply subseq_take_while].
  apply subseq_drop_while.
Qed.

Lemma increasing_subseq : forall a b, subseq a b -> increasing b -> increasing a.
Proof.
  induction 1; intro H1.
  - constructor.
  - inversion H1; subst. constructor. { apply IHsubseq; auto. }
    apply Forall_forall. intros y Hy. rewrite Forall_forall in H4.
    apply H4. eapply subseq_in; eauto.
  - inversion H1; subst. auto.
Qed.

Lemma NoDup_subseq : forall {A} (a b : list A), subseq a b -> NoDup b -> NoDup a.
Proof.
  induction 1; intro H1.
  - constructor.
  - inversion H1; subst. constructor; auto. intro; apply H3. eapply subseq_in; eauto.
  - inversion H1; subst; auto.
Qed.

(** Position of a number in a list. *)
Fixpoint find_idx (c : nat) (l : list nat) : option nat :=
  match l with
  | [] => None
  | x :: r => if Nat.eqb x c then Some 0 else option_map S (find_idx c r)
  end.

Lemma find_idx_some : forall c l i, find_idx c l = Some i -> nth_error l i = Some c.
Proof.
  induction l as [|x l IH]; cbn; intros i H; [discriminate|].
  destruct (Nat.eqb_spec x c).
  - inversion H; subst; reflexivity.
  - destruct (find_idx c l); inversion H; subst; cbn; auto.
Qed.

Lemma find_idx_none : forall c l, find_idx c l = None <-> ~ In c l.
Proof.
  induction l as [|x l IH]; cbn; [tauto|].
  destruct (Nat.eqb_spec x c).
  - split; [discriminate|intro H; exfalso; apply H; auto].
  - destruct (find_idx c l); cbn.
    + split; [discriminate|]. intro H. exfalso. apply H. right.
      destruct (in_dec Nat.eq_dec c l); auto. apply IH in n1. discriminate.
    + split; auto. intros _ [E|E]; [congruence|]. apply IH in E; auto.
Qed.

Definition add_entry (s : surface) (e : entry) : surface :=
  mk_surface (s_uid s) (s_counter s) (s_loc s) (s_stack s ++ [e]).

Definition paired (N : nat) (p : packet) (t : Z) (size idx : nat) (seen : list nat) (s : surface) : surface :=
  match find_idx (s_counter s) seen with
  | None => s
  | Some i => add_entry s (mk_entry (p_uid p) (p_counter p) (idx + i) (abs_index N (idx + i) t size))
  end.

Lemma pair_loop_map : forall N p t size surfs idx seen,
  NoDup (map s_counter surfs) -> subseq seen (map s_counter surfs) ->
  pair_loop N p t size idx seen surfs = map (paired N p t size idx seen) surfs.
Proof.
  intros N p t size. induction surfs as [|s ss IH]; intros idx seen ND SS.
  - reflexivity.
  - destruct seen as [|c cs].
    + cbn [pair_loop]. rewrite <- (map_id (s :: ss)) at 1. apply map_ext. intros; reflexivity.
    + cbn [pair_loop map]. cbn [map] in ND, SS. inversion ND as [|? ? ND1 ND2]; subst.
      unfold paired at 1. cbn [find_idx].
      destruct (Nat.eqb_spec (s_counter s) c) as [E|E].
      * subst c. rewrite Nat.eqb_refl.
        assert (SS' : subseq cs (map s_counter ss)).
        { inversion SS as [|x a b SS1|x a b SS1]; subst; auto.
          exfalso. apply ND1. eapply subseq_in; eauto. left; reflexivity. }
        rewrite IH by auto. f_equal.
        { unfold add_entry. rewrite Nat.add_0_r. reflexivity. }
        apply map_ext_in. intros s' Hs'. unfold paired. cbn [find_idx].
        destruct (Nat.eqb_spec (s_counter s) (s_counter s')) as [E2|E2].
        { exfalso. apply ND1. rewrite E2. apply in_map; auto. }
        destruct (find_idx (s_counter s') cs); cbn; auto.
        now rewrite Nat.add_succ_r.
      * destruct (Nat.eqb_spec c (s_counter s)); [congruence|].
        assert (SS' : subseq (c :: cs) (map s_counter ss)).
        { inversion SS; subst; auto. congruence. }
        rewrite IH by auto. f_equal.
        assert (find_idx (s_counter s) cs = None) as ->.
        { apply find_idx_none. intro HI. apply ND1.
          eapply subseq_in; [exact SS'|right; auto]. }
        reflexivity.
Qed.

(** Last valid record. *)
Lemma last_valid_from_snoc : forall l t x,
  last_valid_from t (l ++ [x]) = match x with Valid y => Some y | _ => last_valid_from t l end.
Proof.
  induction l as [|a l IH]; intros t x; cbn.
  - destruct x; reflexivity.
  - destruct a; rewrite IH; reflexivity.
Qed.

Lemma last_valid_snoc : forall l x,
  last_valid (l ++ [x]) = match x with Valid y => Some y | _ => last_valid l end.
Proof. intros. apply last_valid_from_snoc. Qed.

Lemma firstn_snoc : forall {A} n (l : list A) x,
  nth_error l n = Some x -> firstn (S n) l = firstn n l ++ [x].
Proof.
  induction n; intros [|a l] x H; try discriminate; cbn in *.
  - inversion H; reflexivity.
  - rewrite <- (IHn l x H). reflexivity.
Qed.

Lemma skipn_cons_nth : forall {A} n (l : list A) x r,
  skipn n l = x :: r -> nth_error l n = Some x /\ skipn (S n) l = r /\ n < length l.
Proof.
  induction n; intros [|a l] x r H; cbn in *; try discriminate.
  - inversion H; subst; repeat split; auto; cbn; lia.
  - apply IHn in H. destruct H as (A1 & A2 & A3). repeat split; auto; lia.
Qed.

(** Trends of a growing history. *)
Definition psize_of (sizes : list nat) : Z :=
  match rev sizes with [] => (-1)%Z | s :: _ => Z.of_nat s end.

Lemma trends_from_app : forall N l a b x,
  trends_from N a b (l ++ [x]) =
  trends_from N a b l ++
  [trend N x (match rev l with [] => a | s :: _ => Z.of_nat s end)
             (last (trends_from N a b l) b)].
Proof.
  intros N. induction l as [|y l IH]; intros a b x; [reflexivity|].
  cbn [app trends_from]. rewrite IH. cbn [app]. f_equal. f_equal. f_equal. f_equal.
  - cbn [rev]. destruct (rev l) as [|z r]; reflexivity.
  - set (b' := trend N y a b). cbn [last].
    destruct (trends_from N (Z.of_nat y) b' l) eqn:E; [reflexivity|].
    rewrite <- E.
    assert (D : forall (l : list Z) d d', l <> [] -> last l d = last l d').
    { clear. induction l as [|u l IH]; intros d d' H; [congruence|].
      destruct l; auto. cbn [last] in *. apply IH. discriminate. }
    apply D. rewrite E. discriminate.
Qed.

Lemma trends_snoc : forall N l x,
  trends N (l ++ [x]) = trends N l ++ [trend N x (psize_of l) (last (trends N l) (-1)%Z)].
Proof. intros. unfold trends. rewrite trends_from_app. reflexivity. Qed.

Lemma psize_of_snoc : forall l x, psize_of (l ++ [x]) = Z.of_nat x.
Proof. intros. unfold psize_of. rewrite rev_app_distr. reflexivity. Qed.

Lemma last_snoc : forall {A} (l : list A) x d, last (l ++ [x]) d = x.
Proof.
  induction l as [|a l IH]; intros x d; [reflexivity|].
  specialize (IH x d). cbn [app last].
  destruct (l ++ [x]) eqn:E; [destruct l; discriminate|exact IH].
Qed.

(** [drop_until] keeps a suffix. *)
Lemma drop_until_subseq : forall c l, subseq (drop_until c l) l.
Proof.
  induction l as [|p l IH]; cbn; [constructor|].
  destruct (Nat.eqb (p_counter p) c); [apply subseq_refl|constructor; auto].
Qed.

Lemma NoDup_app_right : forall {A} (l1 l2 : list A), NoDup (l1 ++ l2) -> NoDup l2.
Proof. induction l1; cbn; intros l2 H; auto. inversion H; subst; auto. Qed.
