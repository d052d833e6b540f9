(** Python dictionaries with string keys, as association lists in insertion
    order.  Shared vocabulary, not repository code: [d.get(k)], [d[k] = v],
    [d.pop(k)], [d.update(e)]. *)
From Coq Require Import String List Bool.
Import ListNotations.

Definition dict (V : Type) := list (string * V).

Fixpoint dget {V} (k : string) (d : dict V) : option V :=
  match d with
  | [] => None
  | (k', v) :: r => if (k =? k')%string then Some v else dget k r
  end.

Fixpoint dset {V} (k : string) (v : V) (d : dict V) : dict V :=
  match d with
  | [] => [(k, v)]
  | (k', v') :: r => if (k =? k')%string then (k', v) :: r else (k', v') :: dset k v r
  end.

Fixpoint dpop {V} (k : string) (d : dict V) : dict V :=
  match d with
  | [] => []
  | (k', v') :: r => if (k =? k')%string then r else (k', v') :: dpop k r
  end.

Definition dmem {V} (k : string) (d : dict V) : bool :=
  match dget k d with Some _ => true | None => false end.

Fixpoint dupdate {V} (d e : dict V) : dict V :=
  match e with
  | [] => d
  | (k, v) :: r => dupdate (dset k v d) r
  end.

Definition keys {V} (d : dict V) : list string := map fst d.
Definition is_dict {V} (d : dict V) : Prop := NoDup (keys d).

Section Facts.
Context {V : Type}.
Implicit Types d e : dict V.

Lemma dget_dset_same : forall k v d, dget k (dset k v d) = Some v.
Proof.
  intros k v d. induction d as [|[k' v'] r IH]; cbn.
  - rewrite String.eqb_refl. reflexivity.
  - destruct (k =? k')%string eqn:E; cbn; rewrite E; auto.
Qed.

Lemma dget_dset_other : forall k k' v d, k <> k' -> dget k (dset k' v d) = dget k d.
Proof.
  intros k k' v d H. induction d as [|[k0 v0] r IH]; cbn.
  - destruct (k =? k')%string eqn:E; [apply String.eqb_eq in E; contradiction|reflexivity].
  - destruct (k' =? k0)%string eqn:E; cbn.
    + apply String.eqb_eq in E. subst.
      destruct (k =? k0)%string eqn:E1; [apply String.eqb_eq in E1; contradiction|reflexivity].
    + destruct (k =? k0)%string; auto.
Qed.

Lemma dget_dset : forall k k' v d,
  dget k (dset k' v d) = if (k =? k')%string then Some v else dget k d.
Proof.
  intros. destruct (k =? k')%string eqn:E.
  - apply String.eqb_eq in E. subst. apply dget_dset_same.
  - apply dget_dset_other. apply String.eqb_neq. exact E.
Qed.

Lemma dget_none : forall k d, dget k d = None <-> ~ In k (keys d).
Proof.
  intros k d. induction d as [|[k' v'] r IH]; cbn.
  - tauto.
  - destruct (k =? k')%string eqn:E.
    + apply String.eqb_eq in E. subst. split; [discriminate|intro H; exfalso; apply H; auto].
    + apply String.eqb_neq in E. rewrite IH. split.
      * intros H [H1|H1]; [congruence|auto].
      * intros H H1. apply H. auto.
Qed.

Lemma dget_some_in : forall k v d, dget k d = Some v -> In (k, v) d.
Proof.
  intros k v d. induction d as [|[k' v'] r IH]; cbn; [discriminate|].
  destruct (k =? k')%string eqn:E.
  - apply String.eqb_eq in E. intro H. inversion H. subst. auto.
  - auto.
Qed.

Lemma dget_in : forall k v d, is_dict d -> In (k, v) d -> dget k d = Some v.
Proof.
  intros k v d Hd. induction d as [|[k' v'] r IH]; cbn; [contradiction|].
  inversion Hd as [|? ? Hn Hr]; subst.
  intros [H|H].
  - inversion H; subst. rewrite String.eqb_refl. reflexivity.
  - destruct (k =? k')%string eqn:E.
    + apply String.eqb_eq in E. subst. exfalso. apply Hn.
      apply in_map_iff. exists (k', v). auto.
    + apply IH; assumption.
Qed.

Lemma dmem_in : forall k d, dmem k d = true <-> In k (keys d).
Proof.
  intros. unfold dmem. destruct (dget k d) eqn:E.
  - split; auto. intros _. apply dget_some_in in E. apply in_map_iff. exists (k, v). auto.
  - apply dget_none in E. split; [discriminate|contradiction].
Qed.

Lemma keys_dset : forall k v d x, In x (keys (dset k v d)) <-> x = k \/ In x (keys d).
Proof.
  intros k v d x. induction d as [|[k' v'] r IH]; cbn.
  - intuition.
  - destruct (k =? k')%string eqn:E; cbn.
    + apply String.eqb_eq in E. subst. intuition.
    + unfold keys in *. rewrite IH. intuition.
Qed.

Lemma is_dict_dset : forall k v d, is_dict d -> is_dict (dset k v d).
Proof.
  intros k v d. induction d as [|[k' v'] r IH]; cbn; intro H.
  - constructor; [intros []|constructor].
  - inversion H as [|? ? Hn Hr]; subst. destruct (k =? k')%string eqn:E.
    + constructor; auto.
    + unfold is_dict in *. cbn. constructor.
      * intro H1. apply keys_dset in H1. destruct H1 as [H1|H1].
        -- subst. rewrite String.eqb_refl in E. discriminate.
        -- contradiction.
      * apply IH. exact Hr.
Qed.

Lemma keys_dpop_in : forall k d x, In x (keys (dpop k d)) -> In x (keys d).
Proof.
  intros k d x. induction d as [|[k' v'] r IH]; cbn; auto.
  destruct (k =? k')%string; cbn; intuition.
Qed.

Lemma is_dict_dpop : forall k d, is_dict d -> is_dict (dpop k d).
Proof.
  intros k d. induction d as [|[k' v'] r IH]; cbn; intro H; auto.
  inversion H as [|? ? Hn Hr]; subst. destruct (k =? k')%string; auto.
  unfold is_dict. cbn. constructor.
  - intro H1. apply keys_dpop_in in H1. contradiction.
  - apply IH. exact Hr.
Qed.

Lemma dget_dpop : forall k k' d, is_dict d ->
  dget k (dpop k' d) = if (k =? k')%string then None else dget k d.
Proof.
  intros k k' d. induction d as [|[k0 v0] r IH]; cbn; intro H.
  - destruct (k =? k')%string; reflexivity.
  - inversion H as [|? ? Hn Hr]; subst.
    destruct (k' =? k0)%string eqn:E; cbn.
    + apply String.eqb_eq in E. subst.
      destruct (k =? k0)%string eqn:E1; [|reflexivity].
      apply String.eqb_eq in E1. subst. apply dget_none. exact Hn.
    + destruct (k =? k0)%string eqn:E1.
      * apply String.eqb_eq in E1. subst.
        destruct (k0 =? k')%string eqn:E2; [|reflexivity].
        apply String.eqb_eq in E2. subst. rewrite String.eqb_refl in E. discriminate.
      * apply IH. exact Hr.
Qed.

Lemma is_dict_dupdate : forall e d, is_dict d -> is_dict (dupdate d e).
Proof.
  induction e as [|[k v] r IH]; cbn; auto. intros d H. apply IH. apply is_dict_dset. exact H.
Qed.

Lemma dget_dupdate : forall e d k, is_dict e ->
  dget k (dupdate d e) = match dget k e with Some v => Some v | None => dget k d end.
Proof.
  induction e as [|[k' v'] r IH]; cbn; intros d k H; [reflexivity|].
  inversion H as [|? ? Hn Hr]; subst. rewrite IH by exact Hr.
  rewrite dget_dset. destruct (k =? k')%string eqn:E; [|reflexivity].
  apply String.eqb_eq in E. subst.
  replace (dget k' r) with (@None V); [reflexivity|].
  symmetry. apply dget_none. exact Hn.
Qed.
End Facts.
