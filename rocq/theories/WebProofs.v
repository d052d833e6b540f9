(** Lemmas for C109-C110. *)
From Coq Require Import Ascii String List Bool Arith Lia Permutation Sorted Reals Lra.
From Verif Require Import Common Dict FsModel FsProofs WsModel WsSpec WsProofs IoSpec IoProofs ConfModel FigModel WebModel WebSpec.
Import ListNotations.
Open Scope string_scope.
Open Scope list_scope.

Lemma insert_lower_perm : forall x l, Permutation (x :: l) (insert_lower x l).
Proof.
  induction l as [|y l IH]; cbn; [reflexivity|]. destruct (lower x <=? lower y)%string; [reflexivity|].
  rewrite perm_swap. now constructor.
Qed.
Lemma sort_lower_perm : forall l, Permutation l (sort_lower l).
Proof. induction l as [|x l IH]; cbn; [reflexivity|]. rewrite <- insert_lower_perm. now constructor. Qed.
Definition lower_le (a b : string) : Prop := sle (lower a) (lower b).
Lemma insert_lower_sorted : forall x l, StronglySorted lower_le l -> StronglySorted lower_le (insert_lower x l).
Proof.
  induction l as [|y l IH]; intros S; cbn; [repeat constructor|].
  inversion S as [|? ? S' F]; subst. destruct (lower x <=? lower y)%string eqn:E.
  - constructor; [exact S|]. constructor; [exact E|]. rewrite Forall_forall in F |- *. intros z I.
    apply (sle_trans _ (lower y)); [exact E|exact (F z I)].
  - constructor; [now apply IH|]. rewrite Forall_forall in F |- *. intros z I.
    apply (Permutation_in _ (Permutation_sym (insert_lower_perm x l))) in I as [<-|I]; [|now apply F].
    now apply sle_total_neg.
Qed.
Lemma sort_lower_sorted : forall l, StronglySorted lower_le (sort_lower l).
Proof. induction l; cbn; [constructor|now apply insert_lower_sorted]. Qed.

Section Files.
Variable W : path.
Variable dumps : json -> string.
Variable loads : string -> option json.

Lemma cfile : forall w c key, plain w = true -> plain c = true -> has_char slash key = false ->
  config_file W w c key = config_dir W w c ++ [(key ++ ".json")%string].
Proof. intros. rewrite config_file_below, config_path_dir by assumption. reflexivity. Qed.

Lemma rewrite_is : forall p x s t n, file_at n (p ++ [x]) t -> exists n',
  rewrite_file (p ++ [x]) s n = Some n' /\ files_changed n n' [p ++ [x]] (fun _ u => u = s).
Proof.
  intros p x s t n H. unfold file_at in H.
  assert (F : is_file (p ++ [x]) n = true) by (unfold is_file; now rewrite H).
  assert (D : is_dir (p ++ [x]) n = false) by (unfold is_dir; now rewrite H).
  assert (E : exists_at (p ++ [x]) n = true) by (unfold exists_at; now rewrite H).
  pose proof (exists_parent_dir p x [] n E) as P.
  destruct (write_ok false p x (Some (NFile s)) n P) as (n' & Wn).
  exists n'. split; [unfold rewrite_file; now rewrite F|].
  apply write_file_files. unfold write_file. now rewrite D.
Qed.

Lemma save_one_ok : forall w c key name conf t n, plain w = true -> plain c = true -> has_char slash key = false ->
  file_at n (config_dir W w c ++ [(key ++ ".json")%string]) t -> exists n',
  save_one W dumps w c key name conf n = (n', Ok tt) /\
  files_changed n n' [config_dir W w c ++ [(key ++ ".json")%string]]
    (fun _ u => u = dumps (match dget name conf with Some j => j | None => JNull end)).
Proof.
  intros w c key name conf t n Hw Hc Hk H. unfold save_one, fs. rewrite cfile by assumption.
  destruct (rewrite_is _ _ (dumps (match dget name conf with Some j => j | None => JNull end)) t n H) as (n' & R & F).
  exists n'. now rewrite R.
Qed.
Lemma save_one_missing : forall w c key name conf n, plain w = true -> plain c = true -> has_char slash key = false ->
  (forall t, ~ file_at n (config_dir W w c ++ [(key ++ ".json")%string]) t) ->
  save_one W dumps w c key name conf n = (n, Err EOs).
Proof.
  intros w c key name conf n Hw Hc Hk H. unfold save_one, fs, rewrite_file. rewrite cfile by assumption.
  unfold is_file. unfold file_at in H.
  destruct (lookup (config_dir W w c ++ [(key ++ ".json")%string]) n) as [[t|d]|]; try reflexivity.
  now elim (H t).
Qed.

Lemma get_one : forall w c key n s, plain w = true -> plain c = true -> has_char slash key = false ->
  file_at n (config_dir W w c ++ [(key ++ ".json")%string]) s ->
  get_config_json W loads w c key n =
    (n, match loads s with
        | Some (JObj d) => Ok (JObj d, sort_lower (keys d))
        | Some _ => Err FsModel.EType
        | None => Err EValue
        end).
Proof.
  intros w c key n s Hw Hc Hk H. unfold get_config_json, bindM, look, FsModel.read_file. rewrite cfile by assumption.
  unfold file_at in H. rewrite H. cbn. destruct (loads s) as [[]|]; reflexivity.
Qed.
End Files.

(** * Coordinates *)
Open Scope R_scope.

Lemma rising_all : forall l x, rising (x :: l) -> forall y, In y (x :: l) -> x <= y <= last (x :: l) x.
Proof.
  induction l as [|z l IH]; intros x H y I.
  - destruct I as [->|[]]. cbn. lra.
  - destruct H as (H1 & H2).
    assert (L : last (x :: z :: l) x = last (z :: l) z).
    { change (last (x :: z :: l) x) with (last (z :: l) x). clear. revert z. induction l as [|a l IH]; intros z; [reflexivity|].
      change (last (z :: a :: l) x) with (last (a :: l) x). change (last (z :: a :: l) z) with (last (a :: l) z).
      rewrite (IH a). clear IH. revert a. induction l as [|b l IH]; intros a; [reflexivity|].
      change (last (a :: b :: l) a) with (last (b :: l) a). change (last (a :: b :: l) z) with (last (b :: l) z).
      clear IH. revert b. induction l as [|d l IH]; intros b; [reflexivity|]. exact (IH d). }
    rewrite L. destruct I as [<-|I].
    + pose proof (IH z H2 z (or_introl eq_refl)). lra.
    + pose proof (IH z H2 y I). lra.
Qed.
Lemma last_map_opp : forall l x, last (map Ropp l) (- x) = - last l x.
Proof.
  induction l as [|z l IH]; intros x; [reflexivity|]. destruct l as [|a l]; [reflexivity|].
  change (last (map Ropp (z :: a :: l)) (- x)) with (last (map Ropp (a :: l)) (- x)). apply IH.
Qed.
Lemma falling_rising : forall l, falling l -> rising (map Ropp l).
Proof.
  induction l as [|x [|y l] IH]; cbn [map rising falling]; intros H; try exact I.
  destruct H as (H1 & H2). split; [lra|]. exact (IH H2).
Qed.
Lemma falling_all : forall l x, falling (x :: l) -> forall y, In y (x :: l) -> last (x :: l) x <= y <= x.
Proof.
  intros l x H y I. apply falling_rising in H. cbn [map] in H.
  assert (In (- y) (- x :: map Ropp l)).
  { change (- x :: map Ropp l) with (map Ropp (x :: l)). now apply in_map. }
  pose proof (rising_all _ _ H _ H0) as B.
  change (- x :: map Ropp l) with (map Ropp (x :: l)) in B. rewrite last_map_opp in B. lra.
Qed.
Lemma last_in : forall (l : list R) x, In (last (x :: l) x) (x :: l).
Proof.
  induction l as [|z l IH]; intros x; [now left|].
  assert (G : forall (l : list R) z d, In (last (z :: l) d) (z :: l)).
  { clear. induction l as [|a l IH]; intros z d; [now left|]. right. exact (IH a d). }
  apply G.
Qed.
