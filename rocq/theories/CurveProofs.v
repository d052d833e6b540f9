(** Lemmas for C129. *)
From Coq Require Import Ascii String List ZArith Reals Bool Arith Permutation Lia Lra DecimalString DecimalFacts DecimalPos DecimalN DecimalZ.
From Verif Require Import Common InspModel CurveModel CurveSpec.
Import ListNotations.
Open Scope string_scope.

Lemma has_in : forall d v, has d v = true <-> In v (d_names d).
Proof.
  intros d v. unfold has. rewrite existsb_exists. split.
  - intros (x & I & E). apply String.eqb_eq in E. subst. exact I.
  - intros I. exists v. split; [exact I|apply String.eqb_refl].
Qed.
Lemma arange_length : forall n, List.length (arange n) = n.
Proof. intros n. unfold arange. rewrite map_length, seq_length. reflexivity. Qed.
Lemma arange_nth : forall n i, (i < n)%nat -> nth_error (arange n) i = Some (INR i).
Proof.
  intros n i H. unfold arange. apply map_nth_error. rewrite nth_error_nth' with (d := 0%nat) by (rewrite seq_length; exact H).
  rewrite seq_nth by exact H. reflexivity.
Qed.
Lemma combine_nth : forall {A B} (a : list A) (b : list B) i x y, nth_error a i = Some x -> nth_error b i = Some y ->
  nth_error (combine a b) i = Some (x, y).
Proof. induction a as [|a0 a IH]; intros [|b0 b] [|i] x y; cbn; try discriminate; [congruence|apply IH]. Qed.
Lemma line_data_ok : forall d v n, over d v n -> line_data d v = Ok (d_vec d v).
Proof. intros d v n (I & D). unfold line_data. rewrite (proj2 (has_in d v) I), D. reflexivity. Qed.
Lemma line_data_over : forall d v l, line_data d v = Ok l -> exists n, over d v n /\ l = d_vec d v.
Proof.
  intros d v l H. unfold line_data in H. destruct (has d v) eqn:E; [|discriminate]. apply has_in in E.
  destruct (d_dims d v) as [|n [|m r]] eqn:D; try discriminate. injection H as <-. exists n. repeat split; assumption.
Qed.

Section Widgets.
Variable sort : list string -> list string.
Hypothesis HS : forall l, Permutation l (sort l).
Variable d : dataset.
Lemma sort_in : forall l x, In x (sort l) <-> In x l.
Proof. intros l x. split; apply Permutation_in; [apply Permutation_sym|]; apply HS. Qed.
Lemma group_in : forall dims v, In v (group d dims) <-> In v (d_names d) /\ d_dims d v = dims.
Proof.
  intros dims v. unfold group, eq_dims. rewrite filter_In. destruct (list_eq_dec string_dec (d_dims d v) dims); intuition congruence.
Qed.
Lemma two_in : forall (l : list string), NoDup l -> (1 < List.length l)%nat <-> exists v w, v <> w /\ In v l /\ In w l.
Proof.
  intros l N. split.
  - destruct l as [|v [|w l]]; cbn; try lia. intros _. exists v, w. inversion N as [|? ? N1 N2]; subst. split; [|cbn; auto].
    intros ->. apply N1. cbn; auto.
  - intros (v & w & D & I & J). destruct l as [|a [|b l]]; cbn in *; [tauto| |lia].
    destruct I as [<-|[]], J as [<-|[]]. congruence.
Qed.
Lemma line_dim_shared : NoDup (d_names d) -> forall n, line_dim d n = true <-> shared d n.
Proof.
  intros N n. unfold line_dim, shared. rewrite andb_true_iff, !Nat.ltb_lt, two_in by (apply NoDup_filter; exact N).
  split; intros (H1 & v & w & D & I & J); (split; [exact H1|]); exists v, w; (split; [exact D|]); split;
    try (apply group_in in I); try (apply group_in in J); try assumption; apply group_in; assumption.
Qed.
Lemma valid_in : NoDup (d_names d) -> forall v, In v (valid_names sort d) <-> exists n, over d v n /\ shared d n.
Proof.
  intros N v. unfold valid_names. rewrite sort_in, filter_In. split.
  - intros (I & H). destruct (d_dims d v) as [|n [|m r]] eqn:D; try discriminate. exists n. split; [split; assumption|]. apply line_dim_shared; assumption.
  - intros (n & (I & D) & S). split; [exact I|]. rewrite D. apply line_dim_shared; assumption.
Qed.
Lemma dims_in : NoDup (d_names d) -> forall n, In n (valid_dims sort d) <-> shared d n.
Proof.
  intros N n. unfold valid_dims. rewrite sort_in, nodup_In, in_flat_map. split.
  - intros (v & I & H). destruct (d_dims d v) as [|m [|k r]]; try contradiction. destruct (line_dim d m) eqn:L; [|contradiction].
    destruct H as [<-|[]]. apply line_dim_shared; assumption.
  - intros S. pose proof S as (_ & v & w & _ & (I & D) & _). exists v. split; [exact I|]. rewrite D.
    rewrite (proj2 (line_dim_shared N n) S). cbn; auto.
Qed.
Lemma pick_in : forall v l x, pick v l = Ok x -> In x l.
Proof.
  intros v [|o l] x H; [discriminate|]. unfold pick in H. destruct v as [s|]; [|injection H as <-; cbn; auto].
  destruct (negb (s =? "") && existsb (String.eqb s) (o :: l)) eqn:E; injection H as <-; [|cbn; auto].
  apply andb_true_iff in E. destruct E as (_ & E). apply existsb_exists in E. destruct E as (y & I & E). apply String.eqb_eq in E. subst. exact I.
Qed.

Hypothesis N : NoDup (d_names d).
Hypothesis SZ : sized d.

Lemma plot_index : forall y n, over d y n -> exists c, plot_line d "index" y = Ok c.
Proof.
  intros y n O. unfold plot_line. rewrite (line_data_ok d y n O). cbn [bind]. change ("index" =? "index")%string with true. cbv iota. cbn [bind].
  rewrite arange_length, Nat.eqb_refl. eauto.
Qed.
Lemma plot_same : forall x y n, over d x n -> over d y n -> exists c, plot_line d x y = Ok c.
Proof.
  intros x y n X Y. unfold plot_line. rewrite (line_data_ok d y n Y). cbn [bind]. destruct (x =? "index")%string; cbn [bind].
  - rewrite arange_length, Nat.eqb_refl. eauto.
  - rewrite (line_data_ok d x n X). cbn [bind]. rewrite (SZ x n X), (SZ y n Y), Nat.eqb_refl. eauto.
Qed.

Definition fits (p : panel) : Prop :=
  p_xs p = "index" :: valid_names sort d /\ In (p_y p) (p_ys p) /\
  ((p_x p = "index" /\ forall y, In y (p_ys p) -> exists n, over d y n) \/
   exists n, over d (p_x p) n /\ forall y, In y (p_ys p) -> over d y n).
Lemma session_fits : forall p, session sort d p -> fits p.
Proof.
  intros p H. induction H as [y p H|p x p' H IH I C|p y H IH I].
  - unfold start_line in H. destruct (pick y (valid_names sort d)) as [yv|] eqn:E; [|discriminate]. cbn in H. injection H as <-.
    split; [reflexivity|]. cbn. split; [apply (pick_in _ _ _ E)|]. left. split; [reflexivity|]. intros z Z. apply valid_in in Z; [|exact N].
    destruct Z as (n & O & _). eauto.
  - destruct IH as (X & Y & F). unfold choose_x in C. destruct (String.eqb_spec x (p_x p)) as [->|NE]; [injection C as <-; split; auto|].
    rewrite X in I. destruct (String.eqb_spec x "index") as [->|NI].
    + destruct (pick None (valid_names sort d)) as [yv|] eqn:E; [|discriminate]. cbn in C. injection C as <-. unfold fits. cbn.
      split; [exact X|]. split; [apply (pick_in _ _ _ E)|]. left. split; [reflexivity|]. intros z Z. apply valid_in in Z; [|exact N].
      destruct Z as (n & O & _). eauto.
    + destruct (pick None (sort (group d (d_dims d x)))) as [yv|] eqn:E; [|discriminate]. cbn in C. injection C as <-. unfold fits. cbn.
      split; [exact X|]. split; [apply (pick_in _ _ _ E)|]. right. destruct I as [I|I]; [congruence|]. apply valid_in in I; [|exact N].
      destruct I as (n & (I1 & I2) & _). exists n. split; [split; assumption|]. intros z Z. apply (proj1 (sort_in _ _)) in Z. apply group_in in Z. rewrite I2 in Z. exact Z.
  - destruct IH as (X & Y & F). unfold fits. cbn. auto.
Qed.
Lemma fits_plot : forall p, fits p -> exists c, plot_line d (p_x p) (p_y p) = Ok c.
Proof.
  intros p (_ & Y & [(X & F)|(n & X & F)]).
  - rewrite X. destruct (F _ Y) as (n & O). exact (plot_index _ n O).
  - exact (plot_same _ _ n X (F _ Y)).
Qed.
Definition fits_dim (p : panel) : Prop :=
  exists n, p_xs p = "index" :: p_ys p /\ In (p_y p) (p_ys p) /\ In (p_x p) (p_xs p) /\ forall y, In y (p_ys p) -> over d y n.
Lemma group_over : forall n y, In y (sort (group d [n])) -> over d y n.
Proof. intros n y H. apply (proj1 (sort_in _ _)) in H. apply group_in in H. exact H. Qed.
Lemma dim_session_fits : forall p, dim_session sort d p -> fits_dim p.
Proof.
  intros p H. induction H as [x y p H|p n p' H IH I C|p x H IH I|p y H IH I].
  - unfold start_dim in H. destruct (pick None (valid_dims sort d)) as [n|] eqn:E; [|discriminate]. cbn [bind] in H.
    destruct (pick y (sort (group d [n]))) as [yv|] eqn:E1; [|discriminate]. cbn [bind] in H.
    destruct (pick x ("index" :: sort (group d [n]))) as [xv|] eqn:E2; [|discriminate]. cbn [bind] in H. injection H as <-.
    exists n. cbn [p_xs p_ys p_x p_y]. split; [reflexivity|]. split; [apply (pick_in _ _ _ E1)|]. split; [apply (pick_in _ _ _ E2)|apply group_over].
  - unfold choose_dim in C. destruct (pick None (sort (group d [n]))) as [yv|] eqn:E1; [|discriminate]. cbn [bind] in C. injection C as <-.
    exists n. cbn [p_xs p_ys p_x p_y]. split; [reflexivity|]. split; [apply (pick_in _ _ _ E1)|]. split; [cbn; auto|apply group_over].
  - destruct IH as (n & X & Y & Z & F). exists n. cbn. auto.
  - destruct IH as (n & X & Y & Z & F). exists n. cbn. auto.
Qed.
Lemma fits_dim_plot : forall p, fits_dim p -> exists c, plot_line d (p_x p) (p_y p) = Ok c.
Proof.
  intros p (n & X & Y & Z & F). rewrite X in Z. destruct Z as [Z|Z].
  - rewrite <- Z. exact (plot_index _ n (F _ Y)).
  - exact (plot_same _ _ n (F _ Z) (F _ Y)).
Qed.
End Widgets.

(** * Names *)
Lemma split_char : forall c a b r s, no_char c a -> no_char c b ->
  (a ++ String c r)%string = (b ++ String c s)%string -> a = b /\ r = s.
Proof.
  induction a as [|x a IH]; intros [|y b] r s A B E; cbn in E.
  - injection E as E. auto.
  - injection E as E _. exfalso. apply B. left. congruence.
  - injection E as E _. exfalso. apply A. left. congruence.
  - injection E as -> E. destruct (IH b r s) as (-> & ->); auto; intros H; [apply A|apply B]; right; exact H.
Qed.
Lemma no_app : forall c a b, no_char c (a ++ b)%string <-> no_char c a /\ no_char c b.
Proof.
  intros c a b. unfold no_char. assert (E : list_ascii_of_string (a ++ b)%string = (list_ascii_of_string a ++ list_ascii_of_string b)%list).
  { induction a; cbn; [reflexivity|]. f_equal. assumption. }
  rewrite E, in_app_iff. tauto.
Qed.
Lemma has_app : forall c a b r s, no_char c (a ++ r)%string -> (a ++ r)%string <> (b ++ String c s)%string.
Proof.
  intros c a b r s H E. rewrite E in H. apply no_app in H. destruct H as (_ & H). apply H. left. reflexivity.
Qed.
Lemma app_len : forall a b : string, String.length (a ++ b)%string = (String.length a + String.length b)%nat.
Proof. induction a; intros b; cbn; [reflexivity|]. rewrite IHa. reflexivity. Qed.
Lemma app_tail : forall a b t : string, (a ++ t)%string = (b ++ t)%string -> a = b.
Proof.
  induction a as [|x a IH]; intros [|y b] t E; [reflexivity| | |].
  - exfalso. apply (f_equal String.length) in E. cbn in E. rewrite app_len in E. lia.
  - exfalso. apply (f_equal String.length) in E. cbn in E. rewrite app_len in E. lia.
  - cbn in E. injection E as -> E. f_equal. exact (IH b t E).
Qed.
Lemma app_head : forall a b t : string, (t ++ a)%string = (t ++ b)%string -> a = b.
Proof. induction t; cbn; intros E; [exact E|]. injection E as E. auto. Qed.
Lemma uint_nz : forall u, NilZero.string_of_uint u <> "" .
Proof. intros u. destruct u; discriminate. Qed.
Lemma to_int_nil : forall z, Z.to_int z <> Decimal.Pos Decimal.Nil /\ Z.to_int z <> Decimal.Neg Decimal.Nil.
Proof.
  intros [|p|p]; cbn; (split; try discriminate); intros H; injection H as H; apply (DecimalPos.Unsigned.to_uint_nonnil p); exact H.
Qed.
Lemma zdec_inj : forall a b, zdec a = zdec b -> a = b.
Proof.
  intros a b E. unfold zdec in E. apply (f_equal NilZero.int_of_string) in E.
  rewrite !NilZero.isi in E by apply to_int_nil. injection E as E. apply to_int_inj. exact E.
Qed.
Definition decimal_char (c : ascii) : Prop := In c (list_ascii_of_string "-0123456789").
Lemma nilempty_chars : forall u c, In c (list_ascii_of_string (NilEmpty.string_of_uint u)) -> decimal_char c.
Proof. unfold decimal_char. induction u; intros c H; cbn in H; try contradiction; (destruct H as [<-|H]; [cbn; tauto|apply IHu; exact H]). Qed.
Lemma uint_chars : forall u c, In c (list_ascii_of_string (NilZero.string_of_uint u)) -> decimal_char c.
Proof.
  intros u c H. assert (E : u = Decimal.Nil \/ NilZero.string_of_uint u = NilEmpty.string_of_uint u) by (destruct u; auto).
  destruct E as [->|E]; [|rewrite E in H; exact (nilempty_chars u c H)]. cbn in H. destruct H as [<-|[]]. unfold decimal_char. cbn; tauto.
Qed.
Lemma zdec_chars : forall z c, In c (list_ascii_of_string (zdec z)) -> decimal_char c.
Proof.
  intros z c H. unfold zdec in H. destruct (Z.to_int z) as [u|u]; cbn [NilZero.string_of_int] in H; [exact (uint_chars u c H)|].
  cbn in H. destruct H as [<-|H]; [unfold decimal_char; cbn; tauto|exact (uint_chars u c H)].
Qed.
Lemma zdec_no : forall z c, ~ decimal_char c -> no_char c (zdec z).
Proof. intros z c N H. apply N. exact (zdec_chars z c H). Qed.
Lemma nth_error_Some_lt : forall A (l : list A) i a, nth_error l i = Some a -> (i < List.length l)%nat.
Proof. intros A l i a H. apply nth_error_Some. congruence. Qed.
