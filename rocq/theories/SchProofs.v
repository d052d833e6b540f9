(** Proofs for C86-C89. *)
From Coq Require Import String List ZArith QArith Qreals Reals Bool Arith Lia Lra.
From Verif Require Import Common WriterModel WriterSpec WriterProofs WriterProps SchModel SchSpec.
Import ListNotations.
Open Scope string_scope.

(** * Opening *)
Lemma create_vars_ext : forall ok made l done,
  (forall v b, In (v, b) l -> ok v = true) ->
  create_vars ok made done l = create_vars (fun _ => true) made done l.
Proof.
  intros ok made. induction l as [|[v fresh] l IH]; intros done H; [reflexivity|].
  cbn [create_vars]. rewrite (H v fresh) by (left; reflexivity).
  destruct fresh; [|reflexivity]. destruct (dim_sizes made (v_dims v)); [|reflexivity].
  destruct (find_assoc (v_name v) done); [reflexivity|].
  rewrite IH; [reflexivity|]. intros v' b Hin. apply (H v' b). right. exact Hin.
Qed.

Lemma open_ext : forall ok p ns nl,
  (forall v, In v (p_vars p) -> ok v = true) ->
  open_product ok p ns nl = open_product (fun _ => true) p ns nl.
Proof.
  intros ok p ns nl H. unfold open_product. destruct (create_dims [] (p_dims p ns nl)); [reflexivity|].
  rewrite create_vars_ext; [reflexivity|].
  intros v b Hin. apply in_map_iff in Hin. destruct Hin as (v' & E & Hin).
  injection E; intros; subst. apply H. exact Hin.
Qed.

(** The table a product opens to. *)
Definition opened (p : product) (ns nl : nat) : list (string * vdesc) :=
  map (fun v => (v_name v,
                 match dim_sizes (p_dims p ns nl) (v_dims v) with
                 | Some l => desc_of l
                 | None => desc_of []
                 end)) (p_vars p).

Lemma open_opened : forall p ns nl, In p products ->
  open_product (fun _ => true) p ns nl = inr (opened p ns nl).
Proof.
  intros p ns nl Hp. cbn in Hp.
  destruct Hp as [<-|[<-|[<-|[]]]]; vm_compute; reflexivity.
Qed.

Lemma opened_names : forall p ns nl, map fst (opened p ns nl) = map v_name (p_vars p).
Proof. intros. unfold opened. rewrite map_map. reflexivity. Qed.

Fixpoint nodupb (l : list string) : bool :=
  match l with [] => true | x :: r => negb (existsb (String.eqb x) r) && nodupb r end.
Lemma nodupb_ok : forall l, nodupb l = true -> NoDup l.
Proof.
  induction l as [|x l IH]; intros H; [constructor|]. cbn in H.
  apply andb_true_iff in H. destruct H as [H1 H2]. constructor; [|apply IH; exact H2].
  intro Hin. apply negb_true_iff in H1. rewrite <- not_true_iff_false in H1. apply H1.
  apply existsb_exists. exists x. split; [exact Hin|apply String.eqb_refl].
Qed.

Lemma names_nodup : forall p, In p products ->
  NoDup (map v_name (p_vars p)) /\ NoDup (map fst (p_writes p)).
Proof.
  intros p Hp. cbn in Hp.
  destruct Hp as [<-|[<-|[<-|[]]]]; split; apply nodupb_ok; vm_compute; reflexivity.
Qed.

(** * Shapes *)
Inductive kind := KNum | KStack | KSample | KMat.
Definition kind_eqb (a b : kind) : bool :=
  match a, b with
  | KNum, KNum | KStack, KStack | KSample, KSample | KMat, KMat => true
  | _, _ => false
  end.

Definition memb (x : string) (l : list string) : bool := existsb (String.eqb x) l.
Lemma memb_in : forall x l, memb x l = true <-> In x l.
Proof.
  intros x l. unfold memb. rewrite existsb_exists. split.
  - intros (y & Hy & E). apply String.eqb_eq in E. subst. exact Hy.
  - intro H. exists x. split; [exact H|apply String.eqb_refl].
Qed.
Lemma memb_not : forall x l, memb x l = false <-> ~ In x l.
Proof. intros x l. rewrite <- memb_in. destruct (memb x l); split; congruence. Qed.

(** [None] is no value, [Some None] an expression outside the forms used. *)
Fixpoint kind_of (s : src) : option kind :=
  match s with
  | SNone => None
  | SSurf f => Some (if memb f stack_vectors then KStack
                     else if (f =? "waveform_multilooked") then KSample else KNum)
  | SBurst _ => Some KNum
  | SLocal f => Some (if memb f stack_matrices then KMat else KNum)
  | SLight => Some KNum
  | SConst _ => Some KNum
  | SDeg a | SNeg a => kind_of a
  | SSub a b | SMul a b | SDiv a b =>
      match kind_of a, kind_of b with Some k, Some KNum => Some k | _, _ => None end
  end.
Fixpoint plain (s : src) : bool :=
  match s with
  | SNone => false
  | SDeg a | SNeg a => plain a
  | SSub a b | SMul a b | SDiv a b =>
      plain a && plain b && match kind_of b with Some KNum => true | _ => false end
  | _ => true
  end.

Definition has_kind (ns nl : nat) (k : kind) (v : value R) : Prop :=
  match k with
  | KNum => is_num v
  | KStack => is_vec nl v
  | KSample => is_vec ns v
  | KMat => is_mat nl ns v
  end.

Lemma has_kind_vmap : forall ns nl k f v, has_kind ns nl k v -> has_kind ns nl k (vmap f v).
Proof.
  intros ns nl [| | |] f v H; cbn in *.
  - destruct H as [x ->]. eexists; reflexivity.
  - destruct H as (n & g & -> & L). do 2 eexists. split; [reflexivity|exact L].
  - destruct H as (n & g & -> & L). do 2 eexists. split; [reflexivity|exact L].
  - destruct H as (r & c & g & -> & L). do 3 eexists. split; [reflexivity|exact L].
Qed.

Lemma eval_kind : forall ns nl e, shaped ns nl e -> forall s, plain s = true ->
  exists k v, kind_of s = Some k /\ eval e s = Some v /\ has_kind ns nl k v.
Proof.
  intros ns nl e (H1 & H2 & H3 & H4 & H5 & H6).
  assert (OP : forall f a b,
    (plain a = true -> exists k v, kind_of a = Some k /\ eval e a = Some v /\ has_kind ns nl k v) ->
    (plain b = true -> exists k v, kind_of b = Some k /\ eval e b = Some v /\ has_kind ns nl k v) ->
    plain a && plain b && match kind_of b with Some KNum => true | _ => false end = true ->
    exists k v, match kind_of a, kind_of b with Some k, Some KNum => Some k | _, _ => None end = Some k /\
      match eval e a, eval e b with Some x, Some y => Some (vop f x y) | _, _ => None end = Some v /\
      has_kind ns nl k v).
  { intros f a b IHa IHb P. apply andb_true_iff in P. destruct P as [P Pk].
    apply andb_true_iff in P. destruct P as [Pa Pb].
    destruct (IHa Pa) as (ka & va & Ka & Ea & Ha).
    destruct (IHb Pb) as (kb & vb & Kb & Eb & Hb).
    rewrite Ka, Ea, Kb, Eb. rewrite Kb in Pk. destruct kb; try discriminate.
    exists ka, (vop f va vb). split; [reflexivity|]. split; [reflexivity|].
    cbn in Hb. destruct Hb as [y ->]. cbn [vop]. apply has_kind_vmap. exact Ha. }
  induction s as [ |f|f|x| |z|a IH|a IH|a IHa b IHb|a IHa b IHb|a IHa b IHb]; intro P; cbn [plain kind_of eval] in P |- *;
    try discriminate.
  - destruct (memb f stack_vectors) eqn:E.
    + exists KStack, (e_surf e f). split; [reflexivity|]. split; [reflexivity|].
      apply H1. apply memb_in. exact E.
    + destruct (f =? "waveform_multilooked") eqn:E2.
      * apply String.eqb_eq in E2. subst f. exists KSample, (e_surf e "waveform_multilooked").
        repeat split. exact H2.
      * exists KNum, (e_surf e f). repeat split. apply H3; [apply memb_not; exact E|].
        apply String.eqb_neq. exact E2.
  - exists KNum, (e_burst e f). repeat split. apply H4.
  - destruct (memb x stack_matrices) eqn:E.
    + exists KMat, (e_local e x). repeat split. apply H5. apply memb_in. exact E.
    + exists KNum, (e_local e x). repeat split. apply H6. apply memb_not. exact E.
  - exists KNum, (VNum (e_light e)). repeat split. eexists; reflexivity.
  - exists KNum, (VNum (IZR z)). repeat split. eexists; reflexivity.
  - destruct (IH P) as (k & v & K & E & H). rewrite K, E. exists k, (vmap to_degrees v).
    repeat split. apply has_kind_vmap. exact H.
  - destruct (IH P) as (k & v & K & E & H). rewrite K, E. exists k, (vmap Ropp v).
    repeat split. apply has_kind_vmap. exact H.
  - apply OP; assumption.
  - apply OP; assumption.
  - apply OP; assumption.
Qed.

(** Declared dimensions matching a kind. *)
Definition kind_dims (k : kind) (l : list string) : bool :=
  match l with
  | [_] => kind_eqb k KNum
  | [_; d] => if d =? "max_multi_stack_ind" then kind_eqb k KStack
              else (d =? "echo_sample_ind") && kind_eqb k KSample
  | [_; d1; d2] => (d1 =? "max_multi_stack_ind") && (d2 =? "echo_sample_ind") && kind_eqb k KMat
  | _ => false
  end.

Definition decl_of (p : product) (x : string) : option vdecl :=
  List.find (fun v => v_name v =? x) (p_vars p).

Definition write_ok (p : product) (kv : string * src) : bool :=
  match decl_of p (fst kv) with
  | None => false
  | Some v =>
      match snd kv with
      | SNone => true
      | s => plain s && match kind_of s with Some k => kind_dims k (v_dims v) | None => false end
      end
  end.

Lemma writes_ok : forall p, In p products -> forallb (write_ok p) (p_writes p) = true.
Proof.
  intros p Hp. cbn in Hp. destruct Hp as [<-|[<-|[<-|[]]]]; vm_compute; reflexivity.
Qed.

Lemma dims_known : forall p ns nl v, In p products -> In v (p_vars p) ->
  exists d ds, v_dims v = d :: ds /\
    find_assoc d (p_dims p ns nl) = Some None /\
    find_assoc "max_multi_stack_ind" (p_dims p ns nl) = Some (Some nl) /\
    find_assoc "echo_sample_ind" (p_dims p ns nl) = Some (Some ns).
Proof.
  intros p ns nl v Hp Hv.
  assert (F : forallb (fun v => match v_dims v with
                                | d :: _ => match find_assoc d (p_dims p 0%nat 0%nat) with
                                            | Some None => true | _ => false end
                                | [] => false end) (p_vars p) = true).
  { cbn in Hp. destruct Hp as [<-|[<-|[<-|[]]]]; vm_compute; reflexivity. }
  rewrite forallb_forall in F. specialize (F v Hv).
  destruct (v_dims v) as [|d ds]; [discriminate|]. exists d, ds. split; [reflexivity|].
  cbn in Hp. destruct Hp as [<-|[<-|[<-|[]]]]; (split; [|split; reflexivity]);
    cbn [p_dims ext_product std_product l1bs_product ext_dims std_dims l1bs_dims] in *;
    unfold find_assoc, ext_dims, std_dims, l1bs_dims in *; cbn [find fst snd] in *;
    revert F;
    repeat match goal with
           | |- context [if (?a =? d) then _ else _] => destruct (a =? d)
           end; cbn [snd]; intro F; first [reflexivity | discriminate F].
Qed.

Lemma find_map_name : forall (g : vdecl -> vdesc) l x,
  find_assoc x (map (fun v => (v_name v, g v)) l) =
  option_map g (List.find (fun v => v_name v =? x) l).
Proof.
  intros g l x. unfold find_assoc. induction l as [|v l IH]; [reflexivity|].
  cbn [map find fst]. destruct (v_name v =? x); [reflexivity|exact IH].
Qed.

Lemma accepts_kind : forall p ns nl v k w, In p products -> In v (p_vars p) ->
  kind_dims k (v_dims v) = true -> has_kind ns nl k w ->
  accepts R (match dim_sizes (p_dims p ns nl) (v_dims v) with
             | Some l => desc_of l | None => desc_of [] end) w = true.
Proof.
  intros p ns nl v k w Hp Hv K H.
  destruct (dims_known p ns nl v Hp Hv) as (d & ds & E & F0 & F1 & F2). rewrite E in *.
  destruct ds as [|d1 [|d2 [|]]]; cbn [kind_dims] in K; [| | |discriminate].
  - destruct k; try discriminate. cbn in H. destruct H as [x ->].
    cbn [dim_sizes]. rewrite F0. reflexivity.
  - destruct (d1 =? "max_multi_stack_ind") eqn:D.
    + apply String.eqb_eq in D. subst d1. destruct k; try discriminate.
      cbn in H. destruct H as (n & f & -> & L). cbn [dim_sizes]. rewrite F0, F1.
      cbn. apply Nat.leb_le. lia.
    + apply andb_true_iff in K. destruct K as [D2 K]. apply String.eqb_eq in D2. subst d1.
      destruct k; try discriminate.
      cbn in H. destruct H as (n & f & -> & L). cbn [dim_sizes]. rewrite F0, F2.
      cbn. apply Nat.leb_le. lia.
  - apply andb_true_iff in K. destruct K as [K K3]. apply andb_true_iff in K. destruct K as [D1 D2].
    apply String.eqb_eq in D1. apply String.eqb_eq in D2. subst d1 d2. destruct k; try discriminate.
    cbn in H. destruct H as (r & c & f & -> & L1 & L2). cbn [dim_sizes]. rewrite F0, F1, F2.
    cbn. apply andb_true_iff. split; apply Nat.leb_le; lia.
Qed.

Lemma record_writable : forall p ns nl castable e, In p products -> shaped ns nl e ->
  (forall x v, castable x v = true) ->
  writable (fun x => find_assoc x (opened p ns nl)) castable (record_of p e) = true.
Proof.
  intros p ns nl castable e Hp Hs Hc. unfold writable. apply forallb_forall.
  intros [x ov] Hin. unfold record_of in Hin. apply in_map_iff in Hin.
  destruct Hin as ([x' s] & E & Hin). cbn [fst snd] in E. injection E; intros E1 E2. subst x' ov.
  pose proof (writes_ok p Hp) as W. rewrite forallb_forall in W. specialize (W _ Hin).
  unfold write_ok in W. cbn [fst snd] in W |- *. unfold opened. rewrite find_map_name.
  unfold decl_of in W. destruct (List.find (fun v => v_name v =? x) (p_vars p)) as [v|] eqn:Ef;
    [|discriminate]. cbn [option_map].
  destruct (eval e s) as [w|] eqn:Ew; [|reflexivity].
  assert (P : plain s && match kind_of s with Some k => kind_dims k (v_dims v) | None => false end = true)
    by (destruct s; [discriminate Ew|exact W..]).
  apply andb_true_iff in P. destruct P as [P K].
  destruct (eval_kind ns nl e Hs s P) as (k & w' & Kk & Ew' & Hk).
  rewrite Kk in K. assert (w' = w) by congruence. subst w'.
  rewrite (accepts_kind p ns nl v k w Hp); [apply Hc| |exact K|exact Hk].
  apply find_some in Ef. apply Ef.
Qed.

Lemma record_dict : forall p e, In p products -> is_dict (record_of p e).
Proof.
  intros p e Hp. unfold is_dict, record_of. rewrite map_map. cbn [fst].
  apply (names_nodup p Hp).
Qed.

(** * Values given and never given *)
Definition given (p : product) (x : string) : bool :=
  existsb (fun kv => (fst kv =? x) && plain (snd kv)) (p_writes p).

Lemma nevers_ok : forall p nv, In (p, nv) nevers -> In p products /\
  forallb (fun v => xorb (memb (v_name v) nv) (given p (v_name v))) (p_vars p) = true.
Proof.
  intros p nv H. cbn in H.
  destruct H as [H|[H|[H|[]]]]; injection H; intros <- <-; (split; [cbn; tauto|]); vm_compute; reflexivity.
Qed.

Lemma plain_none : forall p e s x, In p products -> In (x, s) (p_writes p) ->
  plain s = false -> eval e s = None.
Proof.
  intros p e s x Hp Hin P. pose proof (writes_ok p Hp) as W. rewrite forallb_forall in W.
  specialize (W _ Hin). unfold write_ok in W. cbn [fst snd] in W.
  destruct (decl_of p x); [|discriminate].
  destruct s; try reflexivity; rewrite P in W; discriminate.
Qed.

Lemma elem00 : forall ns nl k v, has_kind ns nl k v -> exists x, elem R v 0 0 = Some x.
Proof.
  intros ns nl [| | |] v H; cbn in H.
  - destruct H as [x ->]. eexists; reflexivity.
  - destruct H as (n & f & -> & L). destruct n; [lia|]. eexists; reflexivity.
  - destruct H as (n & f & -> & L). destruct n; [lia|]. eexists; reflexivity.
  - destruct H as (r & c & f & -> & L1 & L2). destruct r, c; try lia. eexists; reflexivity.
Qed.

Section History.
Variables (p : product) (ns nl : nat).
Variable castable : string -> value R -> bool.
Hypothesis Hp : In p products.
Hypothesis Hc : forall x v, castable x v = true.
Notation vars := (fun x => find_assoc x (opened p ns nl)).
Notation final es := (snd (write_all R vars castable (w_init R) (map (record_of p) es))).

Lemma history_filter : forall es, Forall (shaped ns nl) es ->
  filter (writable vars castable) (map (record_of p) es) = map (record_of p) es.
Proof.
  induction es as [|e es IH]; intros H; [reflexivity|]. inversion H; subst.
  cbn [map filter]. rewrite (record_writable p ns nl castable e Hp) by assumption.
  rewrite IH by assumption. reflexivity.
Qed.

Lemma history_dict : forall es, Forall is_dict (map (record_of p) es).
Proof.
  intro es. apply Forall_forall. intros r Hr. apply in_map_iff in Hr.
  destruct Hr as (e & <- & _). apply record_dict. exact Hp.
Qed.

Lemma history_value : forall es i e x s v a b r, Forall (shaped ns nl) es ->
  nth_error es i = Some e -> In (x, s) (p_writes p) -> eval e s = Some v ->
  elem R v a b = Some r -> w_tbl (final es) x i a b = Some r.
Proof.
  intros es i e x s v a b r Hs Hi Hin Ev Er.
  apply (C35_supplied R vars castable (map (record_of p) es) i (record_of p e)).
  - apply history_dict.
  - rewrite history_filter by assumption. rewrite nth_error_map, Hi. reflexivity.
  - exists v. split; [|exact Er]. unfold record_of. apply in_map_iff.
    exists (x, s). cbn [fst snd]. rewrite Ev. auto.
Qed.

Lemma history_given : forall es i x, Forall (shaped ns nl) es -> (i < List.length es)%nat ->
  given p x = true -> w_tbl (final es) x i 0%nat 0%nat <> None.
Proof.
  intros es i x Hs Hi G. unfold given in G. apply existsb_exists in G.
  destruct G as ([x' s] & Hin & G). cbn [fst snd] in G. apply andb_true_iff in G.
  destruct G as [E P]. apply String.eqb_eq in E. subst x'.
  destruct (nth_error es i) as [e|] eqn:Ee;
    [|apply nth_error_None in Ee; lia].
  assert (Se : shaped ns nl e) by (rewrite Forall_forall in Hs; apply Hs; apply nth_error_In in Ee; exact Ee).
  destruct (eval_kind ns nl e Se s P) as (k & v & Kk & Ev & Hk).
  destruct (elem00 ns nl k v Hk) as [r Er].
  rewrite (history_value es i e x s v 0%nat 0%nat r); try assumption. discriminate.
Qed.

Lemma untouched : forall x, (forall e a b, silent (record_of p e) x a b) ->
  forall es st i a b, w_tbl (snd (write_all R vars castable st (map (record_of p) es))) x i a b =
                      w_tbl st x i a b.
Proof.
  intros x H. induction es as [|e es IH]; intros st i a b; [reflexivity|].
  cbn [map]. rewrite wa_cons, IH, wr_tbl. apply wv_silent; [apply record_dict; exact Hp|apply H].
Qed.

Lemma not_given_silent : forall x, given p x = false -> forall e a b, silent (record_of p e) x a b.
Proof.
  intros x G e a b r (v & Hin & Er). unfold record_of in Hin. apply in_map_iff in Hin.
  destruct Hin as ([x' s] & E & Hin). cbn [fst snd] in E. injection E; intros E1 E2. subst x'.
  destruct (plain s) eqn:P.
  - assert (given p x = true); [|congruence]. unfold given. apply existsb_exists.
    exists (x, s). split; [exact Hin|]. cbn [fst snd]. rewrite String.eqb_refl, P. reflexivity.
  - rewrite (plain_none p e s x Hp Hin P) in E1. discriminate.
Qed.

Lemma history_never : forall es i a b x, given p x = false -> w_tbl (final es) x i a b = None.
Proof.
  intros es i a b x G. rewrite untouched; [reflexivity|apply not_given_silent; exact G].
Qed.
End History.

(** * Packing *)
Open Scope R_scope.

Lemma abs_between : forall x b, Rabs x <= b -> - b <= x <= b.
Proof. intros x b H. unfold Rabs in H. destruct (Rcase_abs x); lra. Qed.

Lemma Q2R_inject : forall n, Q2R (inject_Z n) = IZR n.
Proof. intro n. unfold Q2R, inject_Z. cbn. field. Qed.

Lemma cast_in : forall wrap t n, in_type wrap -> (tmin t <= cast wrap t n <= tmax t)%Z.
Proof.
  intros wrap t n H. unfold cast. destruct ((tmin t <=? n)%Z && (n <=? tmax t)%Z) eqn:E; [|apply H].
  apply andb_true_iff in E. destruct E as [E1 E2]. apply Z.leb_le in E1, E2. lia.
Qed.

Definition packed (v : vdecl) : bool :=
  is_int (v_type v) && negb (Qle_bool (qor (v_scale v) 1) 0) &&
  match v_fill v with Some q => Qeq_bool q (inject_Z (tmax (v_type v))) | None => false end.

Lemma packed_scale : forall v, packed v = true -> 0 < Q2R (qor (v_scale v) 1).
Proof.
  intros v H. unfold packed in H. apply andb_true_iff in H. destruct H as [H _].
  apply andb_true_iff in H. destruct H as [_ H]. apply negb_true_iff in H.
  assert (L : (0 < qor (v_scale v) 1)%Q).
  { apply Qnot_le_lt. intro C. apply Qle_bool_iff in C. congruence. }
  apply Qlt_Rlt in L. replace (Q2R 0) with 0 in L by (unfold Q2R; cbn; field). exact L.
Qed.

Lemma packed_unpack : forall v n, packed v = true ->
  unpack v n = if (n =? tmax (v_type v))%Z then None
               else Some (IZR n * Q2R (qor (v_scale v) 1) + Q2R (qor (v_offset v) 0)).
Proof.
  intros v n H. unfold packed in H. apply andb_true_iff in H. destruct H as [_ H].
  unfold unpack. destruct (v_fill v) as [q|]; [|discriminate].
  apply Qeq_bool_iff in H.
  destruct (n =? tmax (v_type v))%Z eqn:E.
  - apply Z.eqb_eq in E. subst n.
    replace (Qeq_bool (inject_Z (tmax (v_type v))) q) with true; [reflexivity|].
    symmetry. apply Qeq_bool_iff. symmetry. exact H.
  - apply Z.eqb_neq in E.
    replace (Qeq_bool (inject_Z n) q) with false; [reflexivity|].
    symmetry. apply not_true_iff_false. intro C. apply Qeq_bool_iff in C.
    apply E. rewrite H in C. apply eq_IZR. rewrite <- !Q2R_inject. apply Qeq_eqR. exact C.
Qed.

(** The ends of the interval a packed variable can hold. *)
Definition cap_lo (v : vdecl) : Q :=
  ((inject_Z (tmin (v_type v)) - (1 # 2)) * qor (v_scale v) 1 + qor (v_offset v) 0)%Q.
Definition cap_hi (v : vdecl) : Q :=
  ((inject_Z (tmax (v_type v)) - (1 # 2)) * qor (v_scale v) 1 + qor (v_offset v) 0)%Q.

Lemma Q2R_half : Q2R (1 # 2) = 1 / 2.
Proof. unfold Q2R; cbn; field. Qed.
Lemma cap_lo_R : forall v, Q2R (cap_lo v) =
  (IZR (tmin (v_type v)) - 1 / 2) * Q2R (qor (v_scale v) 1) + Q2R (qor (v_offset v) 0).
Proof. intro v. unfold cap_lo. rewrite Q2R_plus, Q2R_mult, Q2R_minus, Q2R_inject, Q2R_half. reflexivity. Qed.
Lemma cap_hi_R : forall v, Q2R (cap_hi v) =
  (IZR (tmax (v_type v)) - 1 / 2) * Q2R (qor (v_scale v) 1) + Q2R (qor (v_offset v) 0).
Proof. intro v. unfold cap_hi. rewrite Q2R_plus, Q2R_mult, Q2R_minus, Q2R_inject, Q2R_half. reflexivity. Qed.

Lemma div_between : forall a b s o x, 0 < s -> a * s + o < x -> x < b * s + o ->
  a < (x - o) / s < b.
Proof.
  intros a b s o x Hs H1 H2. split.
  - apply (Rmult_lt_reg_r s); [exact Hs|]. unfold Rdiv. rewrite Rmult_assoc, Rinv_l by lra. lra.
  - apply (Rmult_lt_reg_r s); [exact Hs|]. unfold Rdiv. rewrite Rmult_assoc, Rinv_l by lra. lra.
Qed.

Lemma pack_inside : forall rnd wrap v x, nearest rnd -> packed v = true ->
  Q2R (cap_lo v) < x -> x < Q2R (cap_hi v) ->
  pack rnd wrap v x = rnd ((x - Q2R (qor (v_offset v) 0)) / Q2R (qor (v_scale v) 1)) /\
  (tmin (v_type v) <= pack rnd wrap v x < tmax (v_type v))%Z.
Proof.
  intros rnd wrap v x Hr Hp H1 H2. rewrite cap_lo_R in H1. rewrite cap_hi_R in H2.
  pose proof (packed_scale v Hp) as Hs.
  destruct (div_between _ _ _ _ x Hs H1 H2) as [D1 D2].
  pose proof (Hr ((x - Q2R (qor (v_offset v) 0)) / Q2R (qor (v_scale v) 1))) as A.
  unfold pack, cast.
  set (z := (x - Q2R (qor (v_offset v) 0)) / Q2R (qor (v_scale v) 1)) in *.
  apply abs_between in A. destruct A as [A1 A2].
  assert (L1 : (tmin (v_type v) - 1 < rnd z)%Z) by (apply lt_IZR; rewrite minus_IZR; lra).
  assert (L2 : (rnd z < tmax (v_type v))%Z) by (apply lt_IZR; lra).
  replace ((tmin (v_type v) <=? rnd z)%Z && (rnd z <=? tmax (v_type v))%Z) with true.
  - split; [reflexivity|lia].
  - symmetry. apply andb_true_iff. split; apply Z.leb_le; lia.
Qed.

Lemma survives_inside : forall rnd wrap v x, nearest rnd -> packed v = true ->
  Q2R (cap_lo v) < x -> x < Q2R (cap_hi v) -> survives rnd wrap v x.
Proof.
  intros rnd wrap v x Hr Hp H1 H2.
  destruct (pack_inside rnd wrap v x Hr Hp H1 H2) as [E B].
  unfold survives. rewrite (packed_unpack v _ Hp).
  replace (pack rnd wrap v x =? tmax (v_type v))%Z with false by (symmetry; apply Z.eqb_neq; lia).
  eexists. split; [reflexivity|]. rewrite E.
  pose proof (packed_scale v Hp) as Hs.
  pose proof (Hr ((x - Q2R (qor (v_offset v) 0)) / Q2R (qor (v_scale v) 1))) as A.
  set (s := Q2R (qor (v_scale v) 1)) in *. set (o := Q2R (qor (v_offset v) 0)) in *.
  set (n := IZR (rnd ((x - o) / s))) in *.
  replace (n * s + o - x) with ((n - (x - o) / s) * s) by (field; lra).
  rewrite Rabs_mult, (Rabs_right s) by lra.
  replace (s / 2) with (1 / 2 * s) by field. apply Rmult_le_compat_r; lra.
Qed.

Lemma survives_capacity : forall rnd wrap v x, in_type wrap -> packed v = true ->
  survives rnd wrap v x -> Q2R (cap_lo v) <= x <= Q2R (cap_hi v).
Proof.
  intros rnd wrap v x Hw Hp (y & E & B). rewrite (packed_unpack v _ Hp) in E.
  pose proof (cast_in wrap (v_type v)
    (rnd ((x - Q2R (qor (v_offset v) 0)) / Q2R (qor (v_scale v) 1))) Hw) as C.
  fold (pack rnd wrap v x) in C.
  destruct (pack rnd wrap v x =? tmax (v_type v))%Z eqn:F; [discriminate|].
  apply Z.eqb_neq in F. injection E; intro Ey. clear E.
  pose proof (packed_scale v Hp) as Hs. rewrite cap_lo_R, cap_hi_R.
  set (s := Q2R (qor (v_scale v) 1)) in *. set (o := Q2R (qor (v_offset v) 0)) in *.
  set (n := pack rnd wrap v x) in *. apply abs_between in B.
  assert (N1 : IZR (tmin (v_type v)) <= IZR n) by (apply IZR_le; lia).
  assert (N2 : IZR n <= IZR (tmax (v_type v)) - 1)
    by (rewrite <- minus_IZR; apply IZR_le; lia).
  assert (M1 : IZR (tmin (v_type v)) * s <= IZR n * s) by (apply Rmult_le_compat_r; lra).
  assert (M2 : IZR n * s <= (IZR (tmax (v_type v)) - 1) * s) by (apply Rmult_le_compat_r; lra).
  split; lra.
Qed.

(** Read back values lie in the interval, whatever was written. *)
Lemma readback_bounds : forall rnd wrap v x y, in_type wrap -> packed v = true ->
  unpack v (pack rnd wrap v x) = Some y -> Q2R (cap_lo v) <= y <= Q2R (cap_hi v).
Proof.
  intros rnd wrap v x y Hw Hp E. rewrite (packed_unpack v _ Hp) in E.
  pose proof (cast_in wrap (v_type v)
    (rnd ((x - Q2R (qor (v_offset v) 0)) / Q2R (qor (v_scale v) 1))) Hw) as C.
  fold (pack rnd wrap v x) in C.
  destruct (pack rnd wrap v x =? tmax (v_type v))%Z eqn:F; [discriminate|].
  apply Z.eqb_neq in F. injection E; intro Ey. clear E.
  pose proof (packed_scale v Hp) as Hs. rewrite cap_lo_R, cap_hi_R.
  set (s := Q2R (qor (v_scale v) 1)) in *. set (o := Q2R (qor (v_offset v) 0)) in *.
  set (n := pack rnd wrap v x) in *.
  assert (N1 : IZR (tmin (v_type v)) <= IZR n) by (apply IZR_le; lia).
  assert (N2 : IZR n <= IZR (tmax (v_type v)) - 1)
    by (rewrite <- minus_IZR; apply IZR_le; lia).
  assert (M1 : IZR (tmin (v_type v)) * s <= IZR n * s) by (apply Rmult_le_compat_r; lra).
  assert (M2 : IZR n * s <= (IZR (tmax (v_type v)) - 1) * s) by (apply Rmult_le_compat_r; lra).
  split; lra.
Qed.

Definition qltb (a b : Q) : bool := negb (Qle_bool b a).
Lemma qltb_R : forall a b, qltb a b = true -> Q2R a < Q2R b.
Proof.
  intros a b H. apply Qlt_Rlt. apply Qnot_le_lt. intro C. apply Qle_bool_iff in C.
  unfold qltb in H. rewrite C in H. discriminate.
Qed.

Definition range_ok (p : product) (r : string * (Q * Q)) : bool :=
  match decl_of p (fst r) with
  | Some v => packed v && qltb (cap_lo v) (fst (snd r)) && qltb (snd (snd r)) (cap_hi v)
  | None => false
  end.

Lemma ranges_ok : forall p l, In (p, l) ranges -> forallb (range_ok p) l = true.
Proof.
  intros p l H. cbn [ranges In] in H.
  destruct H as [H|[H|[H|[]]]]; injection H; intros <- <-; vm_compute; reflexivity.
Qed.

Lemma range_survives : forall p l x lo hi, In (p, l) ranges -> In (x, (lo, hi)) l ->
  exists v, In v (p_vars p) /\ v_name v = x /\ packed v = true /\
    forall rnd wrap r, nearest rnd -> Q2R lo <= r <= Q2R hi -> survives rnd wrap v r.
Proof.
  intros p l x lo hi Hp Hin. pose proof (ranges_ok p l Hp) as F. rewrite forallb_forall in F.
  specialize (F _ Hin). unfold range_ok in F. cbn [fst snd] in F.
  destruct (decl_of p x) as [v|] eqn:E; [|discriminate].
  unfold decl_of in E. apply find_some in E. destruct E as [E1 E2]. apply String.eqb_eq in E2.
  apply andb_true_iff in F. destruct F as [F F3]. apply andb_true_iff in F. destruct F as [F1 F2].
  apply qltb_R in F2. apply qltb_R in F3.
  exists v. repeat (split; [assumption|]). intros rnd wrap r Hr H.
  apply survives_inside; try assumption; lra.
Qed.
