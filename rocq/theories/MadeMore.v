(** Proofs for C127, continued: a run that can succeed does, and the layout of
    a workspace. *)
From Coq Require Import Ascii String List Bool Arith Lia.
From Verif Require Import Common Dict FsModel FsProofs WsModel WsSpec WsProofs NameModel NameProofs CliModel CliSpec CliProofs
  CliProps IoSpec IoProofs MadeModel MadeSpec MadeProofs.
Import ListNotations.
Open Scope string_scope.
Open Scope list_scope.

(** ** Directories *)

Lemma makedirs_dirs : forall p x n n', is_dir p n = true -> exists_at (p ++ [x]) n = false -> makedirs (p ++ [x]) n = Some n' ->
  forall q, is_dir q n' = true <-> is_dir q n = true \/ q = p ++ [x].
Proof.
  intros p x n n' D E H q. destruct (path_cases (p ++ [x]) q) as [A|[(r & ->)|(r & Hr & E1)]].
  - unfold is_dir at 1. rewrite (write_other _ _ _ _ _ _ H A). fold (is_dir q n). split; [auto|]. intros [K|K]; [exact K|].
    subst q. destruct A as (A & _). rewrite is_prefix_refl in A. discriminate.
  - unfold is_dir at 1. rewrite (write_below _ _ _ _ _ _ H). destruct r as [|c r].
    + rewrite app_nil_r. cbn. split; auto.
    + cbn [lookup]. cbn. split; [discriminate|]. intros [K|K].
      * apply is_dir_exists in K. rewrite (not_exists_below _ (c :: r) _ E) in K. discriminate.
      * apply (f_equal (@List.length string)) in K. rewrite app_length in K. cbn in K. lia.
  - destruct (write_above _ _ _ _ _ q r H E1 Hr) as (D1 & _). split; [|intros _; exact D1]. intros _. left.
    destruct r as [|c r] using rev_ind; [now elim Hr|]. clear IHr. rewrite app_assoc in E1. apply app_inj_tail in E1.
    destruct E1 as [-> _]. destruct r as [|d r]; [rewrite app_nil_r in D; exact D|].
    apply (exists_parent_dir q d r). apply is_dir_exists. exact D.
Qed.
Lemma make_dir_ok : forall p x n, is_dir p n = true -> (forall s, ~ file_at n (p ++ [x]) s) ->
  exists n', make_dir (p ++ [x]) n = (n', Ok tt) /\ forall q, is_dir q n' = true <-> is_dir q n = true \/ q = p ++ [x].
Proof.
  intros p x n D F. unfold make_dir, bindM, look. destruct (is_dir (p ++ [x]) n) eqn:K.
  - exists n. split; [reflexivity|]. intro q. split; [auto|]. intros [H|H]; [exact H|]. subst q. exact K.
  - assert (E : exists_at (p ++ [x]) n = false).
    { unfold exists_at. unfold is_dir in K. unfold file_at in F. destruct (lookup (p ++ [x]) n) as [[s|d]|]; [|discriminate|reflexivity].
      elim (F s eq_refl). }
    rewrite E. unfold fs. destruct (write_ok true p x (Some (NDir [])) n D) as (n' & H). unfold makedirs. rewrite H.
    exists n'. split; [reflexivity|]. exact (makedirs_dirs p x n n' D E H).
Qed.
Lemma removelast_snoc : forall (p : path) x, removelast (p ++ [x]) = p.
Proof. intros. apply removelast_last. Qed.
Lemma make_ok : forall p x y s n, is_dir p n = true -> (forall t, ~ file_at n (p ++ [x]) t) ->
  is_dir ((p ++ [x]) ++ [y]) n = false ->
  exists n', make ((p ++ [x]) ++ [y]) s n = (n', Ok tt) /\ forall q, is_dir q n' = true <-> is_dir q n = true \/ q = p ++ [x].
Proof.
  intros p x y s n D F N. unfold make. rewrite removelast_snoc. unfold thenM, bindM.
  destruct (make_dir_ok p x n D F) as (n1 & -> & Q). unfold fs.
  assert (N1 : is_dir ((p ++ [x]) ++ [y]) n1 = false).
  { destruct (is_dir ((p ++ [x]) ++ [y]) n1) eqn:K; [|reflexivity]. apply Q in K. destruct K as [K|K]; [congruence|].
    apply (f_equal (@List.length string)) in K. rewrite app_length in K. cbn in K. lia. }
  assert (D1 : is_dir (p ++ [x]) n1 = true) by (apply Q; right; reflexivity).
  destruct (write_ok false (p ++ [x]) y (Some (NFile s)) n1 D1) as (n2 & H).
  assert (W : write_file ((p ++ [x]) ++ [y]) s n1 = Some n2) by (unfold write_file; rewrite N1; exact H).
  rewrite W. exists n2. split; [reflexivity|]. intro q. rewrite (write_file_dirs _ _ _ _ W q). apply Q.
Qed.

Section Run.
Variable usable : texts -> option err.
Variable chain : texts -> string -> string -> res err outcome.
Notation replay := (replay (build usable) (processing chain)).

(** After a success every processed input has its content. *)
Lemma replay_content : forall es t n t' n' j p, flat es -> separate es -> replay es t n = (t', n', Ok tt) ->
  In (Processed j p) es -> exists h f c i o, file_at n (j_chd j) h /\ file_at n (j_cnf j) f /\ file_at n (j_cst j) c /\
    file_at n p i /\ chain (h, f, c) (last p "") i = Ok o /\ o_err o = None.
Proof.
  induction es as [|e es IH]; intros t n t' n' j p Fl Sp H I; [destruct I|].
  cbn [CliSpec.replay] in H. destruct (perform (build usable) (processing chain) e t n) as [n1 [a|x]] eqn:P; [|discriminate].
  assert (Fl' : flat es) by (intros j1 p1 I1; apply (Fl j1 p1); right; exact I1).
  assert (Sp' : separate es).
  { intros j1 p1 q I1 Pr (j0 & A & p0 & B). apply (Sp j1 p1 q (or_intror I1) Pr). exists j0. split; [|exists p0; right; exact B].
    destruct A as [A|[A|[A|A]]]; auto. right. right. right. right. exact A. }
  destruct I as [->|I].
  - cbn [perform] in P. unfold processing in P. unfold bindM at 1 in P. rewrite read_eq in P.
    destruct (read_file p n) as [i|] eqn:Ri; [|discriminate]. unfold bindM at 1 in P. rewrite texts_eq in P.
    destruct (read_file (j_cst j) n) as [c|] eqn:Rc; [|discriminate].
    destruct (read_file (j_chd j) n) as [h|] eqn:Rh; [|discriminate].
    destruct (read_file (j_cnf j) n) as [f|] eqn:Rf; [|discriminate]. apply read_file_some in Ri, Rc, Rh, Rf.
    destruct (chain (h, f, c) (last p "") i) as [o|e] eqn:Ch; [|discriminate].
    exists h, f, c, i, o. split; [exact Rh|]. split; [exact Rf|]. split; [exact Rc|]. split; [exact Ri|]. split; [exact Ch|].
    destruct (o_err o) as [e|]; [|reflexivity]. exfalso. unfold thenM, bindM in P.
    destruct (make _ (o_l1b o) n) as [n2 [[]|]]; [|discriminate].
    destruct (j_skip j); cbn in P; [discriminate|]. destruct (make _ (o_l1bs o) n2) as [n3 [[]|]]; discriminate.
  - destruct (IH _ _ _ _ j p Fl' Sp' H I) as (h & f & c & i & o & A & B & C & D & E).
    assert (SR : forall x s0, source (e :: es) x -> (file_at n1 x s0 <-> file_at n x s0)).
    { intros x s0 Sx. destruct e as [j0|j0 p0]; cbn [perform] in P.
      - rewrite (build_eq _ _ _ _ _ _ P). reflexivity.
      - destruct (processing_files chain j0 p0 t n n1 (Ok a)) as (K & _); [apply (Fl j0 p0); left; reflexivity|exact P|].
        apply K. intro Pr. apply (Sp j0 p0 x (or_introl eq_refl) Pr Sx). }
    exists h, f, c, i, o.
    assert (X : forall x, x = j_chd j \/ x = j_cnf j \/ x = j_cst j \/ x = p -> source (e :: es) x).
    { intros x Hx. exists j. split; [|exists p; right; exact I]. destruct Hx as [Hx|[Hx|[Hx|Hx]]]; auto. subst x. right. right. right. right. exact I. }
    split; [apply SR; [apply X; auto|exact A]|]. split; [apply SR; [apply X; auto|exact B]|].
    split; [apply SR; [apply X; auto|exact C]|]. split; [apply SR; [apply X; auto|exact D]|exact E].
Qed.

Notation ready := (ready usable chain).
Notation opened := (opened usable).

Lemma source_eq : forall n j p t, ready n j p -> room n j p -> has_char slash (j_name j) = false ->
  exists n', processing chain j p t n = (n', Ok tt) /\
    forall q, is_dir q n' = true <-> is_dir q n = true \/ q = j_out j.
Proof.
  intros n j p t (h & f & c & i & o & A & B & C & D & _ & E & G) (b & x & O & Db & Fo & N) Hs.
  unfold processing. unfold bindM at 1. rewrite read_eq. apply read_file_some in A, B, C, D. rewrite D.
  unfold bindM at 1. rewrite texts_eq, A, B, C, E, G. rewrite (l1b_path_of j p Hs), (l1bs_path_of j p Hs).
  unfold thenM, bindM. unfold l1b_of at 1. rewrite O in *.
  destruct (make_ok b x (l1b_name (j_name j) (last p "")) (o_l1b o) n Db Fo) as (n1 & M1 & Q1).
  { rewrite <- O. apply N. left. reflexivity. }
  rewrite M1. destruct (j_skip j) eqn:SK.
  - cbn. exists n1. split; [reflexivity|exact Q1].
  - unfold l1bs_of at 1. rewrite O.
    destruct (make_ok b x (l1bs_name (j_name j) (last p "")) (o_l1bs o) n1) as (n2 & M2 & Q2).
    + apply Q1. left. exact Db.
    + intros s L. destruct (make_files _ _ _ _ _ M1) as [(_ & F1)|(X & _)]; [|now elim X].
      apply F1 in L. cbn [In] in L. destruct L as [([L|[]] & _)|(_ & L)]; [|apply (Fo s L)].
      apply (f_equal (@List.length string)) in L. rewrite app_length in L. cbn in L. lia.
    + destruct (is_dir ((b ++ [x]) ++ [l1bs_name (j_name j) (last p "")]) n1) eqn:K; [|reflexivity].
      apply Q1 in K. destruct K as [K|K].
      * rewrite <- O in K. fold (l1bs_of j p) in K. rewrite (N _ (or_intror (conj SK eq_refl))) in K. discriminate.
      * apply (f_equal (@List.length string)) in K. rewrite app_length in K. cbn in K. lia.
    + rewrite M2. cbn. exists n2. split; [reflexivity|]. intro q. rewrite (Q2 q), (Q1 q). tauto.
Qed.

Lemma replay_ok : forall es t n, flat es -> separate es ->
  (forall j, In (Built j) es -> opened n j /\ forall j' p', In (Processed j' p') es -> ~ product j' p' (j_chd j) /\ ~ product j' p' (j_cnf j) /\ ~ product j' p' (j_cst j)) ->
  (forall j p, In (Processed j p) es -> ready n j p /\ room n j p) ->
  (forall j p j' p', In (Processed j p) es -> In (Processed j' p') es -> ~ product j p (j_out j') /\ forall q, product j p q -> q <> j_out j') ->
  exists n', replay es t n = (t ++ es, n', Ok tt).
Proof.
  induction es as [|e es IH]; intros t n Fl Sp Bu Rd Ou; [exists n; rewrite app_nil_r; reflexivity|].
  assert (Fl' : flat es) by (intros j1 p1 I1; apply (Fl j1 p1); right; exact I1).
  assert (Sp' : separate es).
  { intros j1 p1 q I1 Pr (j0 & A & p0 & B). apply (Sp j1 p1 q (or_intror I1) Pr). exists j0. split; [|exists p0; right; exact B].
    destruct A as [A|[A|[A|A]]]; auto. right. right. right. right. exact A. }
  assert (Ou' : forall j p j' p', In (Processed j p) es -> In (Processed j' p') es -> ~ product j p (j_out j') /\ forall q, product j p q -> q <> j_out j').
  { intros j p j' p' I I'. apply (Ou j p j' p'); right; assumption. }
  cbn [CliSpec.replay]. replace (t ++ e :: es) with ((t ++ [e]) ++ es) by (rewrite <- app_assoc; reflexivity).
  destruct e as [j|j p]; cbn [perform].
  - destruct (Bu j (or_introl eq_refl)) as ((h & f & c & A & B & C & U) & _).
    assert (E : build usable j t n = (n, Ok tt)).
    { unfold build, bindM. rewrite texts_eq. apply read_file_some in A, B, C. rewrite A, B, C, U. reflexivity. }
    rewrite E. apply IH; try assumption.
    + intros j1 I1. destruct (Bu j1 (or_intror I1)) as (X & Y). split; [exact X|]. intros j' p' I'. apply Y. right. exact I'.
    + intros j1 p1 I1. apply Rd. right. exact I1.
  - destruct (Rd j p (or_introl eq_refl)) as (R1 & R2).
    assert (Hs : has_char slash (j_name j) = false) by (apply (Fl j p); left; reflexivity).
    destruct (source_eq n j p t R1 R2 Hs) as (n1 & E & Q). rewrite E.
    destruct (processing_files chain j p t n n1 (Ok tt) Hs E) as (K & _).
    assert (SR : forall x s0, source (Processed j p :: es) x -> (file_at n1 x s0 <-> file_at n x s0)).
    { intros x s0 Sx. apply K. intro Pr. apply (Sp j p x (or_introl eq_refl) Pr Sx). }
    apply IH; try assumption.
    + intros j1 I1. destruct (Bu j1 (or_intror I1)) as ((h & f & c & A & B & C & U) & Y). split.
      * destruct (Y j p (or_introl eq_refl)) as (Y1 & Y2 & Y3).
        exists h, f, c. split; [apply K; assumption|]. split; [apply K; assumption|]. split; [apply K; assumption|exact U].
      * intros j' p' I'. apply Y. right. exact I'.
    + intros j1 p1 I1. destruct (Rd j1 p1 (or_intror I1)) as ((h & f & c & i & o & A & B & C & D & G) & (b & x & O & Db & Fo & N)).
      assert (X : forall y, y = j_chd j1 \/ y = j_cnf j1 \/ y = j_cst j1 \/ y = p1 -> source (Processed j p :: es) y).
      { intros y Hy. exists j1. split; [|exists p1; right; exact I1]. destruct Hy as [Hy|[Hy|[Hy|Hy]]]; auto. subst y. right. right. right. right. exact I1. }
      split.
      * exists h, f, c, i, o. split; [apply SR; [apply X; auto|exact A]|]. split; [apply SR; [apply X; auto|exact B]|].
        split; [apply SR; [apply X; auto|exact C]|]. split; [apply SR; [apply X; auto|exact D]|exact G].
      * exists b, x. split; [exact O|]. split; [apply Q; left; exact Db|]. split.
        -- intros s L. apply (Fo s). apply K; [|exact L]. apply (Ou j p j1 p1); [left; reflexivity|right; exact I1].
        -- intros q Pr. destruct (is_dir q n1) eqn:Z; [|reflexivity]. apply Q in Z. destruct Z as [Z|Z].
           ++ rewrite (N q Pr) in Z. discriminate.
           ++ exfalso. destruct (Ou j1 p1 j p (or_intror I1) (or_introl eq_refl)) as (_ & V). apply (V q Pr Z).
Qed.

(** trees stay trees *)
Lemma make_wf : forall p s, keeps_wf (make p s).
Proof.
  intros p s. unfold make, make_dir. apply keeps_then; [|apply keeps_fs, write_file_wf].
  apply keeps_bind; [apply keeps_look|]. intros d. apply keeps_if; [apply keeps_ret|]. apply keeps_bind; [apply keeps_look|].
  intros e. apply keeps_if; [apply keeps_fail|apply keeps_fs, makedirs_wf].
Qed.
Lemma read_wf : forall p, keeps_wf (read p).
Proof. intros p. unfold read. apply keeps_bind; [apply keeps_look|]. intros s. apply keeps_need. Qed.
Lemma texts_wf : forall j, keeps_wf (read_texts j).
Proof.
  intros j. unfold read_texts. repeat (apply keeps_bind; [apply read_wf|]; intro). apply keeps_ret.
Qed.
Lemma replay_wf : forall es t n t' n' r, wf n -> replay es t n = (t', n', r) -> wf n'.
Proof.
  induction es as [|e es IH]; intros t n t' n' r Hn H; [cbn in H; injection H as _ <- _; exact Hn|].
  cbn [CliSpec.replay] in H.
  assert (K : keeps_wf (perform (build usable) (processing chain) e t)).
  { destruct e as [j|j p]; cbn [perform].
    - unfold build. apply keeps_bind; [apply texts_wf|]. intros x. destruct (usable x); [apply keeps_fail|apply keeps_ret].
    - unfold processing. apply keeps_bind; [apply read_wf|]. intros s. apply keeps_bind; [apply texts_wf|]. intros x.
      destruct (chain x (last p "") s) as [o|e]; [|apply keeps_fail].
      apply keeps_then; [apply make_wf|]. apply keeps_then; [apply keeps_if; [apply keeps_ret|apply make_wf]|].
      destruct (o_err o); [apply keeps_fail|apply keeps_ret]. }
  specialize (K n Hn). destruct (perform (build usable) (processing chain) e t n) as [n1 [a|x]]; cbn in K.
  - exact (IH _ _ _ _ _ K H).
  - injection H as _ <- _. exact K.
Qed.
End Run.
