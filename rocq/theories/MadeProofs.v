(** Proofs for C127. *)
From Coq Require Import Ascii String List Bool Arith Lia.
From Verif Require Import Common Dict FsModel FsProofs WsModel WsSpec WsProofs NameModel NameProofs CliModel CliSpec CliProofs
  IoSpec IoProofs MadeModel MadeSpec.
Import ListNotations.
Open Scope string_scope.
Open Scope list_scope.

Lemma product_name_plain : forall run file, has_char slash run = false ->
  plain (l1b_name run file) = true /\ plain (l1bs_name run file) = true.
Proof.
  intros run file H. unfold l1b_name, l1bs_name.
  pose proof (part_noslash _ (l1a_base_noslash file)) as B. pose proof (part_noslash run H) as R.
  split; rewrite <- !append_assoc_s; (apply plain_ext; [|reflexivity|cbn; lia]);
    rewrite !has_char_append, B, R; reflexivity.
Qed.
Lemma l1b_path_of : forall j p, has_char slash (j_name j) = false ->
  l1b_path (j_out j) (j_name j) (last p "") = l1b_of j p.
Proof. intros j p H. apply join_plain, product_name_plain, H. Qed.
Lemma l1bs_path_of : forall j p, has_char slash (j_name j) = false ->
  l1bs_path (j_out j) (j_name j) (last p "") = l1bs_of j p.
Proof. intros j p H. apply join_plain, product_name_plain, H. Qed.

(** Making directories leaves the files alone. *)
Lemma makedirs_files : forall p n n', exists_at p n = false -> makedirs p n = Some n' ->
  forall q s, file_at n' q s <-> file_at n q s.
Proof.
  intros p n n' E H q s. unfold file_at. split.
  - destruct (path_cases p q) as [A|[(r & ->)|(r & Hr & ->)]].
    + rewrite (write_other _ _ _ _ _ _ H A). auto.
    + rewrite (write_below _ _ _ _ _ _ H). destruct r as [|c r]; cbn [lookup]; discriminate.
    + destruct (write_above _ _ _ _ _ q r H eq_refl Hr) as (D1 & _). unfold is_dir in D1.
      intro L. rewrite L in D1. discriminate.
  - intro L. apply (write_new_preserves true p (NDir []) n n' E H). exact L.
Qed.
Lemma make_dir_files : forall p n n' r, make_dir p n = (n', r) ->
  (forall q s, file_at n' q s <-> file_at n q s) /\ (r = Ok tt -> is_dir p n' = true).
Proof.
  intros p n n' r H. unfold make_dir, bindM, look in H. destruct (is_dir p n) eqn:D.
  - injection H as <- <-. split; [tauto|auto].
  - destruct (exists_at p n) eqn:E; [injection H as <- <-; split; [tauto|discriminate]|].
    unfold fs in H. destruct (makedirs p n) as [m|] eqn:K.
    + injection H as <- <-. split; [exact (makedirs_files _ _ _ E K)|]. intros _. unfold is_dir.
      rewrite (write_at _ _ _ _ _ K). reflexivity.
    + injection H as <- <-. split; [tauto|discriminate].
Qed.

(** One product. *)
Lemma make_files : forall p s n n' r, make p s n = (n', r) ->
  (r = Ok tt /\ files_changed n n' [p] (fun _ t => t = s)) \/
  (r <> Ok tt /\ forall q t, file_at n' q t <-> file_at n q t).
Proof.
  intros p s n n' r H. unfold make, thenM, bindM in H.
  destruct (make_dir (removelast p) n) as [n1 [[]|e]] eqn:D; destruct (make_dir_files _ _ _ _ D) as (F & _).
  - unfold fs in H. destruct (write_file p s n1) as [n2|] eqn:K; injection H as <- <-.
    + left. split; [reflexivity|]. intros q t. rewrite (write_file_files _ _ _ _ K q t), (F q t). reflexivity.
    + right. split; [discriminate|exact F].
  - injection H as <- <-. right. split; [discriminate|exact F].
Qed.

Section Run.
Variable usable : texts -> option err.
Variable chain : texts -> string -> string -> res err outcome.
Notation replay := (replay (build usable) (processing chain)).

Lemma read_eq : forall p n, read p n = match read_file p n with Some s => (n, Ok s) | None => (n, Err EOs) end.
Proof. intros p n. unfold read, bindM, look. destruct (read_file p n); reflexivity. Qed.
Lemma texts_eq : forall j n, read_texts j n =
  match read_file (j_cst j) n, read_file (j_chd j) n, read_file (j_cnf j) n with
  | Some c, Some h, Some f => (n, Ok (h, f, c))
  | _, _, _ => (n, Err EOs)
  end.
Proof.
  intros j n. unfold read_texts, bindM. rewrite !read_eq. destruct (read_file (j_cst j) n); [|reflexivity].
  rewrite read_eq. destruct (read_file (j_chd j) n); [|reflexivity].
  rewrite read_eq. destruct (read_file (j_cnf j) n); reflexivity.
Qed.
Lemma build_eq : forall j t n n' r, build usable j t n = (n', r) -> n' = n.
Proof.
  intros j t n n' r. unfold build, bindM. rewrite texts_eq.
  destruct (read_file (j_cst j) n) as [c|], (read_file (j_chd j) n) as [h|], (read_file (j_cnf j) n) as [f|];
    try (intro H; injection H as <- _; reflexivity).
  destruct (usable (h, f, c)); intro H; injection H as <- _; reflexivity.
Qed.

(** Processing one input: only its products change; when it succeeds they are
    there. *)
Lemma processing_files : forall j p t n n' r, has_char slash (j_name j) = false -> processing chain j p t n = (n', r) ->
  (forall q s, ~ product j p q -> (file_at n' q s <-> file_at n q s)) /\
  (r = Ok tt -> forall q s, product j p q -> (file_at n' q s <-> content chain n j p q s)).
Proof.
  intros j p t n n' r Hs H. unfold processing in H. unfold bindM at 1 in H. rewrite read_eq in H.
  destruct (read_file p n) as [i|] eqn:Ri; [|injection H as <- <-; split; [tauto|discriminate]].
  unfold bindM at 1 in H. rewrite texts_eq in H.
  destruct (read_file (j_cst j) n) as [c|] eqn:Rc; [|injection H as <- <-; split; [tauto|discriminate]].
  destruct (read_file (j_chd j) n) as [h|] eqn:Rh; [|injection H as <- <-; split; [tauto|discriminate]].
  destruct (read_file (j_cnf j) n) as [f|] eqn:Rf; [|injection H as <- <-; split; [tauto|discriminate]].
  apply read_file_some in Ri, Rc, Rh, Rf.
  destruct (chain (h, f, c) (last p "") i) as [o|e] eqn:Ch; [|injection H as <- <-; split; [tauto|discriminate]].
  rewrite (l1b_path_of j p Hs), (l1bs_path_of j p Hs) in H.
  assert (CT : forall q s, content chain n j p q s <->
     ((q = l1b_of j p /\ s = o_l1b o) \/ (j_skip j = false /\ q = l1bs_of j p /\ s = o_l1bs o))).
  { intros q s. split.
    - intros (h' & f' & c' & i' & o' & A & B & C & D & E & F). unfold file_at in *.
      rewrite Rh in A. rewrite Rf in B. rewrite Rc in C. rewrite Ri in D.
      injection A as <-. injection B as <-. injection C as <-. injection D as <-. rewrite Ch in E. injection E as <-. exact F.
    - intro F. exists h, f, c, i, o. unfold file_at. repeat split; assumption. }
  assert (NE : l1b_of j p <> l1bs_of j p).
  { unfold l1b_of, l1bs_of. intro E. apply app_inj_tail in E. destruct E as [_ E]. unfold l1b_name, l1bs_name in E.
    cbn in E. unfold part in E. destruct (l1a_base (last p "") =? "")%string, (j_name j =? "")%string; cbn in E; discriminate. }
  unfold thenM at 1, bindM at 1 in H.
  destruct (make (l1b_of j p) (o_l1b o) n) as [n1 [[]|e1]] eqn:M1.
  2:{ injection H as <- <-. destruct (make_files _ _ _ _ _ M1) as [(X & _)|(_ & F)]; [discriminate|].
      split; [intros; apply F|discriminate]. }
  destruct (make_files _ _ _ _ _ M1) as [(_ & F1)|(X & _)]; [|now elim X].
  unfold thenM, bindM in H.
  destruct (j_skip j) eqn:SK.
  - cbn in H. assert (E : n' = n1 /\ (r = Ok tt \/ exists e, r = Err e)).
    { destruct (o_err o) as [e|]; cbn in H; injection H as <- <-; split; eauto. }
    destruct E as (-> & _). split.
    + intros q s NP. rewrite (F1 q s). cbn [In]. unfold product in NP. split.
      * intros [([E|[]] & _)|(_ & L)]; [|exact L]. elim NP. left. symmetry. exact E.
      * intro L. right. split; [|exact L]. intros [E|[]]. apply NP. left. symmetry. exact E.
    + intros _ q s P. rewrite CT, (F1 q s). destruct P as [->|(X & _)]; [|congruence]. cbn [In]. split.
      * intros [(_ & ->)|(N & _)]; [left; auto|]. elim N. left. reflexivity.
      * intros [(_ & ->)|(X & _)]; [|congruence]. left. auto.
  - destruct (make (l1bs_of j p) (o_l1bs o) n1) as [n2 [[]|e2]] eqn:M2.
    2:{ injection H as <- <-. destruct (make_files _ _ _ _ _ M2) as [(X & _)|(_ & F2)]; [discriminate|].
        split; [|discriminate]. intros q s NP. rewrite (F2 q s), (F1 q s). cbn [In]. unfold product in NP. split.
        - intros [([E|[]] & _)|(_ & L)]; [|exact L]. elim NP. left. symmetry. exact E.
        - intro L. right. split; [|exact L]. intros [E|[]]. apply NP. left. symmetry. exact E. }
    destruct (make_files _ _ _ _ _ M2) as [(_ & F2)|(X & _)]; [|now elim X].
    assert (E : n' = n2 /\ (r = Ok tt \/ exists e, r = Err e)).
    { destruct (o_err o) as [e|]; cbn in H; injection H as <- <-; split; eauto. }
    destruct E as (-> & _). unfold product.
    assert (G : forall q s, file_at n2 q s <-> (q = l1bs_of j p /\ s = o_l1bs o) \/ (q = l1b_of j p /\ s = o_l1b o) \/
                 (q <> l1bs_of j p /\ q <> l1b_of j p /\ file_at n q s)).
    { intros q s. rewrite (F2 q s), (F1 q s). cbn [In].
      destruct (path_dec q (l1bs_of j p)) as [E1|E1]; [subst q; intuition congruence|].
      destruct (path_dec q (l1b_of j p)) as [E2|E2]; [subst q; intuition congruence|]. intuition congruence. }
    split.
    + intros q s NP. rewrite G. intuition congruence.
    + intros _ q s P. rewrite CT, G. destruct P as [->|(_ & ->)]; intuition congruence.
Qed.

Lemma processed_dec : forall (es : list event) q, (exists j p, In (Processed j p) es /\ product j p q) \/
  (forall j p, In (Processed j p) es -> ~ product j p q).
Proof.
  assert (PD : forall j p q, product j p q \/ ~ product j p q).
  { intros j p q. unfold product. destruct (path_dec q (l1b_of j p)), (path_dec q (l1bs_of j p)), (j_skip j); intuition congruence. }
  induction es as [|e es IH]; intro q; [right; intros j p []|].
  destruct (IH q) as [(j & p & A & B)|N]; [left; exists j, p; split; [right; exact A|exact B]|].
  destruct e as [j|j p].
  - right. intros j' p' [E|I]; [discriminate|apply N, I].
  - destruct (PD j p q) as [P|P]; [left; exists j, p; split; [left; reflexivity|exact P]|].
    right. intros j' p' [E|I]; [injection E as <- <-; exact P|apply N, I].
Qed.

Lemma content_same : forall n n' j p q s,
  (forall x t, x = j_chd j \/ x = j_cnf j \/ x = j_cst j \/ x = p -> (file_at n' x t <-> file_at n x t)) ->
  (content chain n' j p q s <-> content chain n j p q s).
Proof.
  intros n n' j p q s H.
  split; intros (h & f & c & i & o & A & B & C & D & E); exists h, f, c, i, o;
    (split; [apply (H (j_chd j)); auto|]); (split; [apply (H (j_cnf j)); auto|]); (split; [apply (H (j_cst j)); auto|]);
    (split; [apply (H p); auto|exact E]).
Qed.

(** Whatever happens, only products change. *)
Lemma replay_only : forall es t n t' n' r, flat es -> replay es t n = (t', n', r) ->
  forall q s, (forall j p, In (Processed j p) es -> ~ product j p q) -> (file_at n' q s <-> file_at n q s).
Proof.
  induction es as [|e es IH]; intros t n t' n' r Fl H q s NP; cbn [CliSpec.replay] in H; [injection H as _ <- _; reflexivity|].
  assert (Fl' : flat es) by (intros j p I; apply (Fl j p); right; exact I).
  assert (ST : forall n1 r1, perform (build usable) (processing chain) e t n = (n1, r1) -> (file_at n1 q s <-> file_at n q s)).
  { intros n1 r1 P. destruct e as [j|j p]; cbn [perform] in P.
    - rewrite (build_eq _ _ _ _ _ P). reflexivity.
    - destruct (processing_files j p t n n1 r1) as (A & _); [apply (Fl j p); left; reflexivity|exact P|].
      apply A. apply (NP j p). left. reflexivity. }
  destruct (perform (build usable) (processing chain) e t n) as [n1 [a|x]] eqn:P.
  - rewrite (IH _ _ _ _ _ Fl' H q s (fun j p I => NP j p (or_intror I))). apply (ST n1 (Ok a) eq_refl).
  - injection H as _ <- _. apply (ST n1 (Err x) eq_refl).
Qed.

(** A run that succeeds. *)
Lemma replay_exact : forall es t n t' n', flat es -> separate es -> replay es t n = (t', n', Ok tt) ->
  exactly chain es n n'.
Proof.
  induction es as [|e es IH]; intros t n t' n' Fl Sp H.
  - cbn in H. injection H as _ <-. intros q s. split; [intro L; right; split; [intros j p []|exact L]|].
    intros [(j & p & (pre & post & E & _) & _)|(_ & L)]; [destruct pre; discriminate|exact L].
  - cbn [CliSpec.replay] in H. destruct (perform (build usable) (processing chain) e t n) as [n1 [a|x]] eqn:P; [|discriminate].
    assert (Fl' : flat es) by (intros j p I; apply (Fl j p); right; exact I).
    assert (Sp' : separate es).
    { intros j p q I Pr (j0 & A & p0 & B). apply (Sp j p q (or_intror I) Pr). exists j0. split; [|exists p0; right; exact B].
      destruct A as [A|[A|[A|A]]]; auto. right. right. right. right. exact A. }
    pose proof (IH _ _ _ _ Fl' Sp' H) as X. clear IH.
    destruct e as [j0|j0 p0]; cbn [perform] in P.
    + pose proof (build_eq _ _ _ _ _ P) as ->. intros q s. rewrite (X q s). split.
      * intros [(j & p & (pre & post & -> & Q & N) & C)|(N & L)].
        -- left. exists j, p. split; [|exact C]. exists (Built j0 :: pre), post. split; [reflexivity|]. split; assumption.
        -- right. split; [|exact L]. intros j p [E|I]; [discriminate|apply N, I].
      * intros [(j & p & (pre & post & E & Q & N) & C)|(N & L)].
        -- left. exists j, p. split; [|exact C]. destruct pre as [|e pre]; [discriminate|]. injection E as _ E.
           exists pre, post. split; [exact E|]. split; assumption.
        -- right. split; [|exact L]. intros j p I. apply N. right. exact I.
    + destruct a. destruct (processing_files j0 p0 t n n1 (Ok tt)) as (A & B); [apply (Fl j0 p0); left; reflexivity|exact P|].
      specialize (B eq_refl).
      (* sources of the later events are as before *)
      assert (SR : forall x s0, source (Processed j0 p0 :: es) x -> (file_at n1 x s0 <-> file_at n x s0)).
      { intros x s0 Sx. apply A. intro Pr. apply (Sp j0 p0 x (or_introl eq_refl) Pr Sx). }
      assert (CS : forall j p q s, In (Processed j p) es -> (content chain n1 j p q s <-> content chain n j p q s)).
      { intros j p q s I. apply content_same. intros x s0 Hx. apply SR. exists j. split; [|exists p; right; exact I].
        destruct Hx as [Hx|[Hx|[Hx|Hx]]]; auto. subst x. right. right. right. right. exact I. }
      intros q s. rewrite (X q s). split.
      * intros [(j & p & (pre & post & E & Q & N) & C)|(N & L)].
        -- left. exists j, p. split.
           ++ exists (Processed j0 p0 :: pre), post. rewrite E. split; [reflexivity|]. split; assumption.
           ++ apply CS; [|exact C]. rewrite E. apply in_or_app. right. left. reflexivity.
        -- destruct (processed_dec [Processed j0 p0] q) as [(j & p & [E|[]] & Pr)|NP].
           ++ injection E as <- <-. left. exists j0, p0. split.
              ** exists [], es. split; [reflexivity|]. split; [exact Pr|]. intros j' p' I. apply (N j' p' I).
              ** apply B; assumption.
           ++ right. split; [intros j p [E|I]; [apply NP; left; exact E|apply N, I]|]. apply A; [|exact L].
              apply NP. left. reflexivity.
      * intros [(j & p & (pre & post & E & Q & N) & C)|(N & L)].
        -- destruct pre as [|e pre].
           ++ injection E as <- <- <-. right. split; [exact N|]. apply B; assumption.
           ++ injection E as _ E2. left. exists j, p. split; [exists pre, post; split; [exact E2|]; split; assumption|].
              apply CS; [|exact C]. rewrite E2. apply in_or_app. right. left. reflexivity.
        -- right. split; [intros j p I; apply N; right; exact I|]. apply A; [|exact L]. apply N. left. reflexivity.
Qed.
End Run.
