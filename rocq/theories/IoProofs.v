(** Proofs for C102-C103. *)
From Coq Require Import Ascii String List Bool Arith Lia.
From Verif Require Import Common Dict FsModel FsProofs WsModel WsSpec WsProofs IoSpec.
Import ListNotations.
Open Scope string_scope.
Open Scope list_scope.

Definition path_dec : forall p q : path, {p = q} + {p <> q} := list_eq_dec string_dec.

Lemma lookup_file_leaf : forall p r n s, lookup p n = Some (NFile s) -> r <> [] -> lookup (p ++ r) n = None.
Proof. intros p r n s H Hr. rewrite lookup_app, H. destruct r; [now elim Hr|reflexivity]. Qed.

(** Replacing a file or nothing by a file changes that file only. *)
Lemma write_file_files : forall p s n n', write_file p s n = Some n' ->
  files_changed n n' [p] (fun _ t => t = s).
Proof.
  intros p s n n' H. unfold write_file in H. destruct (is_dir p n) eqn:D; [discriminate|].
  intros q t. unfold file_at. destruct (path_cases p q) as [A|[(r & ->)|(r & Hr & ->)]].
  - rewrite (write_other _ _ _ _ _ _ H A). split.
    + intros L. right. split; [|exact L]. intros [<-|[]]. destruct A as (A & _).
      rewrite is_prefix_refl in A. discriminate.
    + intros [([<-|[]] & _)|(_ & L)]; [|exact L]. destruct A as (A & _).
      rewrite is_prefix_refl in A. discriminate.
  - rewrite (write_below _ _ _ _ _ _ H). destruct r as [|c r].
    + rewrite app_nil_r. cbn [lookup]. split.
      * intros E. injection E as <-. left. split; [now left|reflexivity].
      * intros [(_ & ->)|(N & _)]; [reflexivity|]. elim N. now left.
    + cbn [lookup]. split; [discriminate|]. intros [([E|[]] & _)|(_ & L)].
      * exfalso. apply (f_equal (@List.length string)) in E. rewrite app_length in E. cbn in E. lia.
      * exfalso. rewrite lookup_app in L. unfold is_dir in D.
        destruct (lookup p n) as [[|]|]; discriminate.
  - destruct (write_above _ _ _ _ _ q r H eq_refl Hr) as (D1 & D2). unfold is_dir in D1.
    split.
    + intros L. rewrite L in D1. discriminate.
    + intros [([E|[]] & _)|(_ & L)].
      * exfalso. apply (f_equal (@List.length string)) in E. rewrite app_length in E.
        destruct r; [now elim Hr|cbn in E; lia].
      * destruct D2 as [D2|(D2 & _)]; [|discriminate]. unfold is_dir in D2. rewrite L in D2. discriminate.
Qed.

Lemma remove_files : forall p n n', remove p n = Some n' ->
  files_changed n n' [p] (fun _ _ => False).
Proof.
  intros p n n' H. unfold remove in H. destruct (is_file p n) eqn:D; [|discriminate].
  intros q t. unfold file_at. destruct (path_cases p q) as [A|[(r & ->)|(r & Hr & ->)]].
  - rewrite (write_other _ _ _ _ _ _ H A). split.
    + intros L. right. split; [|exact L]. intros [<-|[]]. destruct A as (A & _).
      rewrite is_prefix_refl in A. discriminate.
    + intros [(_ & [])|(_ & L)]. exact L.
  - rewrite (write_below _ _ _ _ _ _ H). split; [discriminate|].
    intros [(_ & [])|(N & L)]. destruct r as [|c r].
    + elim N. rewrite app_nil_r. now left.
    + unfold is_file in D. rewrite lookup_app in L. destruct (lookup p n) as [[|]|]; discriminate.
  - destruct (write_above _ _ _ _ _ q r H eq_refl Hr) as (D1 & D2). unfold is_dir in D1.
    split.
    + intros L. rewrite L in D1. discriminate.
    + intros [(_ & [])|(_ & L)]. destruct D2 as [D2|(D2 & _)]; [|discriminate].
      unfold is_dir in D2. rewrite L in D2. discriminate.
Qed.

Lemma remove_dirs : forall p n n', remove p n = Some n' -> forall q,
  is_dir q n' = is_dir q n.
Proof.
  intros p n n' H q. unfold remove in H. destruct (is_file p n) eqn:D; [|discriminate].
  unfold is_dir. destruct (path_cases p q) as [A|[(r & ->)|(r & Hr & ->)]].
  - now rewrite (write_other _ _ _ _ _ _ H A).
  - rewrite (write_below _ _ _ _ _ _ H). unfold is_file in D. rewrite lookup_app.
    destruct (lookup p n) as [[|]|]; try discriminate. destruct r; reflexivity.
  - destruct (write_above _ _ _ _ _ q r H eq_refl Hr) as (D1 & D2). unfold is_dir in D1, D2.
    destruct D2 as [D2|(D2 & _)]; [|discriminate]. now rewrite D1, D2.
Qed.

Lemma write_file_dirs : forall p s n n', write_file p s n = Some n' -> forall q,
  is_dir q n' = is_dir q n.
Proof.
  intros p s n n' H q. unfold write_file in H. destruct (is_dir p n) eqn:D; [discriminate|].
  unfold is_dir. destruct (path_cases p q) as [A|[(r & ->)|(r & Hr & ->)]].
  - now rewrite (write_other _ _ _ _ _ _ H A).
  - rewrite (write_below _ _ _ _ _ _ H). unfold is_dir in D. rewrite lookup_app.
    destruct (lookup p n) as [[|]|]; try discriminate; destruct r; reflexivity.
  - destruct (write_above _ _ _ _ _ q r H eq_refl Hr) as (D1 & D2). unfold is_dir in D1, D2.
    destruct D2 as [D2|(D2 & _)]; [|discriminate]. now rewrite D1, D2.
Qed.

Lemma files_refl : forall n f, files_changed n n [] f.
Proof. intros n f q s. split; [right; tauto|]. intros [([] & _)|(_ & H)]. exact H. Qed.

(** * Removing *)

Lemma files_step : forall n n1 n2 p l f,
  files_changed n n1 [p] f -> files_changed n1 n2 l f ->
  (forall q s, In q l -> In q (p :: nil) -> f q s -> f q s) ->
  files_changed n n2 (p :: l) f.
Proof.
  intros n n1 n2 p l f H1 H2 _ q s. rewrite (H2 q s). rewrite (H1 q s). cbn [In].
  destruct (in_dec path_dec q l) as [I|I]; [tauto|].
  destruct (path_dec p q) as [E|E]; tauto.
Qed.

(** One entry of a directory is removed unless it is missing. *)
Definition removal (p : path) (x : string) : M unit :=
  bindM (look (exists_at (p ++ [x]))) (fun ex => if ex then fs EWs (remove (p ++ [x])) else ret tt).

Lemma removal_ok : forall p x n, is_dir (p ++ [x]) n = false ->
  exists n', removal p x n = (n', Ok tt) /\ files_changed n n' [p ++ [x]] (fun _ _ => False) /\
    (forall q, is_dir q n' = is_dir q n) /\
    (forall d, lookup p n = Some (NDir d) -> lookup p n' = Some (NDir (ddel x d))).
Proof.
  intros p x n D. unfold removal, bindM, look. destruct (exists_at (p ++ [x]) n) eqn:E.
  - assert (F : is_file (p ++ [x]) n = true).
    { unfold exists_at in E. unfold is_dir in D. unfold is_file. destruct (lookup (p ++ [x]) n) as [[]|]; easy. }
    destruct (write_ok false p x None n (exists_parent_dir p x [] n E)) as (n' & W).
    assert (R : remove (p ++ [x]) n = Some n') by (unfold remove; now rewrite F).
    exists n'. unfold fs. rewrite R. split; [reflexivity|]. split; [now apply remove_files|].
    split; [now apply (remove_dirs (p ++ [x]))|].
    intros d L. apply (write_child _ _ _ _ _ _ _ L W).
  - exists n. split; [reflexivity|]. split; [|split; [reflexivity|]].
    + intros q s. split.
      * intros L. right. split; [|exact L]. intros [<-|[]]. unfold file_at in L. unfold exists_at in E.
        rewrite L in E. discriminate.
      * intros [(_ & [])|(_ & L)]. exact L.
    + intros d L. unfold exists_at in E. rewrite lookup_app, L in E. cbn [lookup] in E.
      assert (X : ddel x d = d); [|now rewrite X].
      destruct (dget x d) eqn:G; [discriminate|]. apply dget_none in G.
      clear - G. induction d as [|[k v] d IH]; [reflexivity|]. cbn [ddel filter fst].
      destruct (x =? k)%string eqn:K.
      * apply String.eqb_eq in K. subst. elim G. now left.
      * cbn [negb]. f_equal. apply IH. intros I. apply G. now right.
Qed.

Lemma removal_dir : forall p x n, is_dir (p ++ [x]) n = true -> removal p x n = (n, Err EWs).
Proof.
  intros p x n D. unfold removal, bindM, look. rewrite (is_dir_exists _ _ D). unfold fs, remove.
  unfold is_dir in D. unfold is_file. destruct (lookup (p ++ [x]) n) as [[]|]; try discriminate. reflexivity.
Qed.

Lemma removals_ok : forall p l n, (forall x, In x l -> is_dir (p ++ [x]) n = false) ->
  exists n', forM (removal p) l n = (n', Ok tt) /\
    files_changed n n' (map (fun x => p ++ [x]) l) (fun _ _ => False) /\
    (forall q, is_dir q n' = is_dir q n) /\
    (forall d, lookup p n = Some (NDir d) ->
       lookup p n' = Some (NDir (fold_left (fun d x => ddel x d) l d))).
Proof.
  intros p. induction l as [|x l IH]; intros n H.
  - exists n. split; [reflexivity|]. split; [apply files_refl|]. split; [reflexivity|]. intros d L. exact L.
  - destruct (removal_ok p x n) as (n1 & R1 & F1 & D1 & L1); [apply H; now left|].
    destruct (IH n1) as (n2 & R2 & F2 & D2 & L2).
    { intros y Hy. rewrite D1. apply H. now right. }
    exists n2. cbn [forM map fold_left]. unfold thenM, bindM. rewrite R1. split; [exact R2|].
    split; [eapply files_step; eauto|]. split; [intros q; now rewrite D2|].
    intros d L. apply L2. now apply L1.
Qed.

(** Removal stops at the first directory. *)
Lemma removals_stop : forall p l x r n, (forall y, In y l -> is_dir (p ++ [y]) n = false) ->
  is_dir (p ++ [x]) n = true ->
  exists n', forM (removal p) (l ++ x :: r) n = (n', Err EWs) /\
    files_changed n n' (map (fun y => p ++ [y]) l) (fun _ _ => False).
Proof.
  intros p. induction l as [|y l IH]; intros x r n H D.
  - exists n. cbn [app forM]. unfold thenM, bindM. rewrite (removal_dir _ _ _ D).
    split; [reflexivity|apply files_refl].
  - destruct (removal_ok p y n) as (n1 & R1 & F1 & D1 & L1); [apply H; now left|].
    destruct (IH x r n1) as (n2 & R2 & F2).
    { intros z Hz. rewrite D1. apply H. now right. }
    { now rewrite D1. }
    exists n2. cbn [app forM map]. unfold thenM at 1. unfold bindM. rewrite R1. split; [exact R2|].
    eapply files_step; eauto.
Qed.

Lemma fold_ddel_keys : forall (d : dict node), fold_left (fun d x => ddel x d) (keys d) d = [].
Proof.
  assert (A : forall l (d : dict node) k, In k (keys (fold_left (fun d x => ddel x d) l d)) ->
              In k (keys d) /\ ~ In k l).
  { induction l as [|x l IH]; intros d k H; [split; [exact H|intros []]|].
    cbn [fold_left] in H. apply IH in H as (H1 & H2).
    unfold keys in H1. apply in_map_iff in H1 as ((k' & v) & E & H1). cbn [fst] in E. subst k'.
    apply filter_In in H1 as (H1 & N). cbn [fst] in N. apply negb_true_iff in N. apply String.eqb_neq in N.
    split; [apply in_map_iff; now exists (k, v)|]. intros [->|I]; [now apply N|now apply H2]. }
  intros d. destruct (fold_left (fun d x => ddel x d) (keys d) d) as [|[k v] r] eqn:E; [reflexivity|].
  exfalso. destruct (A (keys d) d k) as (H1 & H2); [rewrite E; now left|]. now apply H2.
Qed.

(** * Adding *)
Definition adding (p : path) (src : path) : M unit :=
  fs EWs (copy_file src (join p (last src ""))).

Lemma adding_ok : forall p b x n s, plain x = true -> lookup p n <> None -> is_dir p n = true ->
  file_at n (b ++ [x]) s -> is_dir (p ++ [x]) n = false -> b <> p ->
  exists n', adding p (b ++ [x]) n = (n', Ok tt) /\
    files_changed n n' [p ++ [x]] (fun _ t => t = s) /\ (forall q, is_dir q n' = is_dir q n).
Proof.
  intros p b x n s Hx _ Dp F D Hb. unfold adding, fs, copy_file.
  rewrite last_snoc, (join_plain p x Hx), D.
  assert (N : path_eqb (b ++ [x]) (p ++ [x]) = false).
  { destruct (path_eqb (b ++ [x]) (p ++ [x])) eqn:E; [|reflexivity]. apply path_eqb_eq in E.
    apply app_inj_tail in E as (E & _). contradiction. }
  rewrite N. unfold file_at in F. rewrite F.
  destruct (write_ok false p x (Some (NFile s)) n Dp) as (n' & W).
  assert (R : write_file (p ++ [x]) s n = Some n') by (unfold write_file; now rewrite D).
  rewrite R. exists n'. split; [reflexivity|]. split; [now apply write_file_files|now apply (write_file_dirs (p ++ [x]) s)].
Qed.

(** The files of a list are stored under their names; later ones win. *)
Fixpoint latest (l : list (path * string * string)) (x : string) : option string :=
  match l with
  | [] => None
  | (b, y, s) :: r => match latest r x with
                      | Some t => Some t
                      | None => if (x =? y)%string then Some s else None
                      end
  end.

Lemma latest_in : forall l x, latest l x <> None <-> In x (map (fun e => snd (fst e)) l).
Proof.
  induction l as [|[[b y] s] l IH]; intros x; cbn [latest map In fst snd]; [tauto|].
  rewrite <- IH. destruct (latest l x); [split; [intros _; right; discriminate|discriminate]|].
  destruct (x =? y)%string eqn:E.
  - apply String.eqb_eq in E. subst. split; [now left|discriminate].
  - apply String.eqb_neq in E. split; [congruence|]. intros [H|H]; congruence.
Qed.

Lemma adding_all : forall p l n, is_dir p n = true ->
  (forall b x s, In (b, x, s) l -> plain x = true /\ file_at n (b ++ [x]) s /\ b <> p /\
     is_dir (p ++ [x]) n = false) ->
  exists n', forM (adding p) (map (fun e => fst (fst e) ++ [snd (fst e)]) l) n = (n', Ok tt) /\
    (forall q, is_dir q n' = is_dir q n) /\
    files_changed n n' (map (fun e => p ++ [snd (fst e)]) l)
      (fun q t => exists x, q = p ++ [x] /\ latest l x = Some t).
Proof.
  intros p. induction l as [|[[b x] s] l IH]; intros n Dp H.
  - exists n. split; [reflexivity|]. split; [reflexivity|apply files_refl].
  - destruct (H b x s (or_introl eq_refl)) as (Px & Fx & Nx & Dx).
    destruct (adding_ok p b x n s Px) as (n1 & R1 & F1 & D1); try assumption.
    { unfold is_dir in Dp. destruct (lookup p n); discriminate || congruence. }
    destruct (IH n1) as (n2 & R2 & D2 & F2).
    { now rewrite D1. }
    { intros b' x' s' I. destruct (H b' x' s' (or_intror I)) as (P' & F' & N' & D').
      split; [exact P'|]. split; [|split; [exact N'|now rewrite D1]].
      apply F1. right. split; [|exact F']. intros [E|[]]. apply app_inj_tail in E as (E & _). congruence. }
    exists n2. cbn [map forM fst snd]. unfold thenM, bindM. rewrite R1. split; [exact R2|].
    split; [intros q; now rewrite D2|].
    intros q t. rewrite (F2 q t). rewrite (F1 q t). cbn [In latest].
    assert (L : forall y, p ++ [y] = q -> In q (map (fun e => p ++ [snd (fst e)]) l) <-> latest l y <> None).
    { intros y <-. rewrite latest_in. rewrite !in_map_iff. split.
      - intros (e & E & I). apply app_inj_tail in E as (_ & E). now exists e.
      - intros (e & E & I). exists e. split; [now rewrite <- E|exact I]. }
    split.
    + intros [(I & y & E & Ly)|(I & [(J & ->)|(J & F)])].
      * left. split; [now right|]. exists y. split; [exact E|]. now rewrite Ly.
      * destruct J as [E|[]]. left. split; [now left|]. exists x. split; [now symmetry|].
        destruct (latest l x) as [u|] eqn:Lx.
        -- elim I. apply (L x E). rewrite Lx. discriminate.
        -- now rewrite String.eqb_refl.
      * right. split; [|exact F]. intros [E|I']; [now apply J; left|now apply I].
    + intros [(I & y & E & Ly)|(I & F)].
      * destruct (latest l y) as [u|] eqn:Lu.
        -- left. injection Ly as ->. split; [apply (L y); [now symmetry|]; rewrite Lu; discriminate|].
           exists y. split; [exact E|exact Lu].
        -- right. destruct (y =? x)%string eqn:Ey; [|discriminate]. injection Ly as ->.
           apply String.eqb_eq in Ey. subst y. split.
           ++ intros J. apply (L x (eq_sym E)) in J. congruence.
           ++ left. split; [left; now symmetry|reflexivity].
      * right. split; [now intros J; apply I; right|]. right. split; [|exact F].
        intros [J|[]]. apply I. now left.
Qed.

(** Making the directory of the inputs. *)
Lemma ensure_inputs : forall p n, is_dir p n = true \/
    (lookup p n = None /\ exists b c, p = b ++ [c] /\ is_dir b n = true) ->
  exists n', ensure_dir p n = (n', Ok tt) /\ is_dir p n' = true /\
    (forall q s, file_at n' q s <-> file_at n q s) /\
    (forall q, is_dir q n' = true <-> is_dir q n = true \/ q = p).
Proof.
  intros p n H. unfold ensure_dir, bindM, look. destruct (exists_at p n) eqn:E.
  - assert (D : is_dir p n = true).
    { destruct H as [D|(L & _)]; [exact D|]. unfold exists_at in E. rewrite L in E. discriminate. }
    exists n. split; [reflexivity|]. split; [exact D|]. split; [tauto|].
    intros q. split; [now left|]. intros [Q| ->]; assumption.
  - destruct H as [D|(L & b & c & -> & Db)].
    { rewrite (is_dir_exists _ _ D) in E. discriminate. }
    destruct (write_ok true b c (Some (NDir [])) n Db) as (n' & W).
    unfold fs, makedirs. rewrite W. exists n'. split; [reflexivity|].
    pose proof (write_at _ _ _ _ _ W) as A.
    split; [unfold is_dir; now rewrite A|]. split.
    + intros q s. unfold file_at. destruct (path_cases (b ++ [c]) q) as [P|[(r & ->)|(r & Hr & Eq)]].
      * now rewrite (write_other _ _ _ _ _ _ W P).
      * rewrite (write_below _ _ _ _ _ _ W). rewrite lookup_app, L. destruct r; split; discriminate.
      * destruct (write_above _ _ _ _ _ q r W Eq Hr) as (D1 & D2). unfold is_dir in D1, D2.
        split; intros F; [rewrite F in D1; discriminate|].
        destruct D2 as [D2|(_ & D2)]; rewrite F in D2; discriminate.
    + intros q. unfold is_dir. destruct (path_cases (b ++ [c]) q) as [P|[(r & ->)|(r & Hr & Eq)]].
      * rewrite (write_other _ _ _ _ _ _ W P). split; [now left|]. intros [Q|Q]; [exact Q|].
        subst q. destruct P as (P & _). rewrite is_prefix_refl in P. discriminate.
      * rewrite (write_below _ _ _ _ _ _ W). rewrite lookup_app, L. destruct r as [|a r]; cbn [lookup].
        -- rewrite app_nil_r. split; [now right|reflexivity].
        -- split; [discriminate|]. intros [Q|Q]; [discriminate|]. apply (f_equal (@List.length string)) in Q.
           rewrite app_length in Q. cbn in Q. lia.
      * destruct (write_above _ _ _ _ _ q r W Eq Hr) as (D1 & D2). unfold is_dir in D1, D2.
        rewrite D1. split; [|reflexivity]. intros _. left.
        assert (X : is_prefix q b = true).
        { apply is_prefix_app. destruct (exists_last Hr) as (r' & z & ->). exists r'.
          rewrite app_assoc in Eq. now apply app_inj_tail in Eq as (-> & _). }
        apply is_prefix_app in X as (r' & ->).
        destruct D2 as [D2|(_ & D2)]; [exact D2|].
        unfold is_dir in Db. rewrite lookup_app, D2 in Db. discriminate.
Qed.

Lemma join_plain_eq : forall p x, plain x = true -> join p x = p ++ [x].
Proof. exact join_plain. Qed.

Lemma forM_ext : forall {A} (f g : A -> M unit) l, (forall x n, In x l -> f x n = g x n) ->
  forall n, forM f l n = forM g l n.
Proof.
  intros A f g. induction l as [|x l IH]; intros H n; [reflexivity|].
  cbn [forM]. unfold thenM, bindM. rewrite (H x n) by now left.
  destruct (g x n) as [n1 [u|e]]; [|reflexivity]. apply IH. intros y m Hy. apply H. now right.
Qed.
