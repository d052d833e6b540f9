(** The commands keep the selected workspace and configuration existing. *)
From Coq Require Import Ascii String List Bool Arith Lia.
From Verif Require Import Common Dict FsModel FsProofs WsModel WsSpec WsProofs NameModel CliModel CliSpec CurProofs.
Import ListNotations.
Open Scope string_scope.
Open Scope list_scope.

Lemma keys_dset_in : forall {V} k (v : V) d, In k (keys d) -> keys (dset k v d) = keys d.
Proof.
  intros V k v d. induction d as [|[a x] r IH]; intro H; [destruct H|]. cbn [dset].
  destruct (k =? a)%string eqn:E; [reflexivity|]. cbn [keys map fst] in *. f_equal. apply IH.
  destruct H as [H|H]; [|exact H]. subst. rewrite String.eqb_refl in E. discriminate.
Qed.

Section Sess.
Variable W : path.

Definition cfgs (w : string) : path := W ++ [w; "configs"].

Lemma ws_path_o : forall w, ordinary w = true -> ws_path W w = W ++ [w].
Proof. intros w H. apply ws_path_plain. apply ordinary_plain. exact H. Qed.
Lemma configs_path_o : forall w, ordinary w = true -> configs_path W w = cfgs w.
Proof. intros w H. rewrite configs_path_eq, (ws_path_o w H), <- app_assoc. reflexivity. Qed.
Lemma config_path_o : forall w c, ordinary w = true -> ordinary c = true -> config_path W w c = cfgs w ++ [c].
Proof.
  intros w c H1 H2. rewrite config_path_plain by (apply ordinary_plain; exact H2).
  rewrite (configs_path_o w H1). reflexivity.
Qed.
Lemma cfgs_in : forall w p, cfgs w ++ p = W ++ w :: "configs" :: p.
Proof. intros. unfold cfgs. rewrite <- app_assoc. reflexivity. Qed.

(** ** Postconditions: errors leave a sound tree *)

Definition hoare {A} (P : node -> Prop) (m : M A) (Q : A -> node -> Prop) : Prop :=
  forall n, P n -> match m n with
                   | (n', Ok a) => Q a n'
                   | (n', Err _) => sound W n'
                   end.

Lemma hoare_bind : forall A C P (m : M A) (f : A -> M C) R Q,
  hoare P m R -> (forall a, hoare (R a) (f a) Q) -> hoare P (bindM m f) Q.
Proof.
  intros A C P m f R Q H1 H2 n Hn. specialize (H1 n Hn). unfold bindM.
  destruct (m n) as [n1 [a|e]]; [|exact H1]. apply H2. exact H1.
Qed.
Lemma hoare_then : forall A C P (m : M A) (k : M C) R Q,
  hoare P m (fun _ => R) -> hoare R k Q -> hoare P (thenM m k) Q.
Proof. intros. unfold thenM. eapply hoare_bind; [eassumption|]. intro. assumption. Qed.
Lemma hoare_ret : forall A (P : node -> Prop) (a : A) (Q : A -> node -> Prop),
  (forall n, P n -> Q a n) -> hoare P (ret a) Q.
Proof. intros A P a Q H n Hn. apply H. exact Hn. Qed.
Lemma hoare_fail : forall A (P : node -> Prop) e (Q : A -> node -> Prop),
  (forall n, P n -> sound W n) -> hoare P (fail e) Q.
Proof. intros A P e Q H n Hn. apply H. exact Hn. Qed.
Lemma hoare_pre : forall A (P P' : node -> Prop) (m : M A) Q,
  (forall n, P n -> P' n) -> hoare P' m Q -> hoare P m Q.
Proof. intros A P P' m Q H1 H2 n Hn. apply H2, H1, Hn. Qed.
Lemma hoare_post : forall A P (m : M A) (Q Q' : A -> node -> Prop),
  (forall a n, Q a n -> Q' a n) -> hoare P m Q -> hoare P m Q'.
Proof.
  intros A P m Q Q' H1 H2 n Hn. specialize (H2 n Hn). destruct (m n) as [n1 [a|e]]; auto.
Qed.
Lemma hoare_catch : forall A P sel (m : M A) Q, hoare P m Q -> hoare P (catch sel m) Q.
Proof.
  intros A P sel m Q H n Hn. specialize (H n Hn). unfold catch. destruct (m n) as [n1 [a|e]]; exact H.
Qed.
Lemma hoare_look : forall A (P : node -> Prop) (f : node -> A) (Q : A -> node -> Prop),
  (forall n, P n -> Q (f n) n) -> hoare P (look f) Q.
Proof. intros A P f Q H n Hn. apply H. exact Hn. Qed.
Lemma hoare_need : forall A (P : node -> Prop) e (o : option A) (Q : A -> node -> Prop),
  (forall n, P n -> sound W n) -> (forall a n, o = Some a -> P n -> Q a n) -> hoare P (need e o) Q.
Proof.
  intros A P e [a|] Q H1 H2 n Hn; cbn.
  - apply H2; auto.
  - apply H1. exact Hn.
Qed.
(** A command ends in a sound tree in any case. *)
Lemma hoare_run : forall A (m : M A), hoare (sound W) m (fun _ => sound W) ->
  forall n, sound W n -> sound W (fst (m n)).
Proof. intros A m H n Hn. specialize (H n Hn). destruct (m n) as [n1 [a|e]]; exact H. Qed.

(** ** The selected workspace *)

Lemma sound_ws : forall n, sound W n -> cinv W n.
Proof. intros n H. apply H. Qed.
Lemma sound_cfg : forall n w, sound W n -> ordinary w = true -> cinv (cfgs w) n.
Proof. intros n w H. apply H. Qed.

(** Workspaces other than the named ones are the same. *)
Lemma sound_frame : forall n n' x, sound W n -> cinv W n' -> others W x n n' ->
  (ordinary x = true -> cinv (cfgs x) n') -> sound W n'.
Proof.
  intros n n' x [_ S] C O X. split; [exact C|]. intros w Hw.
  destruct (string_dec w x) as [->|N]; [apply X; exact Hw|].
  apply (cinv_ext (cfgs w) (cfgs w) n n'); [|apply S; exact Hw].
  change [w; "configs"] with ([w] ++ ["configs"]) in *. unfold cfgs.
  change [w; "configs"] with ([w] ++ ["configs"]). rewrite !app_assoc, !(lookup_app (W ++ [w])), (O w N). reflexivity.
Qed.

Lemma current_eq : forall n, get_current W n =
  (n, Ok (option_map readline (read_file (W ++ [".current"]) n))).
Proof. intro n. unfold get_current, readline_at, look. rewrite current_file_eq. reflexivity. Qed.

Lemma read_file_some : forall p n s, read_file p n = Some s <-> lookup p n = Some (NFile s).
Proof. intros p n s. unfold read_file. destruct (lookup p n) as [[]|]; split; intro H; inversion H; reflexivity. Qed.

Lemma given_some : forall o w, given o = Some w -> o = Some w /\ w <> "".
Proof.
  intros [s|] w H; cbn in H; [|discriminate]. destruct (s =? "")%string eqn:E; [discriminate|].
  inversion H. subst. split; [reflexivity|]. apply String.eqb_neq. exact E.
Qed.
Lemma given_none : forall o, given o = None -> o = None \/ o = Some "".
Proof.
  intros [s|] H; [|left; reflexivity]. cbn in H. destruct (s =? "")%string eqn:E; [|discriminate].
  apply String.eqb_eq in E. subst. right. reflexivity.
Qed.
Lemma arg_given : forall o w, ordinary_arg o = true -> given o = Some w -> ordinary w = true.
Proof.
  intros o w H G. apply given_some in G. destruct G as [-> N]. cbn in H.
  apply orb_true_iff in H. destruct H as [H|H]; [apply String.eqb_eq in H; contradiction|exact H].
Qed.

Lemma hoare_name : forall wa, ordinary_arg wa = true ->
  hoare (sound W) (get_ws_name W wa)
        (fun r n => sound W n /\ forall w, r = Some w -> ordinary w = true).
Proof.
  intros wa H. unfold get_ws_name. destruct (given wa) as [w|] eqn:G.
  - apply hoare_ret. intros n Hn. split; [exact Hn|]. intros w' E. inversion E. subst.
    apply (arg_given wa); assumption.
  - intros n Hn. unfold bindM. rewrite current_eq. cbv beta iota. unfold ret.
    split; [exact Hn|]. intros w E. apply given_some in E. destruct E as [E N].
    destruct (read_file (W ++ [".current"]) n) as [t|] eqn:R; [|discriminate].
    cbn [option_map] in E. inversion E. subst w.
    apply read_file_some in R. destruct (sound_ws n Hn) as [T C].
    destruct (C t R) as [X|X]; [contradiction|]. apply (dir_ordinary W _ n T X).
Qed.

(** *** Selecting *)

Lemma set_current_ok : forall s n, tidy W n -> is_dir W n = true ->
  s = "" \/ (ordinary s = true /\ is_dir (W ++ [s]) n = true) ->
  exists n', set_current W s n = (n', Ok tt) /\ cinv W n' /\ others W ".current" n n'.
Proof.
  intros s n T D Hs. destruct (mark W s n T D Hs) as [n' [H1 [H2 [H3 H4]]]].
  exists n'. split; [|split; [split; assumption|exact H4]].
  unfold set_current, assert_ws, thenM, bindM, look.
  assert (E : exists_at (ws_path W s) n = true).
  { destruct Hs as [->|[O Ds]].
    - unfold ws_path. rewrite join_empty. apply is_dir_exists. exact D.
    - rewrite (ws_path_o s O). apply is_dir_exists. exact Ds. }
  rewrite E. unfold ret, writeline, fs. rewrite current_file_eq, H1. reflexivity.
Qed.

Lemma set_current_sound : forall s n, sound W n -> is_dir W n = true ->
  s = "" \/ (ordinary s = true /\ is_dir (W ++ [s]) n = true) ->
  exists n', set_current W s n = (n', Ok tt) /\ sound W n'.
Proof.
  intros s n S D Hs. destruct (set_current_ok s n (proj1 (sound_ws n S)) D Hs) as [n' [H [C O]]].
  exists n'. split; [exact H|]. apply (sound_frame n n' ".current" S C O). discriminate.
Qed.

Lemma hoare_set_current : forall s, s = "" \/ ordinary s = true ->
  hoare (sound W) (set_current W s) (fun _ => sound W).
Proof.
  intros s Hs n Hn.
  destruct (exists_at (ws_path W s) n) eqn:E.
  - assert (K : is_dir W n = true /\ (s = "" \/ (ordinary s = true /\ is_dir (W ++ [s]) n = true))).
    { destruct Hs as [->|O].
      - unfold ws_path in E. rewrite join_empty in E. split; [|left; reflexivity].
        pose proof (proj1 (proj1 (sound_ws n Hn))) as F.
        unfold exists_at, is_file, is_dir in *. destruct (lookup W n) as [[]|]; congruence.
      - rewrite (ws_path_o s O) in E. split; [apply (base_dir W s n E)|]. right. split; [exact O|].
        apply (tidy_dir W s n (proj1 (sound_ws n Hn)) (ordinary_ne s O) E). }
    destruct K as [D K]. destruct (set_current_sound s n Hn D K) as [n' [-> S]]. exact S.
  - unfold set_current, assert_ws, thenM, bindM, look. rewrite E. exact Hn.
Qed.

Lemma set_current_ws_eq : forall o, set_current_ws W o = set_current W (match given o with Some x => x | None => "" end).
Proof. intro o. unfold set_current_ws. destruct (given o); reflexivity. Qed.

(** *** Adding *)

Lemma create_ws_post : forall w, ordinary w = true ->
  hoare (sound W) (create_ws W w) (fun _ n => sound W n /\ is_dir (W ++ [w]) n = true).
Proof.
  intros w O n Hn. unfold create_ws, bindM, look. pose proof (ordinary_nonempty w O) as N.
  apply String.eqb_neq in N. rewrite N, (ws_path_o w O).
  destruct (nonempty_dir (W ++ [w]) n) eqn:E; [exact Hn|].
  unfold ensure_dir, bindM, look. destruct (exists_at (W ++ [w]) n) eqn:X.
  - split; [exact Hn|]. apply (tidy_dir W w n (proj1 (sound_ws n Hn)) (ordinary_ne w O) X).
  - unfold fs. destruct (makedirs (W ++ [w]) n) as [n'|] eqn:Mk; [|exact Hn].
    unfold makedirs in Mk. pose proof (write_at _ _ _ _ _ Mk) as L.
    assert (F : others W w n n').
    { intros y Y. apply (write_other _ _ _ _ _ _ Mk). apply child_apart. congruence. }
    split; [|unfold is_dir; rewrite L; reflexivity].
    apply (sound_frame n n' w Hn); [apply (new_entry W w [] n n' (sound_ws n Hn) O F L)|exact F|].
    intros _. apply cinv_none. unfold cfgs. change [w; "configs"] with ([w] ++ ["configs"]).
    rewrite app_assoc, lookup_app, L. reflexivity.
Qed.

Lemma hoare_create : forall w b, ordinary w = true ->
  hoare (sound W) (create_workspace W w b) (fun r n => sound W n /\ r = w).
Proof.
  intros w b O. unfold create_workspace. eapply hoare_bind.
  { apply hoare_look with (Q := fun _ => sound W). intros n Hn. exact Hn. }
  intros ex. destruct (b && ex); [apply hoare_ret; auto|].
  eapply hoare_then; [apply create_ws_post; exact O|].
  eapply hoare_then with (R := sound W); [|apply hoare_ret; auto].
  rewrite set_current_ws_eq, (ordinary_given w O).
  eapply hoare_pre; [|apply hoare_set_current; right; exact O]. intros n H. apply H.
Qed.
Lemma hoare_default : hoare (sound W) (create_default_workspace W) (fun r n => sound W n /\ r = "default").
Proof. apply hoare_create. reflexivity. Qed.

Lemma step_add : forall w, ordinary_arg (Some w) = true -> hoare (sound W) (ws_add W w) (fun _ => sound W).
Proof.
  intros w H. unfold ws_add. apply hoare_catch. cbn in H. apply orb_true_iff in H. destruct H as [H|H].
  - apply String.eqb_eq in H. subst w. unfold create_workspace. intros n Hn.
    unfold thenM, bindM, ws_exists, look, ret. cbn [andb]. cbn. exact Hn.
  - eapply hoare_then with (R := sound W); [|apply hoare_ret; auto].
    eapply hoare_post; [|apply hoare_create; exact H]. intros a n [K _]. exact K.
Qed.

(** *** After an entry is gone *)

Definition semi (x : string) (n : node) : Prop :=
  but W x n /\ forall w, ordinary w = true -> cinv (cfgs w) n.

Lemma semi_done : forall x n, semi x n ->
  (forall t, lookup (W ++ [".current"]) n = Some (NFile t) -> readline t <> x) -> sound W n.
Proof. intros x n [B S] H. split; [apply (but_done W x n B H)|exact S]. Qed.

Lemma semi_select : forall x s n, semi x n ->
  s = "" \/ (ordinary s = true /\ is_dir (W ++ [s]) n = true) ->
  exists n', set_current W s n = (n', Ok tt) /\ sound W n'.
Proof.
  intros x s n [[T [D _]] S] Hs. destruct (set_current_ok s n T D Hs) as [n' [H [C O]]].
  exists n'. split; [exact H|]. split; [exact C|]. intros w Hw.
  apply (cinv_ext (cfgs w) (cfgs w) n n'); [|apply S; exact Hw].
  unfold cfgs. change [w; "configs"] with ([w] ++ ["configs"]).
  rewrite !app_assoc, !(lookup_app (W ++ [w])), (O w (ordinary_ne w Hw)). reflexivity.
Qed.

Lemma names_eq : forall n, is_dir W n = true ->
  exists l, get_ws_names W n = (n, Ok l) /\ forall x, In x l <-> is_dir (W ++ [x]) n = true.
Proof.
  intros n D. destruct (subdirs_in W n D) as [l [H1 H2]]. exists l. split; [|exact H2].
  unfold get_ws_names, bindM, look. rewrite (is_dir_exists _ _ D). exact H1.
Qed.

Lemma fallback_sel : forall n l, tidy W n -> (forall x, In x l <-> is_dir (W ++ [x]) n = true) ->
  let s := match given (fallback l) with Some x => x | None => "" end in
  s = "" \/ (ordinary s = true /\ is_dir (W ++ [s]) n = true).
Proof.
  intros n l T H. cbv zeta. destruct (given (fallback l)) as [x|] eqn:G; [|left; reflexivity]. right.
  apply given_some in G. destruct G as [G _]. apply fallback_in in G. apply H in G.
  split; [apply (dir_ordinary W x n T G)|exact G].
Qed.

Lemma delete_ws_post : forall w n, sound W n -> ordinary w = true ->
  (exists e, delete_ws W w n = (n, Err e)) \/
  exists n', delete_ws W w n = (n', Ok tt) /\ semi w n'.
Proof.
  intros w n S O. rewrite (delete_ws_eq W w n (ordinary_plain w O)). unfold ws_dir.
  destruct (exists_at (W ++ [w]) n) eqn:E; [|left; eexists; reflexivity]. right.
  destruct (rmtree_but W w n (sound_ws n S) O E) as [n' [H1 [H2 [H3 H4]]]].
  exists n'. unfold fs. rewrite H1. split; [reflexivity|]. split; [exact H2|]. intros x Hx.
  unfold cfgs. change [x; "configs"] with ([x] ++ ["configs"]).
  destruct (string_dec x w) as [->|N].
  - apply cinv_none. rewrite app_assoc, lookup_app, H3. reflexivity.
  - apply (cinv_ext (cfgs x) _ n n'); [|apply S; exact Hx]. unfold cfgs.
    change [x; "configs"] with ([x] ++ ["configs"]).
    rewrite !app_assoc, !(lookup_app (W ++ [x])), (H4 x N). reflexivity.
Qed.

Lemma step_remove : forall wa yes, ordinary_arg wa = true ->
  hoare (sound W) (ws_remove W wa yes) (fun _ => sound W).
Proof.
  intros wa yes H. unfold ws_remove. eapply hoare_bind; [apply hoare_name; exact H|].
  intros [w|]; [|apply hoare_fail; intros n K; apply K].
  destruct yes; [|apply hoare_ret; intros n K; apply K].
  apply hoare_catch. intros n [S O]. specialize (O w eq_refl).
  unfold thenM. unfold bindM at 1.
  destruct (delete_ws_post w n S O) as [[e ->]|[n' [-> P]]]; [exact S|].
  unfold bindM at 1. rewrite current_eq.
  destruct (read_file (W ++ [".current"]) n') as [t|] eqn:R; cbn [option_map].
  - apply read_file_some in R. destruct (w =? readline t)%string eqn:E.
    + unfold bindM at 1. destruct (names_eq n' (proj1 (proj2 (proj1 P)))) as [l [-> L]].
      rewrite set_current_ws_eq.
      destruct (semi_select w _ n' P (fallback_sel n' l (proj1 (proj1 P)) L)) as [n2 [-> S2]]. exact S2.
    + apply String.eqb_neq in E. unfold ret. apply (semi_done w n' P). intros t' L'. congruence.
  - unfold ret. apply (semi_done w n' P). intros t L. apply read_file_some in L. congruence.
Qed.

Lemma step_api_delete : forall w, ordinary w = true ->
  hoare (sound W) (api_delete W w) (fun _ => sound W).
Proof.
  intros w O n S. unfold api_delete, thenM. unfold bindM at 1.
  destruct (delete_ws_post w n S O) as [[e ->]|[n' [-> P]]]; [exact S|].
  unfold bindM at 1. destruct (names_eq n' (proj1 (proj2 (proj1 P)))) as [l [-> L]].
  assert (K : fallback l = given (fallback l)).
  { destruct (fallback l) as [x|] eqn:F; [|reflexivity]. symmetry. apply ordinary_given.
    apply (dir_ordinary W x n' (proj1 (proj1 P))). apply L. apply fallback_in. exact F. }
  rewrite K. destruct (semi_select w _ n' P (fallback_sel n' l (proj1 (proj1 P)) L)) as [n2 [-> S2]]. exact S2.
Qed.

(** *** Unique names *)

Lemma unique_ordinary : forall names s r, ~ In "" names \/ ordinary s = true -> s = "" \/ ordinary s = true ->
  unique_name names s = Some r -> (r = "" /\ s = "") \/ ordinary r = true.
Proof.
  intros names s r N Hs H. apply unique_name_spec in H. destruct H as [H1 [H2 H3]].
  destruct (in_dec string_dec s names) as [I|I].
  - destruct (H3 I) as [k [_ [-> _]]]. right. apply ordinary_numbered. tauto.
  - rewrite (H2 I). destruct Hs as [->|Hs]; auto.
Qed.

Lemma hoare_unique_ws : forall s w, s = "" \/ ordinary s = true -> ordinary w = true ->
  hoare (sound W) (unique_ws W s)
    (fun nn n => sound W n /\ (nn = "" \/ ordinary nn = true) /\ exists_at (W ++ [nn]) n = false).
Proof.
  intros s w Hs Ow n S. unfold unique_ws. unfold bindM.
  assert (K : exists l, get_ws_names W n = (n, Ok l) /\ forall x, exists_at (W ++ [x]) n = true -> x <> ".current" -> In x l).
  { pose proof (proj1 (sound_ws n S)) as T. destruct (is_dir W n) eqn:D.
    - destruct (names_eq n D) as [l [H1 H2]]. exists l. split; [exact H1|]. intros x X N. apply H2.
      apply (tidy_dir W x n T N X).
    - exists []. split.
      + unfold get_ws_names, bindM, look. destruct T as [F _].
        unfold exists_at, is_dir, is_file in *. destruct (lookup W n) as [[]|]; try discriminate. reflexivity.
      + intros x X. exfalso. pose proof (base_dir W x n X). congruence. }
  destruct K as [l [-> L]]. destruct (unique_name_total l s) as [r R]. rewrite R. cbn [need]. unfold ret.
  split; [exact S|].
  assert (U : r = "" \/ ordinary r = true).
  { apply unique_name_spec in R. destruct R as [_ [R2 R3]].
    destruct (in_dec string_dec s l) as [I|I].
    - destruct (R3 I) as [k [_ [-> _]]]. right. apply ordinary_numbered. tauto.
    - rewrite (R2 I). exact Hs. }
  split; [exact U|]. destruct (exists_at (W ++ [r]) n) eqn:E; [|reflexivity]. exfalso.
  apply unique_name_spec in R. apply (proj1 R). apply (L r E).
  destruct U as [->|U]; [discriminate|apply ordinary_ne; exact U].
Qed.

Lemma copy_ws_post : forall w nn, ordinary w = true -> ordinary nn = true ->
  hoare (sound W) (copy_ws W w nn) (fun _ => sound W).
Proof.
  intros w nn O1 O2 n S. rewrite (copy_ws_eq W w nn n (ordinary_plain _ O1) (ordinary_plain _ O2)). unfold ws_dir.
  destruct (exists_at (W ++ [w]) n) eqn:E; [|exact S]. unfold fs.
  destruct (exists_at (W ++ [nn]) n) eqn:N; [rewrite (copytree_exists _ _ _ N); exact S|].
  destruct (dir_of W w n (proj1 (sound_ws n S)) O1 E) as [d L].
  destruct (copytree_sibling W w nn n d L N) as [n' [-> [H1 [H2 H3]]]]; [intros ->; congruence|].
  pose proof (only_others W nn n n' H3) as F.
  apply (sound_frame n n' nn S); [apply (new_entry W nn d n n' (sound_ws n S) O2 F H1)|exact F|].
  intros _. apply (cinv_ext (cfgs w) (cfgs nn) n n'); [|apply S; exact O1]. unfold cfgs.
  change [w; "configs"] with ([w] ++ ["configs"]). change [nn; "configs"] with ([nn] ++ ["configs"]).
  rewrite !app_assoc, (lookup_app (W ++ [w])), (lookup_app (W ++ [nn])), H1, L. reflexivity.
Qed.

Lemma step_copy : forall wa nn, ordinary_arg wa = true -> ordinary_arg nn = true ->
  hoare (sound W) (ws_copy W wa nn) (fun _ => sound W).
Proof.
  intros wa nn H1 H2. unfold ws_copy. eapply hoare_bind; [apply hoare_name; exact H1|].
  intros [w|]; [|apply hoare_fail; intros n K; apply K].
  intros n [S O]. specialize (O w eq_refl). revert n S. apply (hoare_bind _ _ (sound W) _ _
    (fun r n => sound W n /\ (r = "" \/ ordinary r = true) /\ exists_at (W ++ [r]) n = false)).
  - apply (hoare_unique_ws _ w); [|exact O]. destruct (given nn) as [x|] eqn:G.
    + right. apply (arg_given nn); assumption.
    + right. change "_1" with ("_" ++ "1")%string. apply ordinary_suffix; [left; exact O|reflexivity|reflexivity|reflexivity].
  - intros r n [S [[->|Or] N]].
    + (* the empty name is the directory of workspaces: it exists *)
      refine (hoare_catch _ (sound W) _ _ (fun _ => sound W) _ n S). clear n S N. intros n S.
      unfold copy_ws, assert_ws, thenM, bindM, look. rewrite (ws_path_o w O).
      destruct (exists_at (W ++ [w]) n) eqn:E; [|exact S]. unfold ret.
      change (ws_path W "") with W. rewrite join_empty, (exists_parent _ _ _ E).
      unfold fs. rewrite copytree_exists; [exact S|]. apply (exists_parent _ _ _ E).
    + refine (hoare_catch _ (sound W) _ _ (fun _ => sound W) _ n S). apply copy_ws_post; assumption.
Qed.

Lemma step_rename : forall wa nn, ordinary_arg wa = true -> ordinary_arg (Some nn) = true ->
  hoare (sound W) (ws_rename W wa nn) (fun _ => sound W).
Proof.
  intros wa nn H1 H2. unfold ws_rename. eapply hoare_bind; [apply hoare_name; exact H1|].
  intros [w|]; [|apply hoare_fail; intros n K; apply K].
  intros n [S O]. specialize (O w eq_refl). revert n S. apply (hoare_bind _ _ (sound W) _ _
    (fun r n => sound W n /\ (r = "" \/ ordinary r = true) /\ exists_at (W ++ [r]) n = false)).
  { apply (hoare_unique_ws _ w); [|exact O]. cbn in H2. apply orb_true_iff in H2.
    destruct H2 as [H2|H2]; [left; apply String.eqb_eq; exact H2|right; exact H2]. }
  intros r n [S [[->|Or] N]].
  - unfold catch, thenM. unfold bindM at 1. unfold rename_ws, assert_ws, thenM, bindM, look.
    destruct (exists_at (ws_path W w) n); exact S.
  - unfold catch, thenM. unfold bindM at 1. rewrite (rename_ws_eq W w r n (ordinary_plain _ O) (ordinary_plain _ Or)).
    unfold ws_dir. destruct (exists_at (W ++ [w]) n) eqn:E; [|exact S].
    destruct (dir_of W w n (proj1 (sound_ws n S)) O E) as [d L].
    assert (Nw : w <> r) by congruence.
    destruct (move_new W w r n _ Nw L N) as [n' [Mv [L1 [L2 F]]]]. unfold fs. rewrite Mv.
    destruct (rename_but W w r n n' (sound_ws n S) O Or E N ltac:(congruence) L2 F) as [Bt Dr].
    assert (P : semi w n').
    { split; [exact Bt|]. intros x Hx. unfold cfgs. change [x; "configs"] with ([x] ++ ["configs"]).
      destruct (string_dec x w) as [->|N1]; [apply cinv_none; rewrite app_assoc, lookup_app, L2; reflexivity|].
      destruct (string_dec x r) as [->|N2].
      - apply (cinv_ext (cfgs w) _ n n'); [|apply S; exact O]. unfold cfgs.
        change [w; "configs"] with ([w] ++ ["configs"]).
        rewrite !app_assoc, (lookup_app (W ++ [w])), (lookup_app (W ++ [r])), L1, L. reflexivity.
      - apply (cinv_ext (cfgs x) _ n n'); [|apply S; exact Hx]. unfold cfgs.
        change [x; "configs"] with ([x] ++ ["configs"]).
        assert (G : lookup (W ++ [x]) n' = lookup (W ++ [x]) n).
        { apply F. intros Q [<-|[<-|[]]]; apply child_apart; congruence. }
        rewrite !app_assoc, !(lookup_app (W ++ [x])), G. reflexivity. }
    unfold bindM at 1. rewrite current_eq.
    destruct (read_file (W ++ [".current"]) n') as [t|] eqn:R; cbn [option_map].
    + apply read_file_some in R. destruct (w =? readline t)%string eqn:E2.
      * rewrite set_current_ws_eq, (ordinary_given r Or).
        destruct (semi_select w r n' P (or_intror (conj Or Dr))) as [n2 [-> S2]]. exact S2.
      * apply String.eqb_neq in E2. unfold ret. apply (semi_done w n' P). intros t' L'. congruence.
    + unfold ret. apply (semi_done w n' P). intros t Lt. apply read_file_some in Lt. congruence.
Qed.

Lemma step_current : forall wa, ordinary_arg wa = true -> hoare (sound W) (ws_current W wa) (fun _ => sound W).
Proof.
  intros wa H. unfold ws_current. apply hoare_catch. destruct (given wa) as [w|] eqn:G.
  - pose proof (arg_given wa w H G) as O. rewrite set_current_ws_eq, (ordinary_given w O).
    apply hoare_set_current. right. exact O.
  - intros n S. unfold thenM, bindM. rewrite current_eq. exact S.
Qed.

End Sess.
