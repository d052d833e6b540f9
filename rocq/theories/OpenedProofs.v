(** Lemmas for C130. *)
From Coq Require Import Ascii String List Bool Arith Lia.
From Verif Require Import Common Dict FsModel FsProofs WsModel WsSpec WsProofs IoSpec IoProofs CliModel OpenedSpec.
Import ListNotations.
Open Scope string_scope.
Open Scope list_scope.

Lemma mkdir_files : forall mk p n n', write mk p (Some (NDir [])) n = Some n' -> exists_at p n = false -> mk = false ->
  forall q s, file_at n' q s <-> file_at n q s.
Proof.
  intros mk p n n' H X MK q s. unfold file_at. destruct (path_cases p q) as [A|[(r & ->)|(r & Hr & ->)]].
  - now rewrite (write_other _ _ _ _ _ _ H A).
  - rewrite (write_below _ _ _ _ _ _ H). rewrite lookup_app. unfold exists_at in X. destruct (lookup p n); [discriminate|].
    destruct r; cbn; split; discriminate.
  - destruct (write_above _ _ _ _ _ q r H eq_refl Hr) as (D1 & D2). unfold is_dir in D1, D2. destruct D2 as [D2|(D2 & _)]; [|congruence].
    destruct (lookup q n) as [[]|]; try discriminate. destruct (lookup q n') as [[]|]; try discriminate. split; discriminate.
Qed.
Lemma prefix_app : forall a b, prefix a (a ++ b)%string = true.
Proof. induction a as [|c a IH]; intros b; cbn; [destruct b; reflexivity|]. destruct (ascii_dec c c); [apply IH|congruence]. Qed.
Lemma append_a : forall a b c : string, ((a ++ b) ++ c)%string = (a ++ (b ++ c))%string.
Proof. induction a; intros; cbn; [reflexivity|]. f_equal. auto. Qed.

Section L.
Variable W : path.
Lemma note_made : forall fuel w base text n d, plain w = true -> has_char slash base = false ->
  lookup (notebooks_path W w) n = Some (NDir d) -> length d < fuel ->
  exists f n', write_notebook W fuel w base text n = (n', Ok f) /\ notebook_made W w base text n n'.
Proof.
  intros fuel w base text n d Pw Hb L F.
  assert (E : notebooks_path W w = W ++ [w; "notebooks"]).
  { rewrite notebooks_path_eq, (ws_path_plain W w Pw). unfold ws_dir. rewrite <- app_assoc. reflexivity. }
  destruct (free_index_total _ base n d fuel Hb L F) as [k FI].
  destruct (free_index_some _ _ _ _ _ _ FI) as [H1 [H2 H3]].
  unfold write_notebook, bindM, look, need, thenM, bindM, fs. rewrite FI. unfold ret.
  rewrite (join_plain _ _ (notebook_plain base k Hb)) in H2 |- *. rewrite E in H2, L |- *. rewrite <- app_assoc in H2 |- *. cbn [app] in H2 |- *.
  set (q := W ++ [w; "notebooks"; notebook_name base k]) in *.
  destruct (write_ok false (W ++ [w; "notebooks"]) (notebook_name base k) (Some (NFile text)) n) as [n' Hw].
  { unfold is_dir. rewrite L. reflexivity. }
  rewrite <- app_assoc in Hw. cbn [app] in Hw. fold q in Hw.
  assert (WF : write_file q text n = Some n').
  { unfold write_file. assert (D : is_dir q n = false) by (destruct (is_dir q n) eqn:D; [apply is_dir_exists in D; congruence|reflexivity]). rewrite D. exact Hw. }
  rewrite WF. eexists. exists n'. split; [reflexivity|]. exists (notebook_name base k). cbv zeta. fold q.
  split; [unfold notebook_name; rewrite <- append_a; apply prefix_app|]. split; [exact H2|]. split; [apply (write_at _ _ _ _ _ Hw)|].
  intros r s. pose proof (write_file_files _ _ _ _ WF r s) as FC. unfold file_at in FC. rewrite FC. cbn [In]. split.
  - intros [([<-|[]] & ->)|(_ & K)]; auto.
  - intros [(-> & ->)|K]; [left; auto|]. right. split; [|exact K]. intros [<-|[]]. unfold exists_at in H2. rewrite K in H2. discriminate.
Qed.
Lemma launch_made : forall w base text n, plain w = true -> has_char slash base = false ->
  is_dir (W ++ [w]) n = true -> is_file (W ++ [w; "notebooks"]) n = false ->
  exists n', launch W w base text n = (n', Ok tt) /\ notebook_made W w base text n n'.
Proof.
  intros w base text n Pw Hb D F.
  assert (E : notebooks_path W w = W ++ [w; "notebooks"]).
  { rewrite notebooks_path_eq, (ws_path_plain W w Pw). unfold ws_dir. rewrite <- app_assoc. reflexivity. }
  unfold launch, bindM, look, thenM, bindM. unfold is_file in F. rewrite <- E in F.
  destruct (lookup (notebooks_path W w) n) as [[s|d]|] eqn:L; [discriminate| |].
  - assert (N : entries (notebooks_path W w) n = length d) by (unfold entries, listdir; rewrite L; unfold keys; apply map_length).
    rewrite N. destruct (note_made (S (length d)) w base text n d Pw Hb L) as (f & n' & WN & M); [lia|].
    unfold make_notebook, bindM, look. unfold exists_at. rewrite L, WN. exists n'. auto.
  - assert (X : exists_at (notebooks_path W w) n = false) by (unfold exists_at; rewrite L; reflexivity).
    destruct (write_ok false (W ++ [w]) "notebooks" (Some (NDir [])) n D) as [n1 Hm].
    rewrite <- app_assoc in Hm. cbn [app] in Hm. rewrite <- E in Hm.
    assert (L1 : lookup (notebooks_path W w) n1 = Some (NDir [])) by apply (write_at _ _ _ _ _ Hm).
    destruct (note_made (S (entries (notebooks_path W w) n)) w base text n1 [] Pw Hb L1) as (f & n' & WN & M); [cbn; lia|].
    unfold make_notebook, bindM, look. rewrite X. unfold mkdir. rewrite X, Hm.
    unfold thenM, bindM, fs. rewrite X, Hm, WN. exists n'. split; [reflexivity|].
    destruct M as (name & M1 & M2 & M3 & M4). pose proof (mkdir_files _ _ _ _ Hm X eq_refl) as MF. exists name. cbv zeta in *.
    split; [exact M1|]. split.
    + replace (W ++ [w; "notebooks"; name]) with (notebooks_path W w ++ [name]) by (rewrite E, <- app_assoc; reflexivity). apply not_exists_below. exact X.
    + split; [exact M3|]. intros q s. rewrite (M4 q s). pose proof (MF q s) as MQ. unfold file_at in MQ. tauto.
Qed.
End L.

Lemma after_no : forall s, has_char slash s = false -> has_char slash (after_backslash s) = false.
Proof.
  induction s as [|c r IH]; intros H; cbn [after_backslash]; [reflexivity|]. cbn [has_char] in H. apply orb_false_iff in H. destruct H as (H1 & H2).
  destruct (has_char "\"%char r); [auto|]. destruct (Ascii.eqb c "\"%char); [exact H2|]. cbn [has_char]. now rewrite H1, H2.
Qed.
Lemma app_no : forall a b, has_char slash a = false -> has_char slash b = false -> has_char slash (a ++ b)%string = false.
Proof. induction a as [|c a IH]; intros b A B; cbn in *; [exact B|]. apply orb_false_iff in A. destruct A as (A1 & A2). rewrite A1. cbn. auto. Qed.
(** Components of a joined path have no slash. *)
Definition clean (p : path) : Prop := Forall (fun x => has_char slash x = false) p.
Lemma split_clean : forall s, clean (split_slash s).
Proof.
  induction s as [|c r IH]; cbn [split_slash]; [repeat constructor|]. destruct (Ascii.eqb c slash) eqn:E; [constructor; [reflexivity|exact IH]|].
  assert (E' : Ascii.eqb slash c = false) by (rewrite Ascii.eqb_sym; exact E).
  destruct (split_slash r) as [|h t]; [repeat constructor; cbn [has_char]; now rewrite E'|].
  inversion IH as [|? ? H1 H2]; subst. constructor; [cbn [has_char]; now rewrite E', H1|exact H2].
Qed.
Lemma removelast_clean : forall p, clean p -> clean (removelast p).
Proof. induction p as [|a p IH]; intros H; [exact H|]. inversion H; subst. destruct p; cbn [removelast]; constructor; auto; apply IH; assumption. Qed.
Lemma resolve_clean : forall l b, clean b -> clean l -> clean (resolve b l).
Proof.
  induction l as [|c l IH]; intros b B L; cbn [resolve]; [exact B|]. inversion L as [|? ? L1 L2]; subst.
  destruct ((c =? "")%string || (c =? ".")%string); [auto|]. destruct (c =? "..")%string; [apply IH; [apply removelast_clean; exact B|exact L2]|].
  apply IH; [|exact L2]. apply Forall_app. split; [exact B|repeat constructor; exact L1].
Qed.
Lemma join_clean : forall b s, clean b -> clean (join b s).
Proof.
  intros b [|c s] B; [exact B|]. unfold join. destruct (Ascii.eqb c slash); apply resolve_clean; try assumption; try apply split_clean. constructor.
Qed.
Lemma last_clean : forall p, clean p -> has_char slash (last p "") = false.
Proof. induction p as [|a p IH]; intros H; [reflexivity|]. inversion H; subst. destruct p; [assumption|apply IH; assumption]. Qed.
Lemma plain_no : forall s, plain s = true -> has_char slash s = false.
Proof. intros s H. unfold plain in H. rewrite !andb_true_iff in H. destruct H as (((H & _) & _) & _). now apply negb_true_iff in H. Qed.
Lemma last_app_s : forall (p : path) x, last (p ++ [x]) "" = x.
Proof. intros p x. apply last_last. Qed.
Lemma after_none : forall s, has_char "\"%char s = false -> after_backslash s = s.
Proof.
  intros [|c r] H; [reflexivity|]. cbn [has_char after_backslash] in *. apply orb_false_iff in H. destruct H as (H1 & H2). rewrite H2.
  rewrite Ascii.eqb_sym in H1. now rewrite H1.
Qed.
