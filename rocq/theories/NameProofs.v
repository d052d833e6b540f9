From Coq Require Import Ascii String List Bool Arith Lia.
From Verif Require Import Common Dict FsModel FsProofs NameModel NameSpec.
Import ListNotations.
Open Scope string_scope.
Open Scope list_scope.

Lemma append_assoc_s : forall a b c : string, ((a ++ b) ++ c = a ++ (b ++ c))%string.
Proof. induction a as [|x a IH]; cbn; intros; [reflexivity|]. rewrite IH. reflexivity. Qed.
Lemma append_nil_s : forall a : string, (a ++ "" = a)%string.
Proof. induction a as [|x a IH]; cbn; [reflexivity|]. rewrite IH. reflexivity. Qed.
Lemma length_append_s : forall a b : string, String.length (a ++ b)%string = String.length a + String.length b.
Proof. induction a as [|x a IH]; cbn; intros; [reflexivity|]. rewrite IH. reflexivity. Qed.

Lemma substring_skip : forall a b k, substring (String.length a) k (a ++ b)%string = substring 0 k b.
Proof. induction a as [|x a IH]; cbn; intros; [reflexivity|]. apply IH. Qed.
Lemma substring_first : forall a b, substring 0 (String.length a) (a ++ b)%string = a.
Proof. induction a as [|x a IH]; cbn; intros; [destruct b; reflexivity|]. rewrite IH. reflexivity. Qed.
Lemma drop_append : forall a b, drop (String.length a) (a ++ b)%string = b.
Proof.
  intros a b. unfold drop. rewrite substring_skip, length_append_s.
  replace (String.length a + String.length b - String.length a) with (String.length b) by lia.
  rewrite <- (append_nil_s b) at 2. apply substring_first.
Qed.
(** Every string can be cut at every position. *)
Lemma cut : forall s n, n <= String.length s -> exists a b, s = (a ++ b)%string /\ String.length a = n.
Proof.
  induction s as [|c s IH]; intros n H.
  - exists "", "". cbn in *. split; [reflexivity|lia].
  - destruct n as [|n]; [exists "", (String c s); split; reflexivity|].
    destruct (IH n) as [a [b [E L]]]; [cbn in H; lia|].
    exists (String c a), b. cbn. rewrite <- E, L. split; reflexivity.
Qed.

(** * Last component *)

Lemma split_nonnil : forall s, split_slash s <> [].
Proof. destruct s as [|c s]; cbn; [discriminate|]. destruct (Ascii.eqb c slash); [discriminate|]. destruct (split_slash s); discriminate. Qed.

Lemma split_app_slash : forall d s, split_slash (d ++ String slash s)%string = split_slash d ++ split_slash s.
Proof.
  induction d as [|c d IH]; intro s; [reflexivity|].
  cbn [append split_slash]. rewrite IH. destruct (Ascii.eqb c slash); [reflexivity|].
  destruct (split_slash d) eqn:E; [exfalso; apply (split_nonnil d E)|reflexivity].
Qed.

Lemma basename_plain : forall s, has_char slash s = false -> basename s = s.
Proof. intros s H. unfold basename. rewrite (split_plain s H). reflexivity. Qed.

Lemma last_app_r : forall {A} (l m : list A) d, m <> [] -> last (l ++ m) d = last m d.
Proof.
  intros A l m d H. induction l as [|x l IH]; [reflexivity|].
  cbn [app last]. destruct (l ++ m) eqn:E; [|exact IH].
  destruct m; [congruence|destruct l; discriminate].
Qed.

Lemma basename_in : forall d s, has_char slash s = false -> basename (d ++ String slash s)%string = s.
Proof.
  intros d s H. unfold basename. rewrite split_app_slash, last_app_r by apply split_nonnil.
  apply (basename_plain s H).
Qed.

Lemma split_noslash : forall s x, In x (split_slash s) -> has_char slash x = false.
Proof.
  induction s as [|c s IH]; intros x H.
  - destruct H as [<-|[]]. reflexivity.
  - cbn [split_slash] in H. destruct (Ascii.eqb c slash) eqn:E.
    + destruct H as [<-|H]; [reflexivity|apply IH; exact H].
    + destruct (split_slash s) as [|h t]; [destruct H as [<-|[]]; cbn [has_char]; rewrite Ascii.eqb_sym, E; reflexivity|].
      destruct H as [<-|H].
      * cbn [has_char]. rewrite Ascii.eqb_sym, E. apply IH. left. reflexivity.
      * apply IH. right. exact H.
Qed.

Lemma basename_noslash : forall s, has_char slash (basename s) = false.
Proof.
  intro s. unfold basename. apply (split_noslash s).
  destruct (split_slash s) eqn:E; [exfalso; apply (split_nonnil s E)|].
  rewrite <- E. rewrite (app_removelast_last "" (split_nonnil s)) at 2.
  apply in_or_app. right. left. reflexivity.
Qed.

(** * Extension *)

Lemma last_dot_none : forall s, has_char "."%char s = false -> last_dot s = None.
Proof.
  induction s as [|c s IH]; intro H; [reflexivity|]. cbn [has_char] in H.
  apply orb_false_iff in H. destruct H as [H1 H2]. cbn [last_dot]. rewrite (IH H2).
  rewrite Ascii.eqb_sym, H1. reflexivity.
Qed.

Lemma last_dot_ext : forall a e, has_char "."%char e = false ->
  last_dot (a ++ String "." e)%string = Some (a, String "." e).
Proof.
  induction a as [|c a IH]; intros e H.
  - cbn [append last_dot]. rewrite (last_dot_none e H). reflexivity.
  - cbn [append last_dot]. rewrite (IH e H). reflexivity.
Qed.

Lemma last_dot_parts : forall s a b, last_dot s = Some (a, b) -> s = (a ++ b)%string.
Proof.
  induction s as [|c s IH]; intros a b H; [discriminate|]. cbn [last_dot] in H.
  destruct (last_dot s) as [[a' b']|].
  - inversion H. subst. cbn. f_equal. apply IH. reflexivity.
  - destruct (Ascii.eqb c "."); [|discriminate]. inversion H. reflexivity.
Qed.

Lemma all_dots_not : forall a c b, c <> "."%char -> all_dots (a ++ String c b)%string = false.
Proof.
  induction a as [|x a IH]; intros c b H; cbn.
  - apply Ascii.eqb_neq in H. rewrite H. reflexivity.
  - rewrite (IH c b H). apply andb_false_r.
Qed.

Lemma stem_noslash : forall s, has_char slash s = false -> has_char slash (stem s) = false.
Proof.
  intros s H. unfold stem. destruct (last_dot s) as [[a b]|] eqn:E; [|exact H].
  destruct (all_dots a); [exact H|]. apply last_dot_parts in E. subst s.
  rewrite has_char_append in H. apply orb_false_iff in H. tauto.
Qed.

Lemma named_stem : forall file dir base ext, named file dir base ext -> stem (basename file) = base.
Proof.
  intros file dir base ext [-> [Hd [Hb [He [[a [c [b [Eb Hc]]]] Hx]]]]].
  assert (B : basename (dir ++ base ++ ext)%string = (base ++ ext)%string).
  { destruct Hd as [->|[d ->]].
    - apply basename_plain. rewrite has_char_append, Hb, He. reflexivity.
    - rewrite append_assoc_s. cbn [append]. apply basename_in.
      rewrite has_char_append, Hb, He. reflexivity. }
  rewrite B. unfold stem. destruct Hx as [[-> Hn]|[e [-> Hn]]].
  - rewrite append_nil_s, (last_dot_none base Hn). reflexivity.
  - cbn [append]. rewrite (last_dot_ext base e Hn). rewrite Eb, (all_dots_not a c b Hc). reflexivity.
Qed.

(** * Product names *)

Lemma prefix_true : forall t s, String.prefix t s = true <-> exists r, s = (t ++ r)%string.
Proof.
  induction t as [|c t IH]; intro s.
  - split; [intros _; exists s; reflexivity|intros _; destruct s; reflexivity].
  - destruct s as [|c' s]; cbn [String.prefix].
    + split; [discriminate|]. intros [r H]. discriminate.
    + destruct (ascii_dec c c') as [->|N].
      * rewrite IH. split; intros [r H].
        -- exists r. rewrite H. reflexivity.
        -- exists r. cbn in H. inversion H. reflexivity.
      * split; [discriminate|]. intros [r H]. cbn in H. inversion H. congruence.
Qed.

Lemma l1a_base_yes : forall file r, stem (basename file) = ("L1A" ++ r)%string -> l1a_base file = r.
Proof.
  intros file r H. unfold l1a_base. rewrite H.
  replace (String.prefix "L1A" ("L1A" ++ r)) with true by (symmetry; apply prefix_true; exists r; reflexivity).
  apply (drop_append "L1A" r).
Qed.
Lemma l1a_base_no : forall file, ~ starts "L1A" (stem (basename file)) -> l1a_base file = stem (basename file).
Proof.
  intros file H. unfold l1a_base. destruct (String.prefix "L1A" (stem (basename file))) eqn:E; [|reflexivity].
  apply prefix_true in E. contradiction.
Qed.

Lemma l1a_base_inj : forall f g,
  (starts "L1A" (stem (basename f)) <-> starts "L1A" (stem (basename g))) ->
  l1a_base f = l1a_base g -> stem (basename f) = stem (basename g).
Proof.
  intros f g H E. destruct (String.prefix "L1A" (stem (basename f))) eqn:P.
  - apply prefix_true in P. destruct (proj1 H P) as [r' R']. destruct P as [r R].
    rewrite (l1a_base_yes f r R), (l1a_base_yes g r' R') in E. rewrite R, R', E. reflexivity.
  - assert (N : ~ starts "L1A" (stem (basename f))).
    { intro S. apply prefix_true in S. congruence. }
    rewrite (l1a_base_no f N) in E. rewrite (l1a_base_no g) in E; [exact E|tauto].
Qed.

Lemma part_inj : forall a b s, (part a ++ s = part b ++ s)%string -> a = b.
Proof.
  intros a b s H. apply append_inj_r in H. unfold part in H.
  destruct (a =? "")%string eqn:A; destruct (b =? "")%string eqn:B; cbn in H; try discriminate.
  - apply String.eqb_eq in A. apply String.eqb_eq in B. congruence.
  - inversion H. reflexivity.
Qed.

Lemma part_nonempty : forall s, s <> "" -> part s = ("_" ++ s)%string.
Proof. intros s H. unfold part. apply String.eqb_neq in H. rewrite H. reflexivity. Qed.

Lemma part_noslash : forall s, has_char slash s = false -> has_char slash (part s) = false.
Proof. intros s H. unfold part. destruct (s =? "")%string; [reflexivity|exact H]. Qed.

Lemma l1a_base_noslash : forall f, has_char slash (l1a_base f) = false.
Proof.
  intro f. pose proof (stem_noslash _ (basename_noslash f)) as H. unfold l1a_base.
  destruct (String.prefix "L1A" (stem (basename f))) eqn:E; [|exact H].
  apply prefix_true in E. destruct E as [r E]. rewrite E in *. change 3 with (String.length "L1A"). rewrite drop_append.
  rewrite has_char_append in H. apply orb_false_iff in H. tauto.
Qed.
