(** Properties C38 and C56: names of products and titles. *)
From Coq Require Import Ascii String List Bool Arith Lia.
From Verif Require Import Common Dict FsModel FsProofs WsProofs NameModel NameSpec NameProofs.
Import ListNotations.
Open Scope string_scope.
Open Scope list_scope.

(** * C38: product names *)

(** Name of the product for every ordinary file name: the extension and a
    leading "L1A" are dropped. *)
Theorem C38_exact : forall run file dir base ext, run <> "" -> named file dir base ext ->
  (~ starts "L1A" base ->
     l1b_name run file = ("L1B_" ++ base ++ "_" ++ run ++ ".nc")%string /\
     l1bs_name run file = ("L1BS_" ++ base ++ "_" ++ run ++ ".nc")%string) /\
  (forall b, base = ("L1A" ++ b)%string -> b <> "" ->
     l1b_name run file = ("L1B_" ++ b ++ "_" ++ run ++ ".nc")%string /\
     l1bs_name run file = ("L1BS_" ++ b ++ "_" ++ run ++ ".nc")%string) /\
  (base = "L1A" ->
     l1b_name run file = ("L1B_" ++ run ++ ".nc")%string /\
     l1bs_name run file = ("L1BS_" ++ run ++ ".nc")%string).
Proof.
  intros run file dir base ext Hr H. pose proof (named_stem _ _ _ _ H) as S.
  unfold l1b_name, l1bs_name. rewrite (part_nonempty run Hr). split; [|split].
  - intro N. rewrite (l1a_base_no file) by (rewrite S; exact N). rewrite S.
    assert (B : base <> "").
    { destruct H as [_ [_ [_ [_ [[a [c [b [-> _]]]] _]]]]]. destruct a; discriminate. }
    rewrite (part_nonempty base B). rewrite !append_assoc_s. split; reflexivity.
  - intros b E B. rewrite (l1a_base_yes file b) by (rewrite S; exact E).
    rewrite (part_nonempty b B). rewrite !append_assoc_s. split; reflexivity.
  - intros E. rewrite (l1a_base_yes file "") by (rewrite S; exact E).
    rewrite !append_assoc_s. split; reflexivity.
Qed.
Print Assumptions C38_exact.

(** For every file name whatsoever. *)
Theorem C38_names : forall run file, run <> "" ->
  l1b_name run file <> l1bs_name run file /\
  starts "L1B_" (l1b_name run file) /\ starts "L1BS_" (l1bs_name run file) /\
  ends ("_" ++ run ++ ".nc") (l1b_name run file) /\ ends ("_" ++ run ++ ".nc") (l1bs_name run file).
Proof.
  intros run file Hr. unfold l1b_name, l1bs_name. rewrite (part_nonempty run Hr).
  set (b := l1a_base file). assert (P : exists r, (part b ++ ("_" ++ run) ++ ".nc" = "_" ++ r)%string).
  { unfold part. destruct (b =? "")%string; cbn; eexists; reflexivity. }
  destruct P as [r P]. rewrite !P. split; [|split; [|split; [|split]]].
  - cbn. intro E. inversion E.
  - exists r. reflexivity.
  - exists r. reflexivity.
  - rewrite <- P. exists ("L1B" ++ part b)%string. rewrite !append_assoc_s. reflexivity.
  - rewrite <- P. exists ("L1BS" ++ part b)%string. rewrite !append_assoc_s. reflexivity.
Qed.
Print Assumptions C38_names.

(** Two inputs of the same run with different names (without extension), both
    or none starting with "L1A", never share a product. *)
Theorem C38_distinct : forall run f g, run <> "" ->
  stem (basename f) <> stem (basename g) ->
  (starts "L1A" (stem (basename f)) <-> starts "L1A" (stem (basename g))) ->
  NoDup [l1b_name run f; l1bs_name run f; l1b_name run g; l1bs_name run g].
Proof.
  intros run f g Hr D S.
  assert (B : l1a_base f <> l1a_base g) by (intro E; apply D; apply (l1a_base_inj f g S E)).
  assert (X : forall f g, l1b_name run f <> l1bs_name run g).
  { intros f' g'. destruct (C38_names run f' Hr) as [_ [[r1 ->] _]].
    destruct (C38_names run g' Hr) as [_ [_ [[r2 ->] _]]]. cbn. intro E. inversion E. }
  assert (Y : l1b_name run f <> l1b_name run g).
  { intro E. unfold l1b_name in E. apply append_inj_l in E. apply B. apply (part_inj _ _ _ E). }
  assert (Z : l1bs_name run f <> l1bs_name run g).
  { intro E. unfold l1bs_name in E. apply append_inj_l in E. apply B. apply (part_inj _ _ _ E). }
  repeat constructor; cbn; intro I.
  - destruct I as [I|[I|[I|[]]]]; [symmetry in I; revert I; apply X|symmetry in I; contradiction|symmetry in I; revert I; apply X].
  - destruct I as [I|[I|[]]]; [revert I; apply X|symmetry in I; contradiction].
  - destruct I as [I|[]]. symmetry in I. revert I. apply X.
  - exact I.
Qed.
Print Assumptions C38_distinct.

(** The products are placed directly in the output directory. *)
Theorem C38_directory : forall out run file, has_char slash run = false ->
  l1b_path out run file = out ++ [l1b_name run file] /\
  l1bs_path out run file = out ++ [l1bs_name run file].
Proof.
  intros out run file H. unfold l1b_path, l1bs_path, l1b_name, l1bs_name.
  pose proof (part_noslash _ (l1a_base_noslash file)) as B. pose proof (part_noslash run H) as R.
  split; apply join_plain; rewrite <- !append_assoc_s; (apply plain_ext; [|reflexivity|cbn; lia]);
    rewrite !has_char_append, B, R; reflexivity.
Qed.
Print Assumptions C38_directory.

(** Why the conditions are needed: an "L1A" prefix, the extension, or another
    run name make different inputs share a product name. *)
Theorem C38_collision :
  l1b_name "run" "in/L1A_x.nc" = l1b_name "run" "in/_x.nc" /\
  l1b_name "run" "x.nc" = l1b_name "run" "x.nc4" /\
  l1b_name "b_c" "a.nc" = l1b_name "c" "a_b.nc".
Proof. repeat split; reflexivity. Qed.
Print Assumptions C38_collision.

Example C38_example :
  named "data/L1A_2016.x.nc" "data/" "L1A_2016.x" ".nc" /\
  l1b_name "default" "data/L1A_2016.x.nc" = "L1B__2016.x_default.nc" /\
  l1bs_name "default" "data/measurement.nc" = "L1BS_measurement_default.nc" /\
  l1b_name "default" "L1A.nc" = "L1B_default.nc" /\
  l1b_name "d" ".nc" = "L1B_.nc_d.nc".
Proof.
  split; [|repeat split; reflexivity].
  split; [reflexivity|]. split; [right; exists "data"; reflexivity|].
  split; [reflexivity|]. split; [reflexivity|]. split.
  - exists "", "L"%char, "1A_2016.x". split; [reflexivity|discriminate].
  - right. exists "nc". split; reflexivity.
Qed.

(** * C56: limited titles *)

(** Never longer than the limit; the name itself if it fits; otherwise exactly
    as long as the limit, three dots and the end (mode 'r') or the beginning
    (mode 'l') of the name. *)
Theorem C56_limit : forall right name max_len, name <> "" -> 3 < max_len ->
  exists t, limit_title right name max_len = Some t /\ String.length t <= max_len /\
    (String.length name <= max_len -> t = name) /\
    (max_len < String.length name ->
       String.length t = max_len /\
       exists a b, name = (a ++ b)%string /\
         t = (if right then "..." ++ b else a ++ "...")%string).
Proof.
  intros right name m Hn Hm. unfold limit_title.
  apply String.eqb_neq in Hn. rewrite Hn.
  replace (m <=? 3)%nat with false by (symmetry; apply Nat.leb_gt; exact Hm).
  destruct (String.length name <=? m)%nat eqn:L.
  - apply Nat.leb_le in L. exists name. repeat split; auto; lia.
  - apply Nat.leb_gt in L. destruct right.
    + destruct (cut name (String.length name - (m - 3))) as [a [b [E La]]]; [lia|].
      assert (D : drop (String.length name - (m - 3)) name = b).
      { rewrite <- La, E. apply drop_append. }
      exists ("..." ++ b)%string. rewrite D. split; [reflexivity|].
      assert (Lb : String.length ("..." ++ b) = m).
      { rewrite E, length_append_s in L, La. cbn [append String.length]. lia. }
      repeat split; [lia|lia|exact Lb|]. exists a, b. auto.
    + destruct (cut name (m - 3)) as [a [b [E La]]]; [lia|].
      assert (D : substring 0 (m - 3) name = a).
      { rewrite <- La, E. apply substring_first. }
      exists (a ++ "...")%string. rewrite D. split; [reflexivity|].
      assert (Lb : String.length (a ++ "...") = m) by (rewrite length_append_s; cbn; lia).
      repeat split; [lia|lia|exact Lb|]. exists a, b. auto.
Qed.
Print Assumptions C56_limit.

(** An empty name or a limit of at most 3 is refused. *)
Theorem C56_refused : forall right name max_len,
  limit_title right name max_len = None <-> name = "" \/ max_len <= 3.
Proof.
  intros right name m. unfold limit_title.
  destruct (name =? "")%string eqn:N.
  - apply String.eqb_eq in N. tauto.
  - apply String.eqb_neq in N. destruct (m <=? 3)%nat eqn:M.
    + apply Nat.leb_le in M. tauto.
    + apply Nat.leb_gt in M. split; [|intros [H|H]; [contradiction|lia]].
      destruct (String.length name <=? m)%nat; [discriminate|]. destruct right; discriminate.
Qed.
Print Assumptions C56_refused.

Example C56_example :
  limit_title true "abcdefgh" 6 = Some "...fgh" /\
  limit_title false "abcdefgh" 6 = Some "abc..." /\
  limit_title true "abcdef" 6 = Some "abcdef".
Proof. repeat split; reflexivity. Qed.
