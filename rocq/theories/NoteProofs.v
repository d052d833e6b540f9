(** Lemmas for C106-C107. *)
From Coq Require Import Ascii String List Bool Arith Lia.
From Verif Require Import Common FsModel NoteModel NoteSpec.
Import ListNotations.
Open Scope string_scope.

Lemma napp_nil : forall s, s ++ "" = s.
Proof. induction s; cbn; congruence. Qed.
Lemma napp_assoc : forall a b c : string, (a ++ b) ++ c = a ++ b ++ c.
Proof. induction a; intros; cbn; [|rewrite IHa]; reflexivity. Qed.
Lemma smap_app : forall f a b, smap f (a ++ b) = smap f a ++ smap f b.
Proof. induction a; intros; cbn; [reflexivity|]. now rewrite IHa, napp_assoc. Qed.
Lemma hc_app : forall c a b, has_char c (a ++ b) = has_char c a || has_char c b.
Proof. induction a; intros; cbn [append has_char]; [reflexivity|]. now rewrite IHa, orb_assoc. Qed.

Definition prep (x : string) (o : option (string * string)) : option (string * string) :=
  match o with Some (y, r) => Some (x ++ y, r) | None => None end.
Lemma prep_prep : forall a b o, prep a (prep b o) = prep (a ++ b) o.
Proof. intros a b [[y r]|]; cbn; [|reflexivity]. now rewrite napp_assoc. Qed.
Lemma also_prep : forall c o, also c o = prep (str c) o.
Proof. intros c [[y r]|]; reflexivity. Qed.

(** * Python *)

Lemma py_char_read : forall q c r, q = sq \/ q = dq -> py_body q (py_esc q c ++ r) = also c (py_body q r).
Proof. intros q c r [-> | ->]; destruct c as [[] [] [] [] [] [] [] []]; reflexivity. Qed.
Lemma py_text_read : forall q s r, q = sq \/ q = dq -> py_body q (smap (py_esc q) s ++ r) = prep s (py_body q r).
Proof.
  intros q s r Q. induction s as [|c s IH].
  - cbn. destruct (py_body q r) as [[y z]|]; reflexivity.
  - cbn [smap]. rewrite napp_assoc, py_char_read, IH, also_prep, prep_prep by exact Q. reflexivity.
Qed.
Lemma py_quote_is : forall s, py_quote s = sq \/ py_quote s = dq.
Proof. intros. unfold py_quote. destruct (has_char sq s && negb (has_char dq s)); auto. Qed.
Lemma py_repr_read : forall s r, py_literal (py_repr s ++ r) = Some (s, r).
Proof.
  intros s r. unfold py_repr. pose proof (py_quote_is s) as Q. set (q := py_quote s) in *.
  cbn [append py_literal].
  assert (Ascii.eqb q dquote || Ascii.eqb q squote = true) as -> by (destruct Q as [->| ->]; reflexivity).
  rewrite napp_assoc, py_text_read by exact Q.
  assert (py_body q (str q ++ r) = Some ("", r)) as ->.
  { cbn [str append py_body]. now rewrite Ascii.eqb_refl. }
  cbn. now rewrite napp_nil.
Qed.

(** * JSON *)

Definition dbl (c : ascii) : string := if Ascii.eqb c bs then String bs (str bs) else str c.
Lemma replace_dbl : forall s, replace (str bs) (String bs (str bs)) s = smap dbl s.
Proof.
  induction s as [|c s IH]; [reflexivity|]. unfold replace in *. cbn [replace_from smap].
  change (String.length (str bs) - 1)%nat with 0%nat. rewrite IH. unfold dbl.
  replace (prefix (str bs) (String c s)) with (Ascii.eqb c bs).
  - destruct (Ascii.eqb_spec c bs); subst; reflexivity.
  - cbn [prefix str]. destruct (ascii_dec bs c) as [<-|N]; [|apply Ascii.eqb_neq; congruence].
    rewrite Ascii.eqb_refl. now destruct s.
Qed.
Lemma inserted_is : forall p, inserted p = smap dbl (py_repr p).
Proof. intros. apply replace_dbl. Qed.

(** Text without quotes and control characters survives. *)
Definition visible (c : ascii) : bool := negb (Ascii.eqb c dquote) && negb (nat_of_ascii c <? 32)%nat.
Lemma json_dbl : forall c r, visible c = true -> json_string (dbl c ++ r) = also c (json_string r).
Proof.
  intros c r V. unfold visible in V. apply andb_true_iff in V as (V1 & V2). apply negb_true_iff in V1, V2.
  unfold dbl. destruct (Ascii.eqb_spec c bs) as [->|N]; [reflexivity|].
  cbn [str append json_string]. rewrite V1, V2. apply Ascii.eqb_neq in N. unfold bs in N. unfold bslash. now rewrite N.
Qed.
Lemma json_text : forall s r, all_chars visible s -> json_string (smap dbl s ++ r) = prep s (json_string r).
Proof.
  induction s as [|c s IH]; intros r V.
  - cbn. destruct (json_string r) as [[y z]|]; reflexivity.
  - cbn [smap]. rewrite napp_assoc, json_dbl, IH, also_prep, prep_prep; [reflexivity| |].
    + intros d H. apply V. cbn [has_char]. now rewrite H, orb_true_r.
    + apply V. cbn [has_char]. now rewrite Ascii.eqb_refl.
Qed.

Lemma esc_visible : forall q c d, q = sq \/ q = dq -> c <> dq -> has_char d (py_esc q c) = true -> visible d = true.
Proof.
  intros q c d Q D H.
  assert (G : forall s, s = py_esc q c -> match s with
    | EmptyString => True
    | String a EmptyString => visible a = true
    | String a (String b EmptyString) => visible a = true /\ visible b = true
    | String a (String b (String e (String f EmptyString))) =>
        visible a = true /\ visible b = true /\ visible e = true /\ visible f = true
    | _ => False end).
  { intros s ->. clear H. destruct Q as [->| ->]; destruct c as [[] [] [] [] [] [] [] []];
      try (now elim D); vm_compute; auto. }
  specialize (G _ eq_refl).
  destruct (py_esc q c) as [|a [|b [|e [|f [|? ?]]]]]; cbn [has_char] in H; try contradiction; try discriminate;
    repeat (apply orb_true_iff in H as [H|H]; [apply Ascii.eqb_eq in H; subst; tauto|]); discriminate.
Qed.
Lemma smap_visible : forall q s, q = sq \/ q = dq -> has_char dq s = false -> all_chars visible (smap (py_esc q) s).
Proof.
  intros q s Q. induction s as [|c s IH]; intros N d H; [discriminate|].
  cbn [has_char] in N. apply orb_false_iff in N as (N1 & N2).
  cbn [smap] in H. rewrite hc_app in H. apply orb_true_iff in H as [H|H].
  - apply (esc_visible q c d Q); [|exact H]. intros ->. now rewrite Ascii.eqb_refl in N1.
  - exact (IH N2 d H).
Qed.
Lemma repr_visible : forall s, has_char sq s = false -> has_char dq s = false -> all_chars visible (py_repr s).
Proof.
  intros s N1 N2. unfold py_repr, py_quote. rewrite N1. cbn [andb].
  intros c H. cbn [has_char] in H. rewrite hc_app in H. apply orb_true_iff in H as [H|H].
  - apply Ascii.eqb_eq in H. subst. reflexivity.
  - apply orb_true_iff in H as [H|H].
    + exact (smap_visible sq s (or_introl eq_refl) N2 c H).
    + cbn [has_char str] in H. rewrite orb_false_r in H. apply Ascii.eqb_eq in H. subst. reflexivity.
Qed.

(** A quote ends the string inside what was inserted. *)
Definition shown (c : ascii) : bool := Ascii.eqb c dquote || visible c.
Lemma json_cut : forall s, all_chars shown s -> has_char dq s = true ->
  exists d r, forall z, json_string (smap dbl s ++ z) = Some (d, r ++ z).
Proof.
  induction s as [|c s IH]; intros V H; [discriminate|].
  assert (V' : all_chars shown s) by (intros e X; apply V; cbn [has_char]; now rewrite X, orb_true_r).
  destruct (Ascii.eqb_spec c dq) as [->|N].
  - exists "", (smap dbl s). intros z. reflexivity.
  - cbn [has_char] in H. apply orb_true_iff in H as [H|H]; [apply Ascii.eqb_eq in H; now elim N|].
    destruct (IH V' H) as (d & r & E). exists (String c d), r. intros z. cbn [smap]. rewrite napp_assoc, json_dbl, E; [reflexivity|].
    pose proof (V c) as Vc. cbn [has_char] in Vc. rewrite Ascii.eqb_refl in Vc. specialize (Vc eq_refl).
    unfold shown in Vc. apply orb_true_iff in Vc as [Vc|Vc]; [|exact Vc]. apply Ascii.eqb_eq in Vc. now elim N.
Qed.
Lemma esc_shown : forall q c d, q = sq \/ q = dq -> has_char d (py_esc q c) = true -> shown d = true.
Proof.
  intros q c d Q H. destruct (ascii_dec c dq) as [->|N].
  - destruct Q as [->| ->]; cbn [py_esc] in H; unfold py_esc in H; cbn [has_char str] in H; vm_compute in H |- *.
    + destruct d as [[] [] [] [] [] [] [] []]; try discriminate; reflexivity.
    + destruct d as [[] [] [] [] [] [] [] []]; try discriminate; reflexivity.
  - unfold shown. rewrite (esc_visible q c d Q N H). apply orb_true_r.
Qed.
Lemma repr_shown : forall s, all_chars shown (py_repr s).
Proof.
  intros s. unfold py_repr. pose proof (py_quote_is s) as Q. set (q := py_quote s) in *. clearbody q.
  assert (Sq : shown q = true) by (destruct Q as [->| ->]; reflexivity).
  intros c H. cbn [has_char] in H. rewrite hc_app in H. apply orb_true_iff in H as [H|H].
  - apply Ascii.eqb_eq in H. now subst.
  - apply orb_true_iff in H as [H|H].
    + induction s as [|e s IH]; [discriminate|]. cbn [smap] in H. rewrite hc_app in H.
      apply orb_true_iff in H as [H|H]; [exact (esc_shown q e c Q H)|now apply IH].
    + cbn [has_char str] in H. rewrite orb_false_r in H. apply Ascii.eqb_eq in H. now subst.
Qed.
Lemma esc_keeps_dq : forall s, has_char dq s = true -> has_char dq (smap (py_esc sq) s) = true.
Proof.
  induction s as [|c s IH]; intros H; [discriminate|]. cbn [smap]. rewrite hc_app. cbn [has_char] in H.
  apply orb_true_iff in H as [H|H]; [|rewrite (IH H); apply orb_true_r].
  apply Ascii.eqb_eq in H. subst. reflexivity.
Qed.
Lemma repr_quote : forall s, has_char sq s = true \/ has_char dq s = true -> has_char dq (py_repr s) = true.
Proof.
  intros s H. unfold py_repr, py_quote. destruct (has_char dq s) eqn:D.
  - rewrite andb_false_r. cbn [has_char]. rewrite hc_app, (esc_keeps_dq s D), orb_true_r. reflexivity.
  - destruct H as [H|H]; [|discriminate]. rewrite H. cbn [andb negb has_char]. now rewrite Ascii.eqb_refl.
Qed.

(** * Replacing the second path in the text of the first *)

Definition word_char (c : ascii) : bool :=
  Ascii.eqb c "_" || (let n := nat_of_ascii c in ((48 <=? n)%nat && (n <=? 57)%nat) || ((65 <=? n)%nat && (n <=? 90)%nat)).

Definition einj (q c : ascii) : string := smap dbl (py_esc q c).
Lemma einj_word : forall q c, q = sq \/ q = dq ->
  (word_char c = true /\ einj q c = str c) \/
  (word_char c = false /\ exists d t, einj q c = String d t /\ word_char d = false).
Proof.
  intros q c Q. destruct Q as [->| ->]; destruct c as [[] [] [] [] [] [] [] []];
    (left; split; reflexivity) || (right; split; [reflexivity|]; eexists; eexists; split; reflexivity).
Qed.
Lemma einj_no_underscore : forall q c, q = sq \/ q = dq -> word_char c = false -> has_char "_" (einj q c) = false.
Proof. intros q c [->| ->] W; destruct c as [[] [] [] [] [] [] [] []]; try discriminate W; reflexivity. Qed.

Lemma smap_dbl_smap : forall q s, smap dbl (smap (py_esc q) s) = smap (einj q) s.
Proof. induction s as [|c s IH]; [reflexivity|]. cbn [smap]. now rewrite smap_app, IH. Qed.

Lemma prefix_esc : forall q t s d z, q = sq \/ q = dq -> (forall c, has_char c t = true -> word_char c = true) ->
  word_char d = false -> prefix t (smap (einj q) s ++ String d z) = prefix t s.
Proof.
  intros q t s d z Q. revert s. induction t as [|a t IH]; intros s T D; [now destruct s; destruct (smap (einj q) _)|].
  assert (Wa : word_char a = true) by (apply T; cbn [has_char]; now rewrite Ascii.eqb_refl).
  assert (T' : forall c, has_char c t = true -> word_char c = true)
    by (intros c X; apply T; cbn [has_char]; now rewrite X, orb_true_r).
  destruct s as [|c s].
  - cbn [smap append prefix]. destruct (ascii_dec a d) as [->|]; [congruence|reflexivity].
  - cbn [smap]. rewrite napp_assoc. destruct (einj_word q c Q) as [(Wc & ->)|(Wc & d' & t' & -> & Wd)].
    + cbn [str append prefix]. destruct (ascii_dec a c); [now apply IH|reflexivity].
    + cbn [append prefix]. destruct (ascii_dec a d') as [->|]; [congruence|].
      destruct (ascii_dec a c) as [->|]; [congruence|reflexivity].
Qed.

Lemma replace_skip : forall t new a z, (forall u v, a = u ++ v -> v <> "" -> prefix t (v ++ z) = false) ->
  replace t new (a ++ z) = a ++ replace t new z.
Proof.
  intros t new a. induction a as [|c a IH]; intros z H; [reflexivity|]. unfold replace in *. cbn [append replace_from].
  pose proof (H "" (String c a) eq_refl) as H0. cbn [append] in H0. rewrite H0 by discriminate. f_equal. apply IH.
  intros u v E N. apply (H (String c u) v); [now rewrite E|exact N].
Qed.

(** No occurrence in the path, none in its text. *)
Lemma no_token : forall q s d z t, q = sq \/ q = dq -> word_char d = false ->
  (forall c, has_char c t = true -> word_char c = true) -> prefix (str "_") t = true ->
  (forall u v, s <> u ++ t ++ v) ->
  forall u v, smap (einj q) s = u ++ v -> v <> "" -> prefix t (v ++ String d z) = false.
Proof.
  intros q s d z t Q D T U. induction s as [|c s IH]; intros H u v E N.
  - destruct u; [|discriminate]. destruct v; [now elim N|discriminate].
  - assert (H' : forall u v, s <> u ++ t ++ v) by (intros u' v' X; apply (H (String c u') v'); now rewrite X).
    destruct u as [|a u].
    + cbn [append] in E. rewrite <- E. rewrite (prefix_esc q t (String c s) d z Q T D).
      destruct (prefix t (String c s)) eqn:P; [|reflexivity]. exfalso.
      assert (P' : forall t s, prefix t s = true -> exists v, s = t ++ v).
      { clear. induction t as [|a t IH]; intros s P; [now exists s|]. destruct s as [|b s]; [discriminate|].
        cbn [prefix] in P. destruct (ascii_dec a b) as [->|]; [|discriminate]. destruct (IH _ P) as (v & ->). now exists v. }
      destruct (P' _ _ P) as (v' & E'). now apply (H "" v').
    + cbn [smap] in E.
      assert (G : forall (x y u' v' : string), x ++ y = u' ++ v' ->
                (exists w, u' = x ++ w /\ y = w ++ v') \/ (exists w, x = u' ++ w /\ v' = w ++ y)).
      { clear. induction x as [|e x IHx]; intros y u' v' E; cbn in E.
        - left. exists u'. now split.
        - destruct u' as [|f u']; cbn in E.
          + right. exists (String e x). now split.
          + injection E as -> E. destruct (IHx _ _ _ E) as [(w & -> & ->)|(w & -> & ->)];
              [left|right]; exists w; now split. }
      destruct (G _ _ _ _ E) as [(w & E1 & E2)|(w & E1 & E2)].
      * apply (IH H' w v E2 N).
      * destruct w as [|b w].
        -- apply (IH H' "" v); [now cbn in E2; rewrite E2|exact N].
        -- (* inside an escape: no underscore there *)
           destruct t as [|t0 t]; [discriminate|]. cbn [prefix str] in U.
           destruct (ascii_dec "_" t0) as [<-|]; [|discriminate].
           rewrite E2. cbn [append prefix]. destruct (ascii_dec "_" b) as [<-|]; [|reflexivity]. exfalso.
           destruct (einj_word q c Q) as [(Wc & X)|(Wc & _)].
           ++ rewrite X in E1. cbn in E1. injection E1 as _ E1. destruct u; discriminate.
           ++ pose proof (einj_no_underscore q c Q Wc) as X. rewrite E1, hc_app in X. cbn [has_char] in X.
              rewrite Ascii.eqb_refl in X. cbn [orb] in X. now rewrite orb_true_r in X.
Qed.

(** * Shell *)

Lemma sh_double : forall s w r, all_chars calm s -> sh_read Double (Some w) (s ++ r) = sh_read Double (Some (w ++ s)) r.
Proof.
  induction s as [|c s IH]; intros w r C; [now rewrite napp_nil|].
  assert (C' : all_chars calm s) by (intros e X; apply C; cbn [has_char]; now rewrite X, orb_true_r).
  assert (Cc : calm c = true) by (apply C; cbn [has_char]; now rewrite Ascii.eqb_refl).
  cbn [append sh_read]. unfold calm in Cc. rewrite !negb_orb, !andb_true_iff, !negb_true_iff in Cc.
  destruct Cc as (((C1 & C2) & C3) & C4). rewrite C1, C2, C3, C4. cbn [orb]. unfold extend.
  rewrite IH by exact C'. rewrite napp_assoc. reflexivity.
Qed.
Lemma sh_quoted : forall s r w, all_chars calm s ->
  sh_read Bare w (quoted s ++ r) = sh_read Bare (Some (match w with Some x => x | None => "" end ++ s)) r.
Proof.
  intros s r w C. unfold quoted. cbn [str append sh_read]. 
  change (Ascii.eqb dq " ") with false. change (Ascii.eqb dq dquote) with true. cbn iota.
  rewrite napp_assoc, sh_double by exact C. cbn [append str sh_read]. reflexivity.
Qed.
Lemma sh_bare : forall s w r, all_chars sh_plain s -> s <> "" ->
  sh_read Bare w (s ++ r) = sh_read Bare (Some (match w with Some x => x | None => "" end ++ s)) r.
Proof.
  induction s as [|c s IH]; intros w r C N; [now elim N|]. clear N.
  assert (C' : all_chars sh_plain s) by (intros e X; apply C; cbn [has_char]; now rewrite X, orb_true_r).
  assert (Cc : sh_plain c = true) by (apply C; cbn [has_char]; now rewrite Ascii.eqb_refl).
  cbn [append sh_read].
  assert (Ascii.eqb c " " = false) as -> by (destruct (Ascii.eqb_spec c " "); subst; [discriminate|reflexivity]).
  assert (Ascii.eqb c dquote = false) as -> by (destruct (Ascii.eqb_spec c dquote); subst; [discriminate|reflexivity]).
  assert (Ascii.eqb c squote = false) as -> by (destruct (Ascii.eqb_spec c squote); subst; [discriminate|reflexivity]).
  rewrite Cc. unfold extend. destruct s as [|d s].
  - reflexivity.
  - rewrite IH by (exact C' || discriminate). rewrite napp_assoc. reflexivity.
Qed.
Lemma sh_single : forall s w r, all_chars no_single s -> sh_read Single (Some w) (s ++ r) = sh_read Single (Some (w ++ s)) r.
Proof.
  induction s as [|c s IH]; intros w r C; [now rewrite napp_nil|].
  assert (C' : all_chars no_single s) by (intros e X; apply C; cbn [has_char]; now rewrite X, orb_true_r).
  assert (Cc : no_single c = true) by (apply C; cbn [has_char]; now rewrite Ascii.eqb_refl).
  cbn [append sh_read]. unfold no_single in Cc. apply negb_true_iff in Cc. rewrite Cc. unfold extend.
  rewrite IH by exact C'. rewrite napp_assoc. reflexivity.
Qed.
Lemma sh_space : forall w r, sh_read Bare w (String " " r) = option_map (finish w) (sh_read Bare None r).
Proof. reflexivity. Qed.

Lemma format_plain : forall field s r, all_chars no_brace s ->
  format_from field None (s ++ r) = option_map (fun x => s ++ x) (format_from field None r).
Proof.
  induction s as [|c s IH]; intros r C; [cbn [append]; now destruct (format_from field None r)|].
  assert (C' : all_chars no_brace s) by (intros e X; apply C; cbn [has_char]; now rewrite X, orb_true_r).
  assert (Cc : no_brace c = true) by (apply C; cbn [has_char]; now rewrite Ascii.eqb_refl).
  cbn [append format_from]. unfold no_brace in Cc. rewrite negb_orb, andb_true_iff, !negb_true_iff in Cc.
  destruct Cc as (C1 & C2). unfold lbrace, rbrace. 
  change (ascii_of_nat 123) with "{"%char. change (ascii_of_nat 125) with "}"%char. rewrite C1, C2, (IH r C').
  unfold cons_o. now destruct (format_from field None r).
Qed.

Lemma all_app : forall P a b, all_chars P (a ++ b) <-> all_chars P a /\ all_chars P b.
Proof.
  intros P a b. split.
  - intros H. split; intros c X; apply H; rewrite hc_app, X; [reflexivity|apply orb_true_r].
  - intros (A & B) c X. rewrite hc_app in X. apply orb_true_iff in X as [X|X]; auto.
Qed.
Lemma all_lit : forall P s, (fix f s := match s with EmptyString => true | String c r => P c && f r end) s = true ->
  all_chars P s.
Proof.
  induction s as [|a s IH]; intros H c X; [discriminate|]. apply andb_true_iff in H as (H1 & H2).
  cbn [has_char] in X. apply orb_true_iff in X as [X|X]; [apply Ascii.eqb_eq in X; now subst|now apply IH].
Qed.

(** The words of the notebook command *)
Lemma command_words : forall prefix dir p, all_chars sh_plain prefix -> all_chars calm dir -> all_chars calm p ->
  sh_words (notebook_command_with_prefix prefix dir (Some p)) =
    Some [prefix ++ "/bin/jupyter"; "notebook"; "--notebook-dir"; dir; p].
Proof.
  intros prefix dir p P D C. unfold sh_words, notebook_command_with_prefix, notebook_command.
  change ("/bin/" ++ "jupyter notebook --notebook-dir " ++ quoted dir ++ " " ++ quoted p)
    with ("/bin/jupyter" ++ String " " ("notebook" ++ String " " ("--notebook-dir" ++ String " " (quoted dir ++ String " " (quoted p))))).
  rewrite <- napp_assoc. rewrite sh_bare; [|apply all_app; split; [exact P|apply all_lit; reflexivity]|now destruct prefix].
  rewrite sh_space. rewrite sh_bare by (try discriminate; apply all_lit; reflexivity).
  rewrite sh_space. rewrite sh_bare by (try discriminate; apply all_lit; reflexivity).
  rewrite sh_space. rewrite sh_quoted by exact D.
  rewrite sh_space. rewrite <- (napp_nil (quoted p)). rewrite sh_quoted by exact C.
  reflexivity.
Qed.
