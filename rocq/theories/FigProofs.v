(** Lemmas for C104-C105. *)
From Coq Require Import Ascii String List Bool Arith Lia.
From Verif Require Import Common FsModel FsProofs NameProofs FigModel FigSpec.
Import ListNotations.
Open Scope string_scope.
Local Arguments Ascii.eqb : simpl never.

Lemma sapp_nil : forall s, s ++ "" = s.
Proof. induction s; cbn; congruence. Qed.
Lemma sapp_assoc : forall a b c : string, (a ++ b) ++ c = a ++ b ++ c.
Proof. induction a; intros; cbn; [|rewrite IHa]; reflexivity. Qed.
Lemma has_char_app : forall c a b, has_char c (a ++ b) = has_char c a || has_char c b.
Proof. induction a; intros; cbn; [reflexivity|]. now rewrite IHa, orb_assoc. Qed.

Lemma split_last_spec : forall p h t, split_last p = (h, t) ->
  p = h ++ t /\ has_char slash t = false /\ (h = "" \/ exists b, h = b ++ "/").
Proof.
  induction p as [|c p IH]; intros h t E; cbn in E.
  - injection E as <- <-. repeat split; auto.
  - destruct (split_last p) as [h0 t0] eqn:S. destruct (IH _ _ eq_refl) as (E1 & N & L). clear IH.
    destruct (String.eqb_spec h0 "") as [E0|E0].
    + subst h0. cbn in E1. subst t0. destruct (Ascii.eqb_spec c slash) as [Ec|Ec].
      * injection E as <- <-. subst c. repeat split; [exact N|]. right. now exists "".
      * injection E as <- <-. repeat split; [|now left]. cbn. rewrite N, orb_false_r.
        apply Ascii.eqb_neq. intros X. now apply Ec.
    + injection E as <- <-. repeat split; [cbn; now rewrite E1|exact N|]. right.
      destruct L as [L|(b & L)]; [contradiction|]. exists (String c b). now rewrite L.
Qed.

Lemma split_last_noslash : forall t, has_char slash t = false -> split_last t = ("", t).
Proof.
  induction t as [|c t IH]; intros N; [reflexivity|]. cbn in N. apply orb_false_iff in N as (N1 & N2).
  cbn. rewrite (IH N2). cbn. rewrite Ascii.eqb_sym. unfold slash in *. now rewrite N1.
Qed.
Lemma split_last_app : forall b t, has_char slash t = false -> split_last (b ++ "/" ++ t) = (b ++ "/", t).
Proof.
  induction b as [|c b IH]; intros t N.
  - cbn. now rewrite (split_last_noslash _ N).
  - change (String c b ++ "/" ++ t) with (String c (b ++ "/" ++ t)). cbn [split_last]. rewrite (IH t N).
    destruct (String.eqb_spec (b ++ "/") ""); [destruct b; discriminate|reflexivity].
Qed.
Lemma component_of : forall p, last_component p (basename p).
Proof.
  intros p. unfold basename. destruct (split_last p) as [h t] eqn:S. cbn.
  destruct (split_last_spec _ _ _ S) as (E & N & [L|(b & L)]); split; try exact N.
  - left. now rewrite E, L.
  - right. exists b. now rewrite E, L, sapp_assoc.
Qed.
Lemma component_is : forall p n, last_component p n -> basename p = n.
Proof.
  intros p n (N & [->|(b & ->)]); unfold basename.
  - now rewrite split_last_noslash.
  - now rewrite split_last_app.
Qed.

(** * Extensions *)

Lemma last_dot_spec : forall s,
  match last_dot s with
  | Some (a, e) => s = a ++ e /\ exists b, e = String dot b /\ has_char dot b = false
  | None => has_char dot s = false
  end.
Proof.
  induction s as [|c s IH]; [reflexivity|]. cbn [last_dot]. destruct (last_dot s) as [[a e]|].
  - destruct IH as (E & b & Eb & N). split; [cbn; now rewrite E|]. now exists b.
  - destruct (Ascii.eqb_spec c dot) as [->|D].
    + split; [reflexivity|]. now exists s.
    + cbn. rewrite IH, orb_false_r. apply Ascii.eqb_neq. intros X. now apply D.
Qed.

Lemma app_dot_inj : forall a a' b b', has_char dot b = false -> has_char dot b' = false ->
  a ++ String dot b = a' ++ String dot b' -> a = a' /\ b = b'.
Proof.
  assert (Z : forall a b, has_char dot (a ++ String dot b) = true).
  { intros. rewrite has_char_app. cbn. now rewrite orb_true_r. }
  induction a as [|c a IH]; intros a' b b' N N' E; destruct a' as [|c' a']; cbn in E.
  - injection E as ->. now split.
  - injection E as <- ->. rewrite Z in N. discriminate.
  - injection E as -> <-. rewrite Z in N'. discriminate.
  - injection E as <- E. destruct (IH _ _ _ N N' E) as (-> & ->). now split.
Qed.
Lemma ext_unique : forall n r e r' e', has_extension n r e -> has_extension n r' e' -> r = r' /\ e = e'.
Proof.
  intros n r e r' e' (E & _ & b & Eb & N) (E' & _ & b' & Eb' & N'). subst e e'. rewrite E in E'.
  destruct (app_dot_inj _ _ _ _ N N' E') as (-> & ->). now split.
Qed.
Lemma extension_unique : forall n r e r' e', extension n r e -> extension n r' e' -> r = r' /\ e = e'.
Proof.
  intros n r e r' e' [H|(-> & -> & H)] [H'|(-> & -> & H')].
  - exact (ext_unique _ _ _ _ _ H H').
  - now apply H' in H.
  - now apply H in H'.
  - now split.
Qed.

Lemma only_dots_cons : forall a, only_dots (String dot a) <-> only_dots a.
Proof.
  intros a. split; intros H c I.
  - apply H. cbn. rewrite I. now rewrite orb_true_r.
  - cbn in I. apply orb_true_iff in I as [I|I]; [now apply Ascii.eqb_eq in I|now apply H].
Qed.
Lemma not_only_dots : forall c a, c <> dot -> ~ only_dots (String c a).
Proof. intros c a D H. apply D, H. cbn. now rewrite Ascii.eqb_refl. Qed.
Lemma has_ext_cons : forall n r e, has_extension (String dot n) (String dot r) e <-> has_extension n r e.
Proof.
  intros. unfold has_extension. rewrite only_dots_cons. split; intros (E & D & B); (split; [|now split]).
  - now injection E.
  - cbn. now rewrite E.
Qed.

Lemma splitext_spec : forall t r e, splitext t = (r, e) -> extension t r e.
Proof.
  induction t as [|c t IH]; intros r e E; cbn [splitext] in E.
  - injection E as <- <-. right. repeat split. intros r e (X & _ & b & -> & _).
    destruct r; discriminate.
  - destruct (Ascii.eqb_spec c dot) as [->|D].
    + destruct (splitext t) as [a x]. injection E as <- <-. destruct (IH _ _ eq_refl) as [H|(-> & -> & H)].
      * left. now apply has_ext_cons.
      * right. repeat split. intros r e X. destruct r as [|c r].
        -- destruct X as (_ & X & _). apply X. intros c I. discriminate.
        -- assert (c = dot) as -> by (destruct X as (X & _); now injection X).
           now apply has_ext_cons, H in X.
    + pose proof (last_dot_spec (String c t)) as L. destruct (last_dot (String c t)) as [[a x]|].
      * injection E as <- <-. destruct L as (L & B). left. split; [exact L|]. split; [|exact B].
        destruct a as [|c' a].
        -- destruct B as (b & -> & _). injection L as -> _. now elim D.
        -- injection L as <- _. now apply not_only_dots.
      * injection E as <- <-. right. repeat split. intros r e (X & _ & b & -> & _).
        rewrite X, has_char_app in L. cbn in L. now rewrite orb_true_r in L.
Qed.

(** * Directories *)

Lemma rstrip_spec : forall h, exists z, h = rstrip h ++ z /\ (forall c, has_char c z = true -> c = slash) /\
  (rstrip h = "" \/ exists a c, rstrip h = a ++ String c "" /\ c <> slash).
Proof.
  induction h as [|c h (z & E & Z & L)]; cbn [rstrip].
  - exists "". repeat split; [|now left]. intros c X. discriminate.
  - destruct (String.eqb_spec (rstrip h) "") as [R|R]; cbn [andb].
    + destruct (Ascii.eqb_spec c slash) as [->|D].
      * rewrite R in E. cbn in E. subst h. exists (String slash z). repeat split; [|now left].
        intros c X. cbn in X. apply orb_true_iff in X as [X|X]; [now apply Ascii.eqb_eq in X|now apply Z].
      * exists z. rewrite R in E |- *. cbn in E. subst z. repeat split; [exact Z|]. right. now exists "", c.
    + exists z. split; [cbn; now rewrite <- E|]. split; [exact Z|]. right.
      destruct L as [L|(a & d & L & D)]; [contradiction|]. exists (String c a), d. now rewrite L.
Qed.

Lemma resolve_app : forall l1 l2 b, resolve b (l1 ++ l2) = resolve (resolve b l1) l2.
Proof.
  induction l1 as [|c l IH]; intros; [reflexivity|]. cbn [app resolve].
  destruct ((c =? "") || (c =? ".")); [apply IH|]. destruct (c =? ".."); apply IH.
Qed.
Lemma resolve_slashes : forall z x b, (forall c, has_char c z = true -> c = slash) ->
  resolve b (split_slash (z ++ x)) = resolve b (split_slash x).
Proof.
  induction z as [|c z IH]; intros x b Z; [reflexivity|].
  assert (c = slash) as -> by (apply Z; cbn; now rewrite Ascii.eqb_refl).
  cbn [append split_slash]. rewrite Ascii.eqb_refl. cbn [resolve]. rewrite String.eqb_refl. cbn [orb].
  apply IH. intros c X. apply Z. cbn. now rewrite X, orb_true_r.
Qed.

Lemma ends_slash_app : forall b, ends_slash (b ++ "/") = true.
Proof.
  intros b. unfold ends_slash, ends_with. 
  assert (L : forall a c : string, String.length (a ++ c) = (String.length a + String.length c)%nat)
    by (induction a; intros; cbn; [|rewrite IHa]; reflexivity).
  rewrite L. cbn [String.length]. rewrite (proj2 (Nat.leb_le _ _)) by lia.
  replace (String.length b + 1 - 1)%nat with (String.length b) by lia. cbn [andb].
  induction b as [|c b IH]; [reflexivity|]. exact IH.
Qed.
Lemma ends_slash_other : forall a c, c <> slash -> ends_slash (a ++ String c "") = false.
Proof.
  intros a c D. unfold ends_slash, ends_with.
  assert (L : forall a c : string, String.length (a ++ c) = (String.length a + String.length c)%nat)
    by (induction a0; intros; cbn; [|rewrite IHa0]; reflexivity).
  rewrite L. cbn [String.length].
  replace (String.length a + 1 - 1)%nat with (String.length a) by lia.
  rewrite andb_false_iff. right.
  induction a as [|d a IH]; [|exact IH]. cbn.
  apply Ascii.eqb_neq in D. unfold slash in D. now rewrite D.
Qed.

Lemma os_join_plain : forall a x, x <> "" -> has_char slash x = false ->
  os_join a x = if (a =? "") || ends_slash a then a ++ x else a ++ "/" ++ x.
Proof.
  intros a [|c x] H N; [now elim H|]. cbn in N. apply orb_false_iff in N as (N & _). cbn [os_join].
  now rewrite Ascii.eqb_sym, N.
Qed.

Lemma os_join_dirname : forall p x, x <> "" -> has_char slash x = false ->
  same_path (os_join (dirname p) x) (fst (split_last p) ++ x).
Proof.
  intros p x H N. rewrite os_join_plain by assumption. unfold dirname.
  destruct (split_last p) as [h t] eqn:S. cbn [fst].
  destruct (split_last_spec _ _ _ S) as (_ & _ & L).
  destruct (rstrip_spec h) as (z & E & Z & R).
  destruct (String.eqb_spec (rstrip h) "") as [R0|R0].
  - assert (X : (h =? "") || ends_slash h = true).
    { destruct L as [->|(b & ->)]; [reflexivity|]. rewrite ends_slash_app. apply orb_true_r. }
    rewrite X. intros cwd. reflexivity.
  - destruct R as [R|(a & c & R & D)]; [contradiction|].
    apply String.eqb_neq in R0. rewrite R0. cbn [orb].
    rewrite R at 1. rewrite (ends_slash_other _ _ D).
    intros cwd. rewrite E at 2. rewrite sapp_assoc.
    assert (Zn : exists z', z = String slash z').
    { destruct z as [|c' z']; [|exists z'; f_equal; apply Z; cbn; now rewrite Ascii.eqb_refl].
      rewrite sapp_nil in E. destruct L as [L|(b & L)].
      - rewrite L in R0. discriminate.
      - rewrite <- E in R. rewrite L in R. exfalso.
        pose proof (ends_slash_app b) as X. rewrite R, (ends_slash_other _ _ D) in X. discriminate. }
    destruct Zn as (z' & ->).
    assert (G : forall b, resolve b (split_slash (rstrip h ++ "/" ++ x)) =
                          resolve b (split_slash (rstrip h ++ String slash z' ++ x))).
    { intros b. change ("/" ++ x) with (String slash x). change (String slash z' ++ x) with (String slash (z' ++ x)).
      rewrite !split_app_slash, !resolve_app. symmetry. apply resolve_slashes.
      intros c' X. apply Z. cbn. now rewrite X, orb_true_r. }
    destruct (rstrip h) as [|c0 r0]; [discriminate|]. unfold join.
    change (String c0 r0 ++ "/" ++ x) with (String c0 (r0 ++ "/" ++ x)) in *.
    change (String c0 r0 ++ String slash z' ++ x) with (String c0 (r0 ++ String slash z' ++ x)) in *.
    now rewrite !G.
Qed.

(** * Words *)

Lemma lower_p : forall c, lower_char c = "p"%char <-> c = "p"%char \/ c = "P"%char.
Proof. intros [[] [] [] [] [] [] [] []]; cbn; split; intros H; auto; try discriminate; destruct H; discriminate. Qed.
Lemma lower_d : forall c, lower_char c = "d"%char <-> c = "d"%char \/ c = "D"%char.
Proof. intros [[] [] [] [] [] [] [] []]; cbn; split; intros H; auto; try discriminate; destruct H; discriminate. Qed.
Lemma lower_f : forall c, lower_char c = "f"%char <-> c = "f"%char \/ c = "F"%char.
Proof. intros [[] [] [] [] [] [] [] []]; cbn; split; intros H; auto; try discriminate; destruct H; discriminate. Qed.
Lemma lower_i : forall c, lower_char c = "i"%char <-> c = "i"%char \/ c = "I"%char.
Proof. intros [[] [] [] [] [] [] [] []]; cbn; split; intros H; auto; try discriminate; destruct H; discriminate. Qed.
Lemma lower_r : forall c, lower_char c = "r"%char <-> c = "r"%char \/ c = "R"%char.
Proof. intros [[] [] [] [] [] [] [] []]; cbn; split; intros H; auto; try discriminate; destruct H; discriminate. Qed.

Lemma lower_pdf : forall s, lower s = "pdf" <-> pdf_word s.
Proof.
  intros s. split.
  - destruct s as [|a [|b [|c [|d s]]]]; try discriminate. intros H. cbn [lower] in H.
    injection H as A B C. apply lower_p in A. apply lower_d in B. apply lower_f in C.
    unfold pdf_word. cbn. destruct A, B, C; subst; tauto.
  - unfold pdf_word. cbn. intuition (subst; reflexivity).
Qed.
Lemma lower_dir : forall s, lower s = "dir" <-> dir_word s.
Proof.
  intros s. split.
  - destruct s as [|a [|b [|c [|d s]]]]; try discriminate. intros H. cbn [lower] in H.
    injection H as A B C. apply lower_d in A. apply lower_i in B. apply lower_r in C.
    unfold dir_word. cbn. destruct A, B, C; subst; tauto.
  - unfold dir_word. cbn. intuition (subst; reflexivity).
Qed.

Lemma substring_all : forall s, substring 0 (String.length s) s = s.
Proof. induction s; cbn; congruence. Qed.
Lemma guess_is : forall c b, b <> "" ->
  (if (1 <? String.length (String c b))%nat
   then lower (substring 1 (String.length (String c b) - 1) (String c b)) else "dir") = lower b.
Proof.
  intros c b H. destruct b as [|d b]; [now elim H|]. cbn [String.length].
  rewrite (proj2 (Nat.ltb_lt _ _)) by lia.
  replace (S (S (String.length b)) - 1)%nat with (String.length (String d b)) by (cbn; lia).
  change (substring 1 (String.length (String d b)) (String c (String d b)))
    with (substring 0 (String.length (String d b)) (String d b)). now rewrite substring_all.
Qed.

(** The format chosen, as a case distinction. *)
Lemma wanted_cases : forall p f name root ext, last_component p name -> extension name root ext ->
  (exists x, f = Some x /\ x <> "" /\ wanted_format p f = lower x) \/
  (not_given f /\ ((ext = "" \/ ext = ".") /\ wanted_format p f = "dir" \/
                   exists b, b <> "" /\ ext = String dot b /\ wanted_format p f = lower b)).
Proof.
  intros p f name root ext L X. unfold wanted_format. rewrite (component_is _ _ L).
  destruct (splitext name) as [r e] eqn:S. apply splitext_spec in S.
  destruct (extension_unique _ _ _ _ _ X S) as (<- & <-). cbn [snd].
  assert (G : (ext = "" \/ ext = ".") /\
     (if (1 <? String.length ext)%nat then lower (substring 1 (String.length ext - 1) ext) else "dir") = "dir" \/
     exists b, b <> "" /\ ext = String dot b /\
     (if (1 <? String.length ext)%nat then lower (substring 1 (String.length ext - 1) ext) else "dir") = lower b).
  { destruct X as [(_ & _ & b & -> & _)|(_ & -> & _)].
    - destruct (String.eqb_spec b "") as [->|B].
      + left. split; [now right|reflexivity].
      + right. exists b. repeat split; [exact B|]. now apply guess_is.
    - left. split; [now left|reflexivity]. }
  destruct f as [x|].
  - destruct (String.eqb_spec x "") as [->|B].
    + right. split; [now right|exact G].
    + left. now exists x.
  - right. split; [now left|exact G].
Qed.

Lemma fwriter_cases : forall p f name root ext, p <> "" -> last_component p name -> extension name root ext ->
  fwriter p f =
    (if wanted_format p f =? "pdf" then
      if root =? "" then Err ENoBase
      else if ext =? "" then Ok (Pdf, os_join (dirname p) (root ++ ".pdf"))
      else if (ext =? ".pdf") || (ext =? ".PDF") then Ok (Pdf, os_join (dirname p) (root ++ ext))
      else Err EExtension
    else if wanted_format p f =? "dir" then Ok (Dir, p) else Err EFormat).
Proof.
  intros p f name root ext P L X. unfold fwriter.
  apply String.eqb_neq in P. rewrite P, (component_is _ _ L).
  destruct (splitext name) as [r e] eqn:S. apply splitext_spec in S.
  destruct (extension_unique _ _ _ _ _ X S) as (<- & <-). reflexivity.
Qed.

(** * Saving *)
Section Saves.
Variable F : Type.

Lemma put_same : forall (d : disk F) p v, put F d p v p = Some v.
Proof. intros. unfold put. now rewrite String.eqb_refl. Qed.
Lemma put_other : forall (d : disk F) p v q, q <> p -> put F d p v q = d q.
Proof. intros. unfold put. apply String.eqb_neq in H. now rewrite H. Qed.

Lemma steps_app : forall l1 l2 w, steps F w (l1 ++ l2) = bind (steps F w l1) (fun w' => steps F w' l2).
Proof.
  induction l1 as [|a l IH]; intros; [reflexivity|]. cbn [app steps]. destruct (step F w a); [apply IH|reflexivity].
Qed.

Lemma saves_open : forall l w old, s_fmt F w = Pdf -> s_open F w = true -> s_disk F w (s_path F w) = Some old ->
  exists w', steps F w (map (fun e => Save F (fst e) (snd e)) l) = Ok w' /\ s_fmt F w' = Pdf /\
    s_path F w' = s_path F w /\ s_open F w' = true /\
    s_disk F w' (s_path F w) = Some (old ++ map snd l)%list /\
    forall q, q <> s_path F w -> s_disk F w' q = s_disk F w q.
Proof.
  induction l as [|[n x] l IH]; intros w old M O D.
  - exists w. cbn. rewrite app_nil_r. now repeat split.
  - cbn [map steps step fst snd]. unfold savefig at 1. rewrite M, O, D. cbn [bind].
    destruct (IH {| s_fmt := Pdf; s_path := s_path F w; s_open := true;
                    s_disk := put F (s_disk F w) (s_path F w) (old ++ [x])%list |} (old ++ [x])%list eq_refl eq_refl)
      as (w' & R & A1 & A2 & A3 & A4 & A5).
    { cbn. apply put_same. }
    cbn in R, A2, A4, A5. exists w'. rewrite R. repeat split; auto.
    + rewrite A4, <- app_assoc. reflexivity.
    + intros q Q. rewrite A5 by exact Q. now apply put_other.
Qed.

Lemma saves_new : forall e l w, s_fmt F w = Pdf -> s_open F w = false ->
  exists w', steps F w (map (fun e => Save F (fst e) (snd e)) (e :: l)) = Ok w' /\ s_fmt F w' = Pdf /\
    s_path F w' = s_path F w /\ s_open F w' = true /\
    s_disk F w' (s_path F w) = Some (map snd (e :: l)) /\
    forall q, q <> s_path F w -> s_disk F w' q = s_disk F w q.
Proof.
  intros [n x] l w M O. cbn [map steps step fst snd]. unfold savefig at 1. rewrite M, O. cbn [bind app].
  destruct (saves_open l {| s_fmt := Pdf; s_path := s_path F w; s_open := true;
                            s_disk := put F (s_disk F w) (s_path F w) [x] |} [x] eq_refl eq_refl)
    as (w' & R & A1 & A2 & A3 & A4 & A5).
  { cbn. apply put_same. }
  cbn in R, A2, A4, A5. exists w'. rewrite R. repeat split; auto.
  intros q Q. rewrite A5 by exact Q. now apply put_other.
Qed.

Lemma saves_dir : forall l w, s_fmt F w = Dir -> (forall n x, In (n, x) l -> n <> "") ->
  exists w', steps F w (map (fun e => Save F (Some (fst e)) (snd e)) l) = Ok w' /\
    s_fmt F w' = Dir /\ s_path F w' = s_path F w /\
    (forall q, (forall n x, In (n, x) l -> q <> os_join (s_path F w) n) -> s_disk F w' q = s_disk F w q) /\
    (forall l1 n x l2, l = (l1 ++ (n, x) :: l2)%list ->
       (forall m y, In (m, y) l2 -> os_join (s_path F w) m <> os_join (s_path F w) n) ->
       s_disk F w' (os_join (s_path F w) n) = Some [x]).
Proof.
  induction l as [|[n x] l IH]; intros w M H.
  - exists w. repeat split; auto. intros [|? ?]; discriminate.
  - cbn [map steps step fst snd]. unfold savefig at 1. rewrite M.
    assert (N : (n =? "") = false) by (apply String.eqb_neq, (H n x); now left). rewrite N. cbn [bind].
    destruct (IH {| s_fmt := Dir; s_path := s_path F w; s_open := s_open F w;
                    s_disk := put F (s_disk F w) (os_join (s_path F w) n) [x] |} eq_refl)
      as (w' & R & A1 & A2 & A3 & A4).
    { intros m y I. apply (H m y). now right. }
    cbn in R, A2, A3, A4. exists w'. rewrite R. repeat split; auto.
    + intros q Q. rewrite A3 by (intros m y I; apply (Q m y); now right). apply put_other.
      apply (Q n x). now left.
    + intros l1 m y l2 E K. destruct l1 as [|e l1]; cbn in E.
      * injection E as <- <- <-. rewrite A3; [apply put_same|]. intros m' y' I. intros X. now apply (K m' y' I).
      * injection E as _ E. now apply (A4 l1 m y l2).
Qed.
End Saves.
