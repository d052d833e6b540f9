(** C104-C105: where figures are written. *)
From Coq Require Import Ascii String List Bool Arith Lia.
From Verif Require Import Common FsModel FsProofs NameProofs FigModel FigSpec FigProofs.
Import ListNotations.
Open Scope string_scope.
Local Arguments Ascii.eqb : simpl never.

(** * C104: the format and the path *)

(** Figures go to a directory exactly if that format is given, in any case, or
    none is given and the path has no extension, or the extension is the word
    itself; the directory is the path given. *)
Theorem C104_directory : forall p f name root ext q, p <> "" -> last_component p name -> extension name root ext ->
  (fwriter p f = Ok (Dir, q) <->
   q = p /\ (given f dir_word \/
             not_given f /\ (ext = "" \/ ext = "." \/ exists b, ext = String "."%char b /\ dir_word b))).
Proof.
  intros p f name root ext q P L X. rewrite (fwriter_cases p f name root ext P L X).
  assert (G : forall s, (if s =? "pdf" then
      if root =? "" then Err ENoBase
      else if ext =? "" then Ok (Pdf, os_join (dirname p) (root ++ ".pdf"))
      else if (ext =? ".pdf") || (ext =? ".PDF") then Ok (Pdf, os_join (dirname p) (root ++ ext))
      else Err EExtension
    else if s =? "dir" then Ok (Dir, p) else Err EFormat) = Ok (Dir, q) <-> q = p /\ s = "dir").
  { intros s. destruct (String.eqb_spec s "pdf") as [->|A].
    - split; [|now intros (_ & Z)].
      destruct (root =? ""); [discriminate|]. destruct (ext =? ""); [discriminate|].
      destruct ((ext =? ".pdf") || (ext =? ".PDF")); discriminate.
    - destruct (String.eqb_spec s "dir") as [->|B].
      + split; [intros E; injection E as <-; now split|now intros (-> & _)].
      + split; [discriminate|]. intros (_ & Z). contradiction. }
  rewrite G. clear G.
  destruct (wanted_cases p f name root ext L X) as [(x & -> & Hx & ->)|(N & W)].
  - rewrite lower_dir. split; intros (-> & H); (split; [reflexivity|]).
    + left. now exists x.
    + destruct H as [(y & E & _ & D)|([?|E] & _)]; [now injection E as <-|discriminate|]. injection E as ->. now elim Hx.
  - assert (NG : ~ given f dir_word).
    { intros (x & -> & Hx & _). destruct N as [N|N]; [discriminate|]. injection N as ->. now apply Hx. }
    destruct W as [(E & ->)|(b & Hb & E & ->)].
    + split; intros (-> & _); (split; [reflexivity|]); [|reflexivity]. right. split; [exact N|]. tauto.
    + rewrite lower_dir. split; intros (-> & H); (split; [reflexivity|]).
      * right. split; [exact N|]. right. right. now exists b.
      * destruct H as [H|(_ & [H|[H|(b' & H & D)]])]; [contradiction|subst; discriminate| |].
        -- rewrite E in H. injection H as ->. now elim Hb.
        -- rewrite E in H. injection H as ->. exact D.
Qed.
Print Assumptions C104_directory.

(** Figures go to one file exactly if that format is given, in any case, and
    the name has no extension or [.pdf] or [.PDF], or none is given and the
    extension is one of these. *)
Theorem C104_file : forall p f name root ext, p <> "" -> last_component p name -> extension name root ext ->
  ((exists q, fwriter p f = Ok (Pdf, q)) <->
   root <> "" /\ (given f pdf_word /\ (ext = "" \/ ext = ".pdf" \/ ext = ".PDF") \/
                  not_given f /\ (ext = ".pdf" \/ ext = ".PDF"))).
Proof.
  intros p f name root ext P L X. rewrite (fwriter_cases p f name root ext P L X).
  assert (G : forall s, (exists q, (if s =? "pdf" then
      if root =? "" then Err ENoBase
      else if ext =? "" then Ok (Pdf, os_join (dirname p) (root ++ ".pdf"))
      else if (ext =? ".pdf") || (ext =? ".PDF") then Ok (Pdf, os_join (dirname p) (root ++ ext))
      else Err EExtension
    else if s =? "dir" then Ok (Dir, p) else Err EFormat) = Ok (Pdf, q)) <->
    root <> "" /\ s = "pdf" /\ (ext = "" \/ ext = ".pdf" \/ ext = ".PDF")).
  { intros s. destruct (String.eqb_spec s "pdf") as [->|A].
    - destruct (String.eqb_spec root "") as [Z|Z]; [split; [intros (q & E); discriminate|intros (H & _); contradiction]|].
      destruct (String.eqb_spec ext "") as [Y|Y]; [split; [intros _; tauto|intros _; eexists; reflexivity]|].
      destruct (String.eqb_spec ext ".pdf") as [Y1|Y1]; cbn [orb];
        [split; [intros _; tauto|intros _; eexists; reflexivity]|].
      destruct (String.eqb_spec ext ".PDF") as [Y2|Y2];
        [split; [intros _; tauto|intros _; eexists; reflexivity]|].
      split; [intros (q & E); discriminate|tauto].
    - split; [|tauto]. destruct (s =? "dir"); intros (q & E); discriminate. }
  rewrite G. clear G.
  destruct (wanted_cases p f name root ext L X) as [(x & -> & Hx & ->)|(N & W)].
  - rewrite lower_pdf. split.
    + intros (R & D & E). split; [exact R|]. left. split; [now exists x|exact E].
    + intros (R & [((y & E & _ & D) & E')|([E|E] & _)]); [|discriminate|injection E as ->; now elim Hx].
      injection E as <-. now repeat split.
  - assert (NG : ~ given f pdf_word).
    { intros (x & -> & Hx & _). destruct N as [N|N]; [discriminate|]. injection N as ->. now apply Hx. }
    destruct W as [(E & ->)|(b & Hb & E & ->)].
    + split; [intros (_ & D & _); discriminate|]. intros (_ & [(H & _)|(_ & [H|H])]); [contradiction| |];
        subst; destruct E as [E|E]; discriminate.
    + rewrite lower_pdf. split.
      * intros (R & D & [H|H]); [subst; discriminate|]. split; [exact R|]. right. now split.
      * intros (R & [(H & _)|(_ & H)]); [contradiction|]. split; [exact R|].
        split; [|now right]. unfold pdf_word. destruct H as [H|H]; rewrite H in E; injection E as <-; cbn; tauto.
Qed.
Print Assumptions C104_file.

(** The file written is the one named, or, without extension, that with
    [.pdf] added, whatever the directory the path is read from. *)
Theorem C104_path : forall p f name root ext q, last_component p name -> extension name root ext ->
  fwriter p f = Ok (Pdf, q) ->
  same_path q (if ext =? "" then p ++ ".pdf" else p).
Proof.
  intros p f name root ext q L X E.
  destruct (String.eqb_spec p "") as [->|P]; [discriminate|].
  rewrite (fwriter_cases p f name root ext P L X) in E.
  destruct (wanted_format p f =? "pdf"); [|destruct (wanted_format p f =? "dir"); discriminate].
  destruct (String.eqb_spec root "") as [R|R]; [discriminate|].
  pose proof (component_is _ _ L) as B. unfold basename in B.
  pose proof (split_last_spec p) as S. destruct (split_last p) as [h t] eqn:Sp. cbn in B. subst t.
  destruct (S _ _ eq_refl) as (Ep & N & _). clear S.
  assert (J : forall x, x <> "" -> has_char slash x = false -> same_path (os_join (dirname p) x) (h ++ x)).
  { intros x H1 H2. replace h with (fst (split_last p)) by now rewrite Sp. now apply os_join_dirname. }
  destruct (String.eqb_spec ext "") as [Y|Y].
  - injection E as <-. destruct X as [(_ & _ & b & Z & _)|(Er & _ & _)]; [subst; discriminate|]. subst root.
    rewrite Ep, sapp_assoc. rewrite Ep in J. apply J.
    + destruct name; discriminate.
    + rewrite has_char_app, N. reflexivity.
  - assert (Er : name = root ++ ext) by (destruct X as [(Z & _)|(_ & Z & _)]; [exact Z|contradiction]).
    destruct ((ext =? ".pdf") || (ext =? ".PDF")); [|discriminate]. injection E as <-.
    rewrite <- Er. rewrite Ep at 2. apply J; [|exact N]. rewrite Er. destruct root; [now elim R|discriminate].
Qed.
Print Assumptions C104_path.

(** An empty path is refused; every path has one last component with one
    extension, so the cases above are all. *)
Theorem C104_total : forall p f,
  (p = "" -> fwriter p f = Err ENoPath) /\
  exists name root ext, last_component p name /\ extension name root ext /\
    forall name' root' ext', last_component p name' -> extension name' root' ext' ->
      name' = name /\ root' = root /\ ext' = ext.
Proof.
  intros p f. split; [now intros ->|].
  destruct (splitext (basename p)) as [r e] eqn:S. exists (basename p), r, e.
  split; [apply component_of|]. apply splitext_spec in S. split; [exact S|].
  intros n' r' e' L X. rewrite (component_is _ _ L) in S.
  destruct (extension_unique _ _ _ _ _ X S) as (-> & ->). now rewrite (component_is _ _ L).
Qed.
Print Assumptions C104_total.

(** False of the code: a path whose format is guessed is accepted if the
    extension names a known format.  The guess ignores case, the check after it
    does not; and any directory with a dot in its name is taken for a file. *)
Theorem C104_guess_refuted :
  fwriter "x.Pdf" None = Err EExtension /\
  fwriter "out/run.1" None = Err EFormat /\
  forall p f name root ext b, p <> "" -> not_given f -> last_component p name -> extension name root ext ->
    ext = String "."%char b -> b <> "" -> ~ dir_word b -> ~ pdf_word b -> fwriter p f = Err EFormat.
Proof.
  split; [reflexivity|]. split; [reflexivity|]. intros p f name root ext b P N L X E B D1 D2.
  rewrite (fwriter_cases p f name root ext P L X).
  destruct (wanted_cases p f name root ext L X) as [(x & -> & Hx & _)|(_ & [([H|H] & _)|(b' & Hb & E' & ->)])].
  - destruct N as [N|N]; [discriminate|]. injection N as ->. now elim Hx.
  - subst. discriminate.
  - rewrite E in H. injection H as ->. now elim B.
  - rewrite E in E'. injection E' as <-.
    destruct (String.eqb_spec (lower b) "pdf") as [H|H]; [now apply lower_pdf in H|].
    destruct (String.eqb_spec (lower b) "dir") as [H'|H']; [now apply lower_dir in H'|reflexivity].
Qed.
Print Assumptions C104_guess_refuted.

(** Lower case, as the format and the extension are read. *)
Theorem C104_lower :
  lower "ABCDEFGHIJKLMNOPQRSTUVWXYZ" = "abcdefghijklmnopqrstuvwxyz" /\
  forall c, ~ In c (list_ascii_of_string "ABCDEFGHIJKLMNOPQRSTUVWXYZ") -> lower_char c = c.
Proof.
  split; [reflexivity|]. intro c. destruct c as [[] [] [] [] [] [] [] []]; vm_compute; try reflexivity; intro H; elim H; tauto.
Qed.
Print Assumptions C104_lower.

Example C104_example :
  fwriter "out//plots.pdf" None = Ok (Pdf, "out/plots.pdf") /\
  fwriter "plots" (Some "PDF") = Ok (Pdf, "plots.pdf") /\
  fwriter "out/plots" None = Ok (Dir, "out/plots") /\
  fwriter ".pdf" None = Ok (Dir, ".pdf") /\
  fwriter "out/" (Some "pdf") = Err ENoBase /\
  fwriter "a.png" (Some "pdf") = Err EExtension /\
  fwriter "a.png" (Some "png") = Err EFormat /\
  extension "plots.tar.gz" "plots.tar" ".gz" /\ extension "..x" "..x" "".
Proof.
  repeat (split; [reflexivity|]). split; apply splitext_spec; reflexivity.
Qed.

(** * C105: what is in the files *)

(** A new writer of one file: the figures saved until the first closing are its
    pages, in order; closing once or more often changes no file, and no other
    file is touched. *)
Theorem C105_pages_partial : forall F p (d : disk F) e l, exists w,
  steps F (new_writer F Pdf p d) (map (fun e => Save F (fst e) (snd e)) (e :: l)) = Ok w /\
  s_disk F w p = Some (map snd (e :: l)) /\
  (forall q, q <> p -> s_disk F w q = d q) /\
  forall k, exists w', steps F w (repeat (Close F) k) = Ok w' /\ forall q, s_disk F w' q = s_disk F w q.
Proof.
  intros F p d e l.
  destruct (saves_new F e l (new_writer F Pdf p d) eq_refl eq_refl) as (w & R & A1 & A2 & A3 & A4 & A5).
  exists w. split; [exact R|]. split; [exact A4|]. split; [exact A5|]. clear.
  intros k. revert w. induction k as [|k IH]; intros w; [now exists w|].
  cbn [repeat steps step bind]. destruct (IH (close F w)) as (w' & R & D). exists w'. now split.
Qed.
Print Assumptions C105_pages_partial.

(** False of the code: figures saved after closing are added to the file.  The
    file is started again, and the earlier figures are lost; closing one of
    the two inspectors of a comparator is enough. *)
Theorem C105_reopened_refuted : forall F p (d : disk F) e l e' l', exists w,
  steps F (new_writer F Pdf p d)
    (map (fun e => Save F (fst e) (snd e)) (e :: l) ++ [Close F] ++ map (fun e => Save F (fst e) (snd e)) (e' :: l')) = Ok w /\
  s_disk F w p = Some (map snd (e' :: l')).
Proof.
  intros F p d e l e' l'.
  destruct (saves_new F e l (new_writer F Pdf p d) eq_refl eq_refl) as (w & R & A1 & A2 & A3 & A4 & A5).
  destruct (saves_new F e' l' (close F w)) as (w' & R' & _ & _ & _ & A4' & _); [exact A1|reflexivity|].
  exists w'. rewrite steps_app, R. cbn [bind]. rewrite steps_app. cbn [steps step bind]. split; [exact R'|].
  cbn in A2. cbn [close s_path] in A4'. rewrite A2 in A4'. exact A4'.
Qed.
Print Assumptions C105_reopened_refuted.

(** A new writer of a directory: figures saved under distinct plain names are
    each in a file of that name in the directory; no other file is touched. *)
Theorem C105_directory_partial : forall F p (d : disk F) l, p <> "" -> (forall b, p <> b ++ "/") ->
  NoDup (map fst l) -> (forall n x, In (n, x) l -> plain n = true) ->
  exists w, steps F (new_writer F Dir p d) (map (fun e => Save F (Some (fst e)) (snd e)) l) = Ok w /\
    (forall n x, In (n, x) l -> s_disk F w (p ++ "/" ++ n) = Some [x]) /\
    (forall q, (forall n x, In (n, x) l -> q <> p ++ "/" ++ n) -> s_disk F w q = d q).
Proof.
  intros F p d l P1 P2 Nd H.
  assert (J : forall n, plain n = true -> os_join p n = p ++ "/" ++ n).
  { intros n Hn. unfold plain in Hn. rewrite !andb_true_iff, !negb_true_iff in Hn.
    destruct Hn as (((H1 & H2) & _) & _). apply String.eqb_neq in H2. rewrite os_join_plain by assumption.
    destruct (rstrip_spec p) as (z & E & Z & R).
    assert (ends_slash p = false) as ->.
    { destruct z as [|c z].
      - rewrite sapp_nil in E. rewrite <- E in R. destruct R as [R|(a & c & R & D)]; [contradiction|].
        rewrite R. now apply ends_slash_other.
      - exfalso.
        assert (L : forall z c, (forall x, has_char x (String c z) = true -> x = slash) ->
                  exists b, String c z = b ++ "/").
        { clear. induction z as [|c' z IH]; intros c Z.
          - exists "". cbn. f_equal. apply Z. cbn. now rewrite Ascii.eqb_refl.
          - destruct (IH c') as (b & E); [intros x I; apply Z; cbn in I |- *; rewrite I; now rewrite orb_true_r|].
            exists (String c b). rewrite E. reflexivity. }
        destruct (L z c Z) as (b & Eb). apply (P2 (rstrip p ++ b)). rewrite sapp_assoc, <- Eb. exact E. }
    apply String.eqb_neq in P1. now rewrite P1. }
  destruct (saves_dir F l (new_writer F Dir p d) eq_refl) as (w & R & _ & _ & A3 & A4).
  { intros n x I ->. apply H in I. discriminate. }
  cbn [new_writer s_path s_disk] in A3, A4. exists w. split; [exact R|]. split.
  - intros n x I. pose proof (H n x I) as Hn. destruct (in_split _ _ I) as (l1 & l2 & E).
    rewrite <- (J n Hn). apply (A4 l1 n x l2 E). intros m y Im X.
    assert (Hm : plain m = true) by (apply (H m y); rewrite E; apply in_or_app; right; now right).
    rewrite (J n Hn), (J m Hm) in X.
    assert (m = n) as ->.
    { clear - X. revert X. induction p; cbn; intros X; [now injection X|]. apply IHp. now injection X. }
    rewrite E, map_app in Nd. cbn in Nd. apply NoDup_remove_2 in Nd. apply Nd. apply in_or_app. right.
    change n with (fst (n, y)). now apply in_map.
  - intros q Q. apply A3. intros n x I. rewrite (J n (H n x I)). now apply (Q n x).
Qed.
Print Assumptions C105_directory_partial.

(** False of the code: every figure saved to a directory is there at the end.
    Names are fixed by the kind of plot, so the second of two equal ones
    replaces the first, in particular those of a comparator's two products. *)
Theorem C105_same_name_refuted : forall F p (d : disk F) n x1 x2, n <> "" -> exists w,
  steps F (new_writer F Dir p d) [Save F (Some n) x1; Save F (Some n) x2] = Ok w /\
  s_disk F w (os_join p n) = Some [x2] /\ (x1 <> x2 -> (forall q, d q <> Some [x1]) -> forall q, s_disk F w q <> Some [x1]).
Proof.
  intros F p d n x1 x2 N.
  apply String.eqb_neq in N. cbn [steps step new_writer]. unfold savefig. cbn [s_fmt]. rewrite N. cbn [bind s_path s_disk s_open s_fmt new_writer].
  eexists. split; [reflexivity|]. cbn [s_disk]. split; [apply put_same|].
  intros D H q. unfold put. cbn [new_writer s_path s_disk]. destruct (q =? os_join p n); [intros Z; injection Z as Z; now apply D|apply H].
Qed.
Print Assumptions C105_same_name_refuted.

(** A directory needs a name for each figure. *)
Theorem C105_needs_name : forall F p (d : disk F) x n, n = None \/ n = Some "" ->
  steps F (new_writer F Dir p d) [Save F n x] = Err ENoName.
Proof. now intros F p d x n [->| ->]. Qed.
Print Assumptions C105_needs_name.

Definition read {F} (r : res ferr (wstate F)) (q : string) : option (list F) :=
  match r with Ok w => s_disk F w q | Err _ => None end.

Example C105_example : 
  let pdf := new_writer nat Pdf "p.pdf" (fun _ => None) in
  let dir := new_writer nat Dir "out" (fun _ => None) in
  read (steps nat pdf ([Save nat None 1; Save nat None 2] ++ comparator_close nat)%list) "p.pdf" = Some [1; 2]%nat /\
  read (steps nat pdf [Save nat None 1; Close nat; Save nat None 2]) "p.pdf" = Some [2]%nat /\
  read (steps nat dir [Save nat (Some "a.png") 1; Save nat (Some "b.png") 2]) "out/a.png" = Some [1]%nat.
Proof. repeat split. Qed.
