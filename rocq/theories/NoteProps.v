(** C106-C107: notebooks made for products and the command that opens them. *)
From Coq Require Import Ascii String List Bool Arith Lia.
From Verif Require Import Common FsModel NoteModel NoteSpec NoteProofs.
Import ListNotations.
Open Scope string_scope.

(** * C106: the notebook names the product *)

(** For a path without quotes the line of the notebook is one JSON string, the
    code in it is the call with a text literal, and the literal denotes the
    path, whatever else is in the path. *)
Theorem C106_inspect_partial : forall p rest, all_chars no_quote p ->
  exists a, json_string (inspect_text inspect_line p ++ rest) = Some ("insp = inspect_l1b_product(" ++ a, rest) /\
    py_literal a = Some (p, ")").
Proof.
  intros p rest N. exists (py_repr p ++ ")"). split; [|apply py_repr_read].
  assert (E : inspect_text inspect_line p = "insp = inspect_l1b_product(" ++ inserted p ++ ")" ++ str dq) by reflexivity.
  assert (Q1 : has_char sq p = false).
  { destruct (has_char sq p) eqn:X; [|reflexivity]. apply N in X. discriminate. }
  assert (Q2 : has_char dq p = false).
  { destruct (has_char dq p) eqn:X; [|reflexivity]. apply N in X. discriminate. }
  rewrite E, inserted_is, napp_assoc, napp_assoc.
  change (json_string ("insp = inspect_l1b_product(" ++ smap dbl (py_repr p) ++ (")" ++ str dq) ++ rest))
    with (json_string (smap dbl "insp = inspect_l1b_product(" ++ smap dbl (py_repr p) ++ smap dbl ")" ++ str dq ++ rest)).
  rewrite json_text by (apply all_lit; reflexivity).
  rewrite json_text by now apply repr_visible.
  rewrite json_text by (apply all_lit; reflexivity). cbn [str append json_string prep].
  change (Ascii.eqb dq dquote) with true. cbn iota. cbn [prep]. reflexivity.
Qed.
Print Assumptions C106_inspect_partial.

(** False of the code: the notebook is valid for every path.  A quote in the
    path ends the string inside the path. *)
Theorem C106_quote_refuted : forall p rest, has_char "'" p = true \/ has_char dquote p = true ->
  exists d r, json_string (inspect_text inspect_line p ++ rest) = Some (d, r ++ ")" ++ str dquote ++ rest).
Proof.
  intros p rest H.
  assert (E : inspect_text inspect_line p = "insp = inspect_l1b_product(" ++ inserted p ++ ")" ++ str dq) by reflexivity.
  destruct (json_cut (py_repr p) (repr_shown p) (repr_quote p H)) as (d & r & J).
  exists ("insp = inspect_l1b_product(" ++ d), r. rewrite E, inserted_is, napp_assoc, napp_assoc.
  change (json_string ("insp = inspect_l1b_product(" ++ smap dbl (py_repr p) ++ (")" ++ str dq) ++ rest))
    with (json_string (smap dbl "insp = inspect_l1b_product(" ++ smap dbl (py_repr p) ++ ")" ++ str dq ++ rest)).
  rewrite json_text by (apply all_lit; reflexivity). rewrite J. reflexivity.
Qed.
Print Assumptions C106_quote_refuted.

(** The same for a comparison, if the first path does not contain the mark of
    the second. *)
Theorem C106_compare_partial : forall p1 p2 rest, all_chars no_quote p1 -> all_chars no_quote p2 ->
  (forall u v, p1 <> u ++ "__L1B_FILE_PATH_2__" ++ v) ->
  (exists a, json_string (compare_text compare_line1 p1 p2 ++ rest) = Some ("comp = compare_l1b_products(" ++ a, rest) /\
     py_literal a = Some (p1, "," ++ str (ascii_of_nat 10))) /\
  (exists a, json_string (compare_text compare_line2 p1 p2 ++ rest) = Some ("                            " ++ a, rest) /\
     py_literal a = Some (p2, ")")).
Proof.
  intros p1 p2 rest N1 N2 T.
  assert (Q : forall p, all_chars no_quote p -> has_char sq p = false /\ has_char dq p = false).
  { intros p N. split; [destruct (has_char sq p) eqn:X|destruct (has_char dq p) eqn:X]; try reflexivity;
      apply N in X; discriminate. }
  destruct (Q p1 N1) as (Q1 & Q2). destruct (Q p2 N2) as (Q3 & Q4). clear Q. split.
  - exists (py_repr p1 ++ "," ++ str (ascii_of_nat 10)). split; [|apply py_repr_read].
    unfold compare_text.
    assert (E : replace tok1 (inserted p1) compare_line1 =
                ("comp = compare_l1b_products(" ++ inserted p1) ++ "," ++ str bs ++ "n" ++ str dq) by reflexivity.
    rewrite E. clear E.
    set (z := "," ++ str bs ++ "n" ++ str dq).
    assert (E : replace tok2 (inserted p2) (("comp = compare_l1b_products(" ++ inserted p1) ++ z) =
                ("comp = compare_l1b_products(" ++ inserted p1) ++ z).
    { rewrite napp_assoc.
      change (replace tok2 (inserted p2) ("comp = compare_l1b_products(" ++ inserted p1 ++ z))
        with ("comp = compare_l1b_products(" ++ replace tok2 (inserted p2) (inserted p1 ++ z)).
      rewrite replace_skip; [reflexivity|].
      rewrite inserted_is. unfold py_repr, py_quote. rewrite Q1. cbn [andb].
      change (smap dbl (String sq (smap (py_esc sq) p1 ++ str sq)))
        with (str sq ++ smap dbl (smap (py_esc sq) p1 ++ str sq)).
      rewrite smap_app, smap_dbl_smap. change (smap dbl (str sq)) with (str sq).
      intros u v Ev Nv. destruct u as [|a u].
      - cbn [append] in Ev. rewrite <- Ev. reflexivity.
      - cbn [append str] in Ev. injection Ev as _ Ev.
        destruct (string_dec v (str sq)) as [->|Nq]; [reflexivity|].
        assert (G : exists v', v = v' ++ str sq /\ smap (einj sq) p1 = u ++ v').
        { revert u v Ev Nv Nq. clear. induction (smap (einj sq) p1) as [|c s IH]; intros u v Ev Nv Nq; cbn in Ev.
          - destruct u as [|b u]; cbn in Ev; [now elim Nq|].
            injection Ev as _ Ev. destruct u; [|discriminate]. destruct v; [now elim Nv|discriminate].
          - destruct u as [|b u]; cbn in Ev.
            + exists (String c s). now rewrite <- Ev.
            + injection Ev as <- Ev. destruct (IH _ _ Ev Nv Nq) as (v' & -> & ->). now exists v'. }
        destruct G as (v' & -> & Ep). rewrite napp_assoc. cbn [str append].
        apply (no_token sq p1 sq z tok2 (or_introl eq_refl) eq_refl) with (u := u).
        + intros c X. assert (Y : all_chars word_char tok2) by (apply all_lit; reflexivity). now apply Y.
        + reflexivity.
        + exact T.
        + exact Ep.
        + intros ->. now apply Nq. }
    rewrite E. clear E. rewrite inserted_is, !napp_assoc.
    change (json_string ("comp = compare_l1b_products(" ++ smap dbl (py_repr p1) ++ z ++ rest))
      with (json_string (smap dbl "comp = compare_l1b_products(" ++ smap dbl (py_repr p1) ++
              String "," (String bs (String "n" (String dq rest))))).
    rewrite json_text by (apply all_lit; reflexivity).
    rewrite json_text by now apply repr_visible. reflexivity.
  - exists (py_repr p2 ++ ")"). split; [|apply py_repr_read].
    assert (E : compare_text compare_line2 p1 p2 = "                            " ++ inserted p2 ++ ")" ++ str dq) by reflexivity.
    rewrite E, inserted_is, !napp_assoc.
    change (json_string ("                            " ++ smap dbl (py_repr p2) ++ ")" ++ str dq ++ rest))
      with (json_string (smap dbl "                            " ++ smap dbl (py_repr p2) ++ smap dbl ")" ++ str dq ++ rest)).
    rewrite json_text by (apply all_lit; reflexivity).
    rewrite json_text by now apply repr_visible.
    rewrite json_text by (apply all_lit; reflexivity). cbn [str append json_string prep].
    change (Ascii.eqb dq dquote) with true. cbn iota. cbn [prep]. reflexivity.
Qed.
Print Assumptions C106_compare_partial.

(** False of the code without that condition: the second path is also put into
    the first. *)
Theorem C106_mark_refuted : exists p1 p2 a r, all_chars no_quote p1 /\ all_chars no_quote p2 /\
  json_string (compare_text compare_line1 p1 p2) = Some ("comp = compare_l1b_products(" ++ a, "") /\
  py_literal a = Some (r, "b.nc'.nc'," ++ str (ascii_of_nat 10)) /\ r <> p1.
Proof.
  exists "__L1B_FILE_PATH_2__.nc", "b.nc".
  eexists. eexists. split; [apply all_lit; reflexivity|]. split; [apply all_lit; reflexivity|].
  split; [reflexivity|]. split; [reflexivity|]. discriminate.
Qed.
Print Assumptions C106_mark_refuted.

Example C106_example :
  inspect_text inspect_line "C:\data\new.nc" = "insp = inspect_l1b_product('C:\\\\data\\\\new.nc')" ++ str dq /\
  py_repr "C:\data\new.nc" = "'C:\\data\\new.nc'" /\
  all_chars no_quote "C:\data\new.nc" /\
  has_char "'" "it's.nc" = true.
Proof. split; [reflexivity|]. split; [reflexivity|]. split; [apply all_lit|]; reflexivity. Qed.

(** * C107: the command that opens a notebook *)

(** Without a terminal: if directory and path have none of quote, backslash,
    dollar, backquote and braces, the command runs the notebook server with
    exactly these two arguments. *)
Theorem C107_direct_partial : forall prefix title dir p,
  all_chars sh_plain prefix -> all_chars calm dir -> all_chars calm p ->
  all_chars no_brace dir -> all_chars no_brace p ->
  exists c, launch_command NoTerminal prefix title dir (Some p) = Some c /\
    sh_words c = Some [prefix ++ "/bin/jupyter"; "notebook"; "--notebook-dir"; dir; p].
Proof.
  intros prefix title dir p P D C B1 B2.
  exists (notebook_command_with_prefix prefix dir (Some p)). split; [|now apply command_words].
  unfold launch_command, launch_template.
  set (k := notebook_command_with_prefix prefix dir (Some p)). set (f := fun _ => _).
  assert (Bp : all_chars no_brace prefix).
  { intros c X. apply P in X. destruct c as [[] [] [] [] [] [] [] []]; try discriminate X; reflexivity. }
  assert (Bk : all_chars no_brace k).
  { unfold k, notebook_command_with_prefix, notebook_command, quoted.
    repeat (apply all_app; split); auto; apply all_lit; reflexivity. }
  rewrite <- (napp_nil k) at 1. rewrite format_plain by exact Bk. cbn. now rewrite napp_nil.
Qed.
Print Assumptions C107_direct_partial.

(** In a terminal: the terminal gets the title and the command as one word
    each, and the command read as such has the two arguments, if in addition
    there are no single quotes; braces do no harm here. *)
Theorem C107_xterm_partial : forall prefix title dir p,
  all_chars sh_plain prefix -> all_chars calm title -> all_chars calm dir -> all_chars calm p ->
  all_chars no_single dir -> all_chars no_single p ->
  exists c k, launch_command Xterm prefix title dir (Some p) = Some c /\
    sh_words c = Some ["xterm"; "-T"; "DeDop - " ++ title; "-e"; k] /\
    sh_words k = Some [prefix ++ "/bin/jupyter"; "notebook"; "--notebook-dir"; dir; p].
Proof.
  intros prefix title dir p P T D C S1 S2.
  set (k := notebook_command_with_prefix prefix dir (Some p)).
  exists ("xterm  -T " ++ quoted ("DeDop - " ++ title) ++ " -e '" ++ k ++ "'"), k.
  split; [|split; [|now apply command_words]].
  - unfold launch_command, launch_template, quoted. cbn. unfold quoted. cbn. rewrite !napp_assoc. reflexivity.
  - assert (Sp : all_chars no_single prefix).
    { intros c X. apply P in X. destruct c as [[] [] [] [] [] [] [] []]; try discriminate X; reflexivity. }
    assert (Sk : all_chars no_single k).
    { unfold k, notebook_command_with_prefix, notebook_command, quoted.
      repeat (apply all_app; split); auto; apply all_lit; reflexivity. }
    clearbody k. unfold sh_words.
    change ("xterm  -T " ++ quoted ("DeDop - " ++ title) ++ " -e '" ++ k ++ "'")
      with ("xterm" ++ String " " (String " " ("-T" ++ String " " (quoted ("DeDop - " ++ title) ++
             String " " ("-e" ++ String " " (String squote (k ++ "'"))))))).
    rewrite sh_bare by (try discriminate; apply all_lit; reflexivity).
    rewrite !sh_space. rewrite sh_bare by (try discriminate; apply all_lit; reflexivity).
    rewrite sh_space. rewrite sh_quoted by (apply all_app; split; [apply all_lit; reflexivity|exact T]).
    rewrite sh_space. rewrite sh_bare by (try discriminate; apply all_lit; reflexivity).
    rewrite sh_space. cbn [sh_read]. change (Ascii.eqb squote " ") with false. change (Ascii.eqb squote dquote) with false.
    rewrite Ascii.eqb_refl. rewrite sh_single by exact Sk. reflexivity.
Qed.
Print Assumptions C107_xterm_partial.

Theorem C107_gnome_partial : forall prefix title dir p,
  all_chars sh_plain prefix -> all_chars calm dir -> all_chars calm p ->
  all_chars no_single dir -> all_chars no_single p ->
  exists c k, launch_command Gnome prefix title dir (Some p) = Some c /\
    sh_words c = Some ["gnome-terminal"; "-e"; k] /\
    sh_words k = Some [prefix ++ "/bin/jupyter"; "notebook"; "--notebook-dir"; dir; p].
Proof.
  intros prefix title dir p P D C S1 S2.
  set (k := notebook_command_with_prefix prefix dir (Some p)).
  exists ("gnome-terminal -e '" ++ k ++ "'"), k.
  split; [|split; [|now apply command_words]].
  - unfold launch_command, launch_template. cbn. reflexivity.
  - assert (Sp : all_chars no_single prefix).
    { intros c X. apply P in X. destruct c as [[] [] [] [] [] [] [] []]; try discriminate X; reflexivity. }
    assert (Sk : all_chars no_single k).
    { unfold k, notebook_command_with_prefix, notebook_command, quoted.
      repeat (apply all_app; split); auto; apply all_lit; reflexivity. }
    clearbody k. unfold sh_words.
    change ("gnome-terminal -e '" ++ k ++ "'")
      with ("gnome-terminal" ++ String " " ("-e" ++ String " " (String squote (k ++ "'")))).
    rewrite sh_bare by (try discriminate; apply all_lit; reflexivity).
    rewrite sh_space. rewrite sh_bare by (try discriminate; apply all_lit; reflexivity).
    rewrite sh_space. cbn [sh_read]. change (Ascii.eqb squote " ") with false. change (Ascii.eqb squote dquote) with false.
    rewrite Ascii.eqb_refl. rewrite sh_single by exact Sk. reflexivity.
Qed.
Print Assumptions C107_gnome_partial.

(** False of the code: every notebook can be opened.  Names are put between
    quotes as they are.  A double quote splits the argument; a single quote
    leaves the text for a terminal without end; a dollar is left to the shell;
    and without a terminal, braces in a name are read as fields, which is an
    exception that nothing catches. *)
Theorem C107_names_refuted :
  (exists c, launch_command NoTerminal "/usr" "t" "/w" (Some ("a" ++ str dquote ++ " " ++ str dquote ++ "b")) = Some c /\
     sh_words c = Some ["/usr/bin/jupyter"; "notebook"; "--notebook-dir"; "/w"; "a"; "b"]) /\
  (exists c, launch_command Xterm "/usr" "t" "/w" (Some "it's.ipynb") = Some c /\ sh_words c = None) /\
  (exists c, launch_command NoTerminal "/usr" "t" "/w" (Some "a$b.ipynb") = Some c /\ sh_words c = None) /\
  launch_command NoTerminal "/usr" "t" "/w" (Some "a{b}.ipynb") = None /\
  launch_command NoTerminal "/usr" "t" "/w" (Some "a{.ipynb") = None.
Proof. repeat split; try (eexists; split; reflexivity). Qed.
Print Assumptions C107_names_refuted.

(** Without a terminal the braces of a name have to be doubled: then the name
    itself is in the command.  So a name with doubled braces opens another file. *)
Fixpoint doubled (s : string) : string :=
  match s with
  | EmptyString => ""
  | String c r => if no_brace c then String c (doubled r) else String c (String c (doubled r))
  end.
Lemma format_doubled : forall field s, format_from field None (doubled s) = Some s.
Proof.
  intros field. induction s as [|c s IH]; [reflexivity|]. cbn [doubled]. unfold no_brace.
  destruct (Ascii.eqb c "{") eqn:E1; [|destruct (Ascii.eqb c "}") eqn:E2]; cbn [orb negb].
  - apply Ascii.eqb_eq in E1. subst c. cbn [format_from]. unfold lbrace. change (ascii_of_nat 123) with "{"%char. rewrite Ascii.eqb_refl, IH. reflexivity.
  - apply Ascii.eqb_eq in E2. subst c. cbn [format_from]. unfold lbrace, rbrace. change (ascii_of_nat 123) with "{"%char. change (ascii_of_nat 125) with "}"%char.
    change (Ascii.eqb "}" "{") with false. rewrite Ascii.eqb_refl, IH. reflexivity.
  - cbn [format_from]. unfold lbrace, rbrace. change (ascii_of_nat 123) with "{"%char. change (ascii_of_nat 125) with "}"%char. rewrite E1, E2, IH. reflexivity.
Qed.
Lemma doubled_app : forall a b, doubled (a ++ b) = doubled a ++ doubled b.
Proof. induction a as [|c a IH]; intros b; [reflexivity|]. cbn [append doubled]. rewrite IH. destruct (no_brace c); reflexivity. Qed.
Lemma doubled_plain : forall s, all_chars no_brace s -> doubled s = s.
Proof.
  induction s as [|c s IH]; intros H; [reflexivity|]. cbn [doubled].
  assert (Cc : no_brace c = true) by (apply H; cbn [has_char]; now rewrite Ascii.eqb_refl).
  rewrite Cc, IH; [reflexivity|]. intros e X. apply H. cbn [has_char]. now rewrite X, orb_true_r.
Qed.
Theorem C107_doubled : forall prefix title dir p, all_chars no_brace prefix ->
  launch_command NoTerminal prefix title (doubled dir) (Some (doubled p)) =
  Some (prefix ++ "/bin/jupyter notebook --notebook-dir " ++ quoted dir ++ " " ++ quoted p).
Proof.
  intros prefix title dir p H. unfold launch_command, launch_template, notebook_command_with_prefix, notebook_command.
  match goal with |- format_from ?f None _ = Some ?s => rewrite <- (format_doubled f s) end. f_equal. rewrite !doubled_app, (doubled_plain prefix H).
  unfold quoted. rewrite !doubled_app. reflexivity.
Qed.
Print Assumptions C107_doubled.
Example C107_doubled_example :
  launch_command NoTerminal "/usr" "t" "/w" (Some "a{{b}}.ipynb") =
  Some ("/usr/bin/jupyter notebook --notebook-dir " ++ quoted "/w" ++ " " ++ quoted "a{b}.ipynb").
Proof. reflexivity. Qed.

Example C107_example :
  launch_command NoTerminal "/usr" "inspect" "/home/u/my files" (Some "/home/u/my files/x-1.ipynb") =
    Some ("/usr/bin/jupyter notebook --notebook-dir " ++ quoted "/home/u/my files" ++ " " ++ quoted "/home/u/my files/x-1.ipynb") /\
  all_chars calm "/home/u/my files" /\ all_chars no_brace "/home/u/my files" /\ all_chars no_single "/home/u/my files" /\
  all_chars sh_plain "/usr".
Proof. split; [reflexivity|]. repeat split; apply all_lit; reflexivity. Qed.
