(** Property C131, continued: what is refused, and what counts as a word. *)
From Coq Require Import String Ascii List Arith Bool Lia.
From Verif Require Import Common FsModel WsModel WsSpec CliModel CliSpec ArgModel ArgStep ArgSpec ArgProofs ArgProps.
Import ListNotations.
Open Scope string_scope.
Open Scope list_scope.

(** A decimal number without an exponent: digits, or a point followed by at
    least one digit and preceded by any. *)
Definition figure (c : ascii) : Prop := In c ["0"; "1"; "2"; "3"; "4"; "5"; "6"; "7"; "8"; "9"]%char.
Fixpoint figures (s : string) : Prop := match s with "" => True | String c r => figure c /\ figures r end.
Definition decimal (s : string) : Prop :=
  (s <> "" /\ figures s) \/ exists a b, s = (a ++ String "." b)%string /\ figures a /\ b <> "" /\ figures b.

Lemma digit_figure : forall c, digit c = true <-> figure c.
Proof.
  intro c. unfold figure. split.
  - destruct c as [[] [] [] [] [] [] [] []]; vm_compute; intro H; try discriminate H; tauto.
  - intro H. cbn [In] in H. repeat (destruct H as [<-|H]; [reflexivity|]). destruct H.
Qed.
Lemma digits_figures : forall s, digits s = true <-> figures s.
Proof. induction s as [|c s IH]; cbn [digits figures]; [split; auto|]. rewrite andb_true_iff, digit_figure, IH. tauto. Qed.
Lemma number_decimal : forall s, number s = true <-> decimal s.
Proof.
  unfold decimal. induction s as [|c s IH].
  - cbn. split; [discriminate|]. intros [[H _]|(a & b & H & _)]; [congruence|]. destruct a; discriminate.
  - cbn [number]. destruct (Ascii.eqb_spec c "."%char) as [->|N].
    + rewrite andb_true_iff, digits_figures, negb_true_iff, String.eqb_neq. split.
      * intros [A B]. right. exists "", s. repeat split; assumption.
      * intros [[_ [F _]]|(a & b & E & Fa & Nb & Fb)].
        -- apply digit_figure in F. discriminate F.
        -- destruct a as [|x a]; cbn in E; [injection E as E; now subst|]. injection E as E2 E1. subst x.
           destruct Fa as [F _]. apply digit_figure in F. discriminate F.
    + rewrite andb_true_iff, orb_true_iff, digit_figure, String.eqb_eq, IH. split.
      * intros [F [->|[[Ns Fs]|(a & b & -> & Fa & Nb & Fb)]]].
        -- left. split; [discriminate|split; [exact F|exact I]].
        -- left. split; [discriminate|split; assumption].
        -- right. exists (String c a), b. repeat split; assumption.
      * intros [[_ [F Fs]]|(a & b & E & Fa & Nb & Fb)].
        -- split; [exact F|]. destruct s as [|d t]; [now left|]. right. left. split; [discriminate|exact Fs].
        -- destruct a as [|x a]; cbn in E; injection E as E2 E1; [congruence|]. subst x s.
           destruct Fa as [F Fa]. split; [exact F|]. right. right. exists a, b. repeat split; assumption.
Qed.

(** No option of the parsers looks like a number. *)
Lemma no_number_option : forall P, In P parsers -> forall c, digit c = true \/ c = "."%char -> find (short_is c) (opts_of P) = None.
Proof.
  intros P H c D.
  assert (G : forallb (fun P => forallb (fun c => match find (short_is c) (opts_of P) with None => true | _ => false end)
    ["0"; "1"; "2"; "3"; "4"; "5"; "6"; "7"; "8"; "9"; "."]%char) parsers = true) by (vm_compute; reflexivity).
  rewrite forallb_forall in G. specialize (G P H). rewrite forallb_forall in G.
  assert (I : In c ["0"; "1"; "2"; "3"; "4"; "5"; "6"; "7"; "8"; "9"; "."]%char).
  { destruct D as [D| ->]; [|cbn; tauto]. apply digit_figure in D. unfold figure in D. cbn [In] in D |- *. tauto. }
  specialize (G c I). destruct (find _ _); [discriminate|reflexivity].
Qed.

(** A negative number is a word like any other; with an exponent or a point at
    the end it is an unknown option. *)
Definition plain_word (s : string) : Prop :=
  word s \/ s = "-" \/ exists r, s = String "-" r /\ decimal r.
Lemma number_head : forall c r, number (String c r) = true -> digit c = true \/ c = "."%char.
Proof.
  intros c r. cbn [number]. destruct (Ascii.eqb_spec c "."%char); [now right|]. intro H. apply andb_true_iff in H. now left.
Qed.
Theorem C131_negative : forall P s, In P parsers -> plain_word s -> lex P s = TArg s.
Proof.
  intros P s H [W|[->|(r & -> & D)]]; [now apply lex_word|reflexivity|].
  apply number_decimal in D. destruct r as [|c r]; [discriminate|].
  assert (N : c <> "-"%char) by (destruct (number_head _ _ D) as [X|X]; intro; subst c; discriminate).
  assert (E : lex P (String "-" (String c r)) = lex_short P c r).
  { unfold lex. destruct c as [[] [] [] [] [] [] [] []]; try reflexivity. now elim N. }
  rewrite E. unfold lex_short. rewrite (no_number_option P H c (number_head _ _ D)). unfold other. now rewrite D.
Qed.
Print Assumptions C131_negative.

(** Everything else that begins with a minus sign must be an option of the
    parser, or the line is refused. *)
Definition option_like (P : parser) (s : string) : Prop :=
  exists c r, s = String "-" (String c r) /\ c <> "-"%char /\
    (forall o, In o (opts_of P) -> o_short o <> Some c) /\ ~ decimal (String c r) /\ has_blank (String c r) = false.
Definition long_like (P : parser) (s : string) : Prop :=
  exists r, s = String "-" (String "-" r) /\ r <> "" /\ no_equal r = true /\
    (forall o, In o (opts_of P) -> prefix r (o_long o) = false) /\ has_blank r = false.

Lemma partly_sum : forall i sh n, list_sum (partly i sh n) <= n.
Proof.
  induction i as [|i IH]; intros sh n; cbn [partly].
  - destruct (share (firstn 0 sh) n) eqn:E; [apply (share_valid _ _ _ E)|cbn; lia].
  - destruct (share (firstn (S i) sh) n) eqn:E; [apply (share_valid _ _ _ E)|apply IH].
Qed.
Lemma run_of_split : forall ts, ts = map TArg (run_of ts) ++ skipn (length (run_of ts)) ts.
Proof. induction ts as [|[s|o e| | |] ts IH]; cbn; try reflexivity. now rewrite <- IH. Qed.
Lemma skip_keeps : forall ts k t, k <= length (run_of ts) -> In t ts -> is_arg t = false -> In t (skipn k ts).
Proof.
  intros ts k t L I A. rewrite (run_of_split ts) in I |- *. set (l := run_of ts) in *. rewrite skipn_app, map_length.
  apply in_app_iff in I as [I|I].
  - apply in_map_iff in I as (s & <- & _). discriminate A.
  - apply in_app_iff. right. replace (k - length l) with 0 by lia. exact I.
Qed.
Lemma not_all_args : forall ts t, In t ts -> is_arg t = false -> forallb is_arg ts = false.
Proof.
  intros ts t I A. destruct (forallb is_arg ts) eqn:E; [|reflexivity]. rewrite forallb_forall in E. rewrite (E t I) in A. discriminate.
Qed.
Lemma go_extra : forall f ts ps n, (forall m, go f ts ps n true <> POk m).
Proof.
  induction f as [|f IH]; intros ts ps n m; [discriminate|]. cbn [go].
  destruct (forallb is_arg ts).
  { destruct (consume ps (run_of ts) n) as [[ps' k] n']. destruct (existsb needed ps'); discriminate. }
  destruct ts as [|[s|o e| | |] r]; try discriminate.
  - destruct (consume ps _ n) as [[ps' k] n']. destruct (Nat.ltb 0 k); apply IH.
  - destruct (o_kind o), e; try discriminate; try apply IH. destruct r as [|[v|? ?| | |] r']; try discriminate. apply IH.
  - apply IH.
Qed.
Lemma go_unknown : forall f ts ps n ex, In TUnknown ts -> forall m, go f ts ps n ex <> POk m.
Proof.
  induction f as [|f IH]; intros ts ps n ex I m; [discriminate|]. cbn [go].
  rewrite (not_all_args ts TUnknown I eq_refl).
  destruct ts as [|t r]; [destruct I|]. destruct t as [s|o e| | |]; try discriminate.
  - destruct (consume ps (run_of (TArg s :: r)) n) as [[ps' k] n'] eqn:E. unfold consume in E. injection E; intros _ K _.
    destruct (Nat.ltb 0 k).
    + apply IH. apply skip_keeps; [|exact I|reflexivity]. rewrite <- K. apply partly_sum.
    + apply go_extra.
  - destruct I as [I|I]; [discriminate|].
    destruct (o_kind o), e; try discriminate; try (apply IH; exact I).
    + destruct r as [|[v|? ?| | |] r']; try discriminate. apply IH. destruct I as [I|I]; [discriminate|exact I].
    + apply IH. apply skip_keeps; [lia|exact I|reflexivity].
  - apply go_extra.
Qed.
Lemma find_off : forall {A} (f : A -> bool) l, (forall x, In x l -> f x = false) -> find f l = None.
Proof. induction l as [|x l IH]; intro H; [reflexivity|]. cbn. rewrite (H x (or_introl eq_refl)). apply IH. intros y I. apply H. now right. Qed.
Lemma filter_off : forall {A} (f : A -> bool) l, (forall x, In x l -> f x = false) -> filter f l = [].
Proof. induction l as [|x l IH]; intro H; [reflexivity|]. cbn. rewrite (H x (or_introl eq_refl)). apply IH. intros y I. apply H. now right. Qed.
Lemma prefix_refl : forall s, prefix s s = true.
Proof. induction s as [|c s IH]; [reflexivity|]. cbn. now destruct (ascii_dec c c). Qed.

Theorem C131_unknown : forall P l s r n, option_like P s \/ long_like P s -> parse P (l ++ s :: r) <> POk n.
Proof.
  intros P l s r n H.
  assert (U : lex P s = TUnknown).
  { destruct H as [(c & t & -> & N & O & D & B)|(t & -> & N & Q & O & B)].
    - assert (E : lex P (String "-" (String c t)) = lex_short P c t).
      { unfold lex. destruct c as [[] [] [] [] [] [] [] []]; try reflexivity. now elim N. }
      rewrite E. unfold lex_short. rewrite find_off.
      + unfold other. destruct (number (String c t)) eqn:Z; [now apply number_decimal in Z|]. now rewrite B.
      + intros o I. unfold short_is. destruct (o_short o) as [d|] eqn:Z; [|reflexivity].
        apply Ascii.eqb_neq. intros ->. now apply (O o I).
    - cbn [lex]. unfold lex_long. destruct (t =? "") eqn:Z; [now apply String.eqb_eq in Z|].
      rewrite (cut_none t Q). rewrite find_off.
      + rewrite (filter_off _ _ O). unfold other. cbn [number]. cbn. now rewrite B.
      + intros o I. apply String.eqb_neq. intro E. specialize (O o I). rewrite E, prefix_refl in O. discriminate. }
  unfold parse. destruct (existsb is_out _); [discriminate|]. destruct (existsb is_amb _); [discriminate|].
  apply go_unknown. rewrite map_app. apply in_app_iff. right. left. exact U.
Qed.
Print Assumptions C131_unknown.

(** A value may be joined to a short option, with or without the sign of
    equality; it may then begin with a minus sign. *)
Theorem C131_joined : forall v w a typed, word a -> (forall r, v <> String "=" r) -> v <> "" ->
  says ["output"; "inspect"; ("-c=" ++ w)%string; a] typed = Some (OutInspect None (Some w) a) /\
  says ["output"; "inspect"; ("-c" ++ v)%string; a] typed = Some (OutInspect None (Some v) a) /\
  says ["output"; "inspect"; ("--config=" ++ w)%string; a] typed = Some (OutInspect None (Some w) a).
Proof.
  intros v w a typed Wa Nv Ne. destruct v as [|d v]; [congruence|].
  assert (Ed : (d =? "=")%char = false). { apply Ascii.eqb_neq. intros ->. now elim (Nv v). }
  assert (X : lex (mk [w_opt; c_opt] [p_ "l1b_filename" One]) (String "-" (String "c" (String d v))) = TOpt c_opt (Some (String d v))).
  { cbn [lex lex_short]. unfold lex_short. cbn. now rewrite Ed. }
  repeat split.
  - said.
  - unfold says, dedop; cbn [find groups plain named existsb String.eqb Ascii.eqb Bool.eqb snd fst orb
      ws_table cf_table in_table out_table]; unfold parse; cbn [map append]. rewrite X. lexed. reflexivity.
  - said.
Qed.
Print Assumptions C131_joined.

(** Names that may be left out, numbers as names, and lines that are refused. *)
Theorem C131_forms : forall w typed, word w ->
  says ["workspace"; "remove"] typed = Some (Step (SRemove None (confirmed false typed))) /\
  says ["workspace"; "add"; "-5"] typed = Some (Step (SAdd "-5")) /\
  says ["workspace"; "add"; "-.5"] typed = Some (Step (SAdd "-.5")) /\
  dedop ["workspace"; "add"; "-5."] = Usage /\
  dedop ["workspace"; "add"; "-5e3"] = Usage /\
  dedop ["workspace"; "add"; "--force"; w] = Usage /\
  dedop ["workspace"; "add"; w; "-f"] = Usage.
Proof. intros w typed W. do 3 (split; [said|]). repeat split; unfold dedop; cbn [find groups plain named existsb String.eqb Ascii.eqb Bool.eqb snd fst orb
      ws_table cf_table in_table out_table]; unfold parse; cbn [map]; lexed; reflexivity. Qed.
Print Assumptions C131_forms.

Theorem C131_status :
  (exists n, dedop ["status"] = Do "status" "" n /\ n "long" = Some (VBool false)) /\
  (forall x, In x ["-l"; "--long"; "--lo"] -> exists n, dedop ["status"; x] = Do "status" "" n /\ n "long" = Some (VBool true)) /\
  (forall w, word w -> dedop ["status"; "-l"; w] = Usage).
Proof.
  split; [eexists; split; reflexivity|]. split.
  - intros x H. cbn [In] in H. repeat (destruct H as [<-|H]; [eexists; split; reflexivity|]). destruct H.
  - intros w W. unfold dedop. cbn [find groups plain named existsb String.eqb Ascii.eqb Bool.eqb snd fst orb]. unfold parse. cbn [map]. lexed. reflexivity.
Qed.
Print Assumptions C131_status.

(** A group of commands alone shows its help, which names its commands; any
    other name in the place of a command is an error. *)
Theorem C131_group : forall g x, In g groups -> In x (snd (fst g)) ->
  dedop [x] = Shown /\
  forall y r, word y -> (forall s, In s (snd g) -> ~ In y (snd (fst s))) -> dedop (x :: y :: r) = Usage.
Proof.
  intros g x G X.
  assert (F : find (fun g => named x (snd (fst g))) groups = Some g).
  { assert (B : forallb (fun g => forallb (fun x => match find (fun g => named x (snd (fst g))) groups with
        Some h => fst (fst h) =? fst (fst g) | None => false end) (snd (fst g))) groups = true) by (vm_compute; reflexivity).
    rewrite forallb_forall in B. specialize (B g G). rewrite forallb_forall in B. specialize (B x X).
    destruct (find _ groups) as [h|] eqn:E; [|discriminate]. apply find_some in E as [E _]. apply String.eqb_eq in B. f_equal.
    cbn [groups In] in G, E. repeat (destruct G as [<-|G]; [repeat (destruct E as [<-|E]; [try reflexivity; discriminate B|]); destruct E|]).
    destruct G. }
  destruct g as [[g0 al] t]. unfold dedop. rewrite F. split; [reflexivity|].
  intros y r W N. rewrite find_off.
  - destruct (prefix "-" y) eqn:Q; [|reflexivity]. destruct y as [|c y]; [discriminate|].
    change (prefix "-" (String c y)) with (if ascii_dec "-" c then prefix "" y else false) in Q.
    destruct (ascii_dec "-" c) as [<-|Nc]; [now elim (W y)|discriminate Q].
  - intros s I. apply not_true_is_false. unfold named. rewrite existsb_exists. intros (z & Z & Ez).
    apply String.eqb_eq in Ez. subst z. now apply (N s I).
Qed.
Print Assumptions C131_group.

(** Lower case. *)
Theorem C131_lower :
  lowers "ABCDEFGHIJKLMNOPQRSTUVWXYZ" = "abcdefghijklmnopqrstuvwxyz" /\
  forall c, ~ In c (list_ascii_of_string "ABCDEFGHIJKLMNOPQRSTUVWXYZ") -> lower c = c.
Proof.
  split; [reflexivity|]. intro c. destruct c as [[] [] [] [] [] [] [] []]; vm_compute; try reflexivity; intro H; elim H; tauto.
Qed.
Print Assumptions C131_lower.

Example C131_more_example :
  In (mk [] [ws_pos One]) parsers /\ plain_word "-12.5" /\
  option_like (mk [] [ws_pos One]) "-5." /\ long_like (mk [] [ws_pos One]) "--force" /\
  (exists g, In g groups /\ fst (fst g) = "workspace" /\ forall s, In s (snd g) -> ~ In "ad" (snd (fst s))).
Proof.
  split; [vm_compute; tauto|]. split; [right; right; exists "12.5"; split; [reflexivity|apply number_decimal; reflexivity]|].
  split.
  { exists "5"%char, ".". split; [reflexivity|]. split; [discriminate|]. split; [intros o [<-|[]]; discriminate|].
    split; [intro Z; apply number_decimal in Z; vm_compute in Z; discriminate Z|reflexivity]. }
  split.
  { exists "force". split; [reflexivity|]. split; [discriminate|]. split; [reflexivity|]. split; [intros o [<-|[]]; reflexivity|reflexivity]. }
  eexists. split; [left; reflexivity|]. split; [reflexivity|]. intros s H. cbn in H.
  repeat (destruct H as [<-|H]; [cbn; intuition discriminate|]). destruct H.
Qed.
