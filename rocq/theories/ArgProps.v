(** Property C131: command lines are understood as the help says. *)
From Coq Require Import String Ascii List Arith Bool Lia.
From Verif Require Import Common FsModel WsModel WsSpec CliModel CliSpec ArgModel ArgStep ArgSpec ArgProofs.
Import ListNotations.
Open Scope string_scope.
Open Scope list_scope.

(** Options before and after the other words, in any of their spellings: the
    line is accepted exactly if the words can be shared among the
    positionals, and then every attribute is what the line says (the last
    mention of an option counts; earlier positionals are served first). *)
Theorem C131_layout : forall P its1 its2 ws1 ws2 l, distinct P ->
  belongs P its1 -> belongs P its2 -> all_written its1 ws1 -> all_written its2 ws2 -> Forall word l ->
  l = [] \/ closed its1 ->
  (forall parts ms, best (p_pos P) l parts ms ->
     exists n, parse P (ws1 ++ l ++ ws2) = POk n /\ means P (its1 ++ its2) ms n) /\
  ((~ exists parts ms, shared (p_pos P) l parts ms) -> parse P (ws1 ++ l ++ ws2) = PErr).
Proof.
  intros P its1 its2 ws1 ws2 l D B1 B2 A1 A2 Wl Cl.
  pose proof (all_toks P D _ _ A1 B1) as T1. pose proof (all_toks P D _ _ A2 B2) as T2.
  pose proof (belongs_kind _ _ B1) as K1. pose proof (belongs_kind _ _ B2) as K2.
  assert (E : parse P (ws1 ++ l ++ ws2) =
    eat (map (lex P) ws1 ++ map TArg l ++ map (lex P) ws2) (p_pos P) (start P) false).
  { rewrite <- (lex_words P l Wl), <- !map_app. apply parse_fine.
    rewrite !map_app, !forallb_app, (items_fine _ _ T1), (items_fine _ _ T2), (lex_words P l Wl), args_fine.
    reflexivity. }
  rewrite E. clear E.
  set (ts2 := map (lex P) ws2) in *. set (ts1 := map (lex P) ws1) in *.
  destruct l as [|s l].
  - cbn [map app]. rewrite <- (app_nil_r (ts1 ++ ts2)).
    assert (B : belongs P (its1 ++ its2)) by (apply Forall_app; split; assumption).
    rewrite (eat_items _ _ (items_app _ _ _ _ T1 T2) (belongs_kind _ _ B)); [|exact I].
    change (@nil tok) with (map TArg []). rewrite eat_end. split.
    + intros parts ms Be. rewrite (consume_best _ _ _ _ _ Be). cbn [existsb length Nat.eqb orb negb].
      eexists. split; [reflexivity|].
      pose proof (means_end P D (its1 ++ its2) [] [] parts ms B (Forall_nil _) (proj1 Be)) as M.
      rewrite app_nil_r in M. exact M.
    + intro N. destruct (le_lt_dec (least_sum (map a_nargs (p_pos P))) 0) as [L|L].
      * destruct (consume_long (p_pos P) [] (fold_left effect (its1 ++ its2) (start P)) L) as (k & n' & Ek & Lk).
        cbn [length] in Lk. assert (k = 0) by lia. subst k. exfalso. apply N. apply (consume_used _ _ _ _ Ek).
      * destruct (consume_short (p_pos P) [] (fold_left effect (its1 ++ its2) (start P)) L) as (p & ps & n' & -> & Hp).
        cbn [existsb]. rewrite Hp. reflexivity.
  - destruct Cl as [Cl|Cl]; [discriminate|].
    rewrite (eat_items _ _ T1 K1) by (cbn [map app]; exact Cl).
    set (n1 := fold_left effect its1 (start P)).
    destruct (items_start _ _ T2) as [E2|E2].
    + assert (X : its2 = []).
      { destruct T2 as [|i its t t' Ti T]; [reflexivity|]. destruct Ti; discriminate. }
      rewrite E2, app_nil_r, eat_end. split.
      * intros parts ms Be. rewrite (consume_best _ _ _ _ _ Be). cbn [existsb]. rewrite Nat.eqb_refl. cbn [orb negb].
        eexists. split; [reflexivity|]. rewrite X.
        apply (means_end P D its1 [] (s :: l) parts ms B1 (Forall_nil _) (proj1 Be)).
      * intro N. destruct (le_lt_dec (least_sum (map a_nargs (p_pos P))) (length (s :: l))) as [L|L].
        -- destruct (consume_long (p_pos P) (s :: l) n1 L) as (k & n' & Ek & Lk). rewrite Ek. cbn [existsb].
           destruct (Nat.eqb_spec k (length (s :: l))) as [->|Nk]; [|rewrite orb_true_r; reflexivity].
           exfalso. apply N. apply (consume_used _ _ _ _ Ek).
        -- destruct (consume_short (p_pos P) (s :: l) n1 L) as (p & ps & n' & -> & Hp).
           cbn [existsb]. rewrite Hp. reflexivity.
    + rewrite (eat_mid (s :: l) ts2 _ _ _ ltac:(discriminate) E2). split.
      * intros parts ms Be. rewrite (consume_best _ _ _ _ _ Be).
        destruct (Nat.ltb_spec 0 (length (s :: l))) as [Q|Q]; [|cbn in Q; lia].
        rewrite skipn_map_app. rewrite <- (app_nil_r ts2), (eat_items _ _ T2 K2); [|exact I].
        change (@nil tok) with (map TArg []). rewrite eat_end, consume_none. cbn [existsb length Nat.eqb orb negb].
        eexists. split; [reflexivity|]. apply (means_end P D its1 its2 (s :: l) parts ms B1 B2 (proj1 Be)).
      * intro N. destruct (le_lt_dec (least_sum (map a_nargs (p_pos P))) (length (s :: l))) as [L|L].
        -- destruct (consume_long (p_pos P) (s :: l) n1 L) as (k & n' & Ek & Lk). rewrite Ek.
           destruct (Nat.ltb_spec 0 k) as [Q|Q]; [|apply (eat_extra _ _ T2 K2)].
           assert (Nk : k < length (s :: l)).
           { destruct (Nat.eq_dec k (length (s :: l))) as [->|Z]; [|lia].
             exfalso. apply N. apply (consume_used _ _ _ _ Ek). }
           assert (Y : skipn k (map TArg (s :: l) ++ ts2) = map TArg (skipn k (s :: l)) ++ ts2).
           { rewrite skipn_app, map_length. replace (k - length (s :: l)) with 0 by lia.
             rewrite skipn_map. reflexivity. }
           rewrite Y, eat_mid; [|intro Z; apply (f_equal (@length string)) in Z; rewrite skipn_length in Z; cbn [length] in *; lia|exact E2].
           rewrite consume_none. cbn [Nat.ltb Nat.leb]. apply (eat_extra _ _ T2 K2).
        -- destruct (consume_short (p_pos P) (s :: l) n1 L) as (p & ps & n' & -> & Hp).
           destruct (Nat.ltb_spec 0 (length (s :: l))) as [Q|Q]; [|cbn in Q; lia].
           rewrite skipn_map_app. apply (eat_short _ _ T2 K2). exact Hp.
Qed.
Print Assumptions C131_layout.

(** If the words can be shared at all, one way is best, and it settles the
    values. *)
Theorem C131_sharing : forall ps l parts0 ms0, shared ps l parts0 ms0 ->
  exists parts ms, best ps l parts ms /\ forall parts' ms', best ps l parts' ms' -> ms' = ms.
Proof.
  intros ps l parts0 ms0 S0. destruct (best_share _ _ _ _ S0) as (parts & ms & B & _).
  exists parts, ms. split; [exact B|]. intros parts' ms' B'. apply (best_unique ps l parts' parts ms' ms B' B).
Qed.
Print Assumptions C131_sharing.

(** The theorem applies to all parsers of the commands. *)
Definition parsers : list parser := flat_map (fun g => map snd (snd g)) groups ++ map snd plain.
Theorem C131_distinct : Forall distinct parsers.
Proof.
  apply Forall_forall. intros P H. apply distinctb_ok.
  assert (G : forallb distinctb parsers = true) by (vm_compute; reflexivity).
  rewrite forallb_forall in G. apply G. exact H.
Qed.
Print Assumptions C131_distinct.

(** Every attribute a command reads is there, whatever the line. *)
Theorem C131_attributes : forall argv cmd sub n, dedop argv = Do cmd sub n ->
  forall d, In d (read_of cmd sub) -> n d <> None.
Proof.
  assert (G1 : forallb (fun g => forallb (fun s => forallb (fun d =>
      existsb (String.eqb d) (map o_dest (p_opts (snd s)) ++ map a_dest (p_pos (snd s))))
      (read_of (fst (fst g)) (fst (fst s)))) (snd g)) groups = true) by (vm_compute; reflexivity).
  assert (G2 : forallb (fun s => forallb (fun d =>
      existsb (String.eqb d) (map o_dest (p_opts (snd s)) ++ map a_dest (p_pos (snd s))))
      (read_of (fst (fst s)) "")) plain = true) by (vm_compute; reflexivity).
  assert (Q : forall P argv n d, parse P argv = POk n ->
    existsb (String.eqb d) (map o_dest (p_opts P) ++ map a_dest (p_pos P)) = true -> n d <> None).
  { intros P argv n d E H. apply existsb_exists in H. destruct H as (x & H1 & H2). apply String.eqb_eq in H2. subst x.
    apply (parse_keeps P argv n E d H1). }
  intros argv cmd sub n E d Hd. unfold dedop in E. destruct argv as [|x r]; [discriminate|].
  destruct (find (fun g => named x (snd (fst g))) groups) as [[[g al] t]|] eqn:Eg.
  - apply find_some in Eg. destruct Eg as [Eg _]. destruct r as [|y r]; [discriminate|].
    destruct (find (fun s => named y (snd (fst s))) t) as [[[s al'] P]|] eqn:Es;
      [|destruct (prefix "-" y); discriminate].
    apply find_some in Es. destruct Es as [Es _]. unfold asked in E.
    destruct (parse P r) as [m| | |] eqn:Ep; try discriminate. injection E; intros -> <- <-.
    rewrite forallb_forall in G1. specialize (G1 _ Eg). cbn [fst snd] in G1. rewrite forallb_forall in G1.
    specialize (G1 _ Es). cbn [fst snd] in G1. rewrite forallb_forall in G1. specialize (G1 d Hd).
    apply (Q P r n d Ep G1).
  - destruct (find (fun g => named x (snd (fst g))) plain) as [[[g al] P]|] eqn:Es; [|discriminate].
    apply find_some in Es. destruct Es as [Es _]. unfold asked in E.
    destruct (parse P r) as [m| | |] eqn:Ep; try discriminate. injection E; intros -> <- <-.
    rewrite forallb_forall in G2. specialize (G2 _ Es). cbn [fst snd] in G2. rewrite forallb_forall in G2.
    specialize (G2 d Hd). apply (Q P r n d Ep G2).
Qed.
Print Assumptions C131_attributes.

(** Names and aliases are unambiguous, on both levels. *)
Theorem C131_names :
  NoDup (flat_map (fun g => snd (fst g)) groups ++ flat_map (fun g => snd (fst g)) plain) /\
  Forall (fun g => NoDup (flat_map (fun s : sub => snd (fst s)) (snd g))) groups.
Proof.
  split.
  - apply nodupb_ok. vm_compute. reflexivity.
  - apply Forall_forall. intros g H. apply nodupb_ok.
    assert (G : forallb (fun g => nodupb (flat_map (fun s : sub => snd (fst s)) (snd g))) groups = true)
      by (vm_compute; reflexivity).
    rewrite forallb_forall in G. apply G. exact H.
Qed.
Print Assumptions C131_names.

Ltac lexed := repeat match goal with
  | H : word ?w |- context [lex ?P ?w] => rewrite (lex_word P w H)
  end.
Ltac said := intros; unfold says, dedop; cbn [find groups plain named existsb String.eqb Ascii.eqb Bool.eqb snd fst orb
    ws_table cf_table in_table out_table]; unfold parse; cbn [map]; lexed; reflexivity.

(** What the lines of the manual ask for, for all names that do not begin
    with a minus sign. *)
Theorem C131_workspace : forall w m typed, word w -> word m ->
  says ["workspace"; "add"; w] typed = Some (Step (SAdd w)) /\
  says ["workspace"; "remove"; w] typed = Some (Step (SRemove (Some w) (confirmed false typed))) /\
  says ["workspace"; "remove"; w; "-y"] typed = Some (Step (SRemove (Some w) true)) /\
  says ["workspace"; "copy"; w; m] typed = Some (Step (SCopy (Some w) (Some m))) /\
  says ["workspace"; "copy"; w] typed = Some (Step (SCopy (Some w) None)) /\
  says ["workspace"; "rename"; w; m] typed = Some (Step (SRename (Some w) m)) /\
  says ["workspace"; "rename"; m] typed = Some (Step (SRename None m)) /\
  says ["workspace"; "rename"] typed = None /\
  says ["workspace"; "current"; w] typed = Some (Step (SCurrent (Some w))).
Proof. repeat split; said. Qed.
Print Assumptions C131_workspace.

Theorem C131_config : forall w c m typed, word w -> word c -> word m ->
  says ["config"; "add"; c] typed = Some (Step (CAdd None c false)) /\
  says ["config"; "add"; "--cryosat-adapted"; "-w"; w; c] typed = Some (Step (CAdd (Some w) c true)) /\
  says ["config"; "remove"; "--workspace"; w; c] typed =
    Some (Step (CRemove (Some w) (Some c) (confirmed false typed))) /\
  says ["config"; "copy"; "-w"; w; c; m] typed = Some (Step (CCopy (Some w) (Some c) (Some m))) /\
  says ["config"; "copy"; c; m; "-w"; w] typed = Some (Step (CCopy (Some w) (Some c) (Some m))) /\
  says ["config"; "rename"; m; "-w"; w] typed = Some (Step (CRename (Some w) None m)) /\
  says ["config"; "rename"; c; m] typed = Some (Step (CRename None (Some c) m)) /\
  says ["config"; "current"; c] typed = Some (Step (CCurrent None (Some c))) /\
  says ["config"; "edit"; c] typed = Some (Step (CEdit None (Some c))) /\
  says ["config"; "upgrade"; "-w"; w] typed = Some (Step (CUpgrade (Some w) None)).
Proof. repeat split; said. Qed.
Print Assumptions C131_config.

Theorem C131_others : forall w c a b w2 c2 o typed,
  word w -> word c -> word a -> word b -> word w2 -> word c2 -> word o ->
  says ["run"; "-w"; w; "-c"; c; "-i"; a; b; "-o"; o; "-s"] typed =
    Some (Step (RPlan {| ra_ws := Some w; ra_config := Some c; ra_inputs := [a; b]; ra_out := Some o;
                         ra_all := false; ra_skip := true |})) /\
  says ["run"; "--all-configs"] typed =
    Some (Step (RPlan {| ra_ws := None; ra_config := None; ra_inputs := []; ra_out := None;
                         ra_all := true; ra_skip := false |})) /\
  says ["input"; "add"; "-q"; a; b] typed = Some (InAdd None [a; b]) /\
  says ["input"; "add"; "-w"; w] typed = None /\
  says ["input"; "remove"; "-w"; w] typed = Some (InRemove (Some w) [] (confirmed false typed)) /\
  says ["input"; "remove"; a; b; "-q"] typed = Some (InRemove None [a; b] true) /\
  says ["output"; "clean"; "-c"; c; "-q"] typed = Some (OutClean None (Some c) true) /\
  says ["output"; "inspect"; "-w"; w; "-c"; c; a] typed = Some (OutInspect (Some w) (Some c) a) /\
  says ["output"; "compare"; "-C"; c2; "-W"; w2; a; b] typed =
    Some (OutCompare None None (Some w2) (Some c2) a (Some b)) /\
  says ["output"; "compare"; a] typed = Some (OutCompare None None None None a None).
Proof. repeat split; said. Qed.
Print Assumptions C131_others.

(** False: options may stand between the words.  The help shows the options
    first; with an option between two words the line is refused, although the
    same words in any other order are accepted. *)
Theorem C131_between_refuted : forall w c m a b, word w -> word c -> word m -> word a -> word b ->
  dedop ["config"; "copy"; c; "-w"; w; m] = Usage /\
  dedop ["config"; "rename"; c; "-w"; w; m] = Usage /\
  dedop ["input"; "add"; a; "-q"; b] = Usage /\
  dedop ["input"; "remove"; a; "-w"; w; b] = Usage /\
  dedop ["output"; "compare"; a; "-W"; w; b] = Usage.
Proof.
  intros. repeat split; unfold dedop; cbn [find groups plain named existsb String.eqb Ascii.eqb Bool.eqb snd fst orb
    ws_table cf_table in_table out_table]; unfold parse; cbn [map]; lexed; reflexivity.
Qed.
Print Assumptions C131_between_refuted.

(** A long option may be shortened as long as only one begins like that:
    --work and --conf are ambiguous for [compare] only. *)
Theorem C131_shortened : forall w a, word w -> word a ->
  dedop ["output"; "compare"; "--work"; w; a] = Usage /\
  dedop ["output"; "compare"; "--conf"; w; a] = Usage /\
  says ["output"; "inspect"; "--work"; w; a] "" = Some (OutInspect (Some w) None a).
Proof.
  intros. repeat split; [| |said]; unfold dedop; cbn [find groups plain named existsb String.eqb Ascii.eqb Bool.eqb snd fst orb
    ws_table cf_table in_table out_table]; unfold parse; cbn [map]; lexed; reflexivity.
Qed.
Print Assumptions C131_shortened.

(** Just pressing Enter confirms; so does "yes" in any case with blanks
    around it, and nothing else. *)
Fixpoint blanks (s : string) : Prop :=
  match s with "" => True | String c r => white c = true /\ blanks r end.
Theorem C131_confirmed : forall typed, confirmed false typed = true <->
  blanks typed \/ exists l y r, typed = (l ++ y ++ r)%string /\ blanks l /\ blanks r /\ lowers y = "yes".
Proof.
  assert (L1 : forall s, exists l, s = (l ++ lstrip s)%string /\ blanks l).
  { induction s as [|c s (l & E & B)]; [exists ""; split; [reflexivity|exact I]|]. cbn [lstrip].
    destruct (white c) eqn:Q; [|exists ""; split; [reflexivity|exact I]].
    exists (String c l). split; [cbn; rewrite <- E; reflexivity|split; assumption]. }
  assert (R1 : forall s, exists r, s = (rstrip s ++ r)%string /\ blanks r).
  { induction s as [|c s (r & E & B)]; [exists ""; split; [reflexivity|exact I]|]. cbn [rstrip].
    destruct (rstrip s) as [|d t] eqn:Q.
    - cbn in E. subst s. destruct (white c) eqn:Z.
      + exists (String c r). split; [reflexivity|split; assumption].
      + exists r. split; [reflexivity|exact B].
    - exists r. split; [cbn; cbn in E; rewrite <- E; reflexivity|exact B]. }
  assert (L2 : forall s, blanks s -> lstrip s = "").
  { induction s as [|c s IH]; [reflexivity|]. cbn [blanks lstrip]. intros [-> B]. apply IH. exact B. }
  assert (R2 : forall s, blanks s -> rstrip s = "").
  { induction s as [|c s IH]; [reflexivity|]. cbn [blanks rstrip]. intros [Q B]. rewrite (IH B), Q. reflexivity. }
  assert (L3 : forall l s, blanks l -> lstrip (l ++ s)%string = lstrip s).
  { induction l as [|c l IH]; intros s B; [reflexivity|]. cbn [blanks] in B. destruct B as [Q B]. cbn. rewrite Q. apply IH. exact B. }
  assert (R3 : forall s r, blanks r -> rstrip (s ++ r)%string = rstrip s).
  { induction s as [|c s IH]; intros r B; [apply R2; exact B|]. cbn. rewrite (IH r B). reflexivity. }
  assert (B0 : forall a b, blanks a -> blanks b -> blanks (a ++ b)%string).
  { induction a as [|c a IH]; intros b Ba Bb; [exact Bb|]. cbn in *. split; [apply Ba|apply IH; tauto]. }
  assert (Y : forall y, lowers y = "yes" -> exists a b c, y = String a (String b (String c "")) /\
             white a = false /\ white b = false /\ white c = false).
  { assert (Wh : forall x, (lower x = "y" \/ lower x = "e" \/ lower x = "s")%char -> white x = false).
    { intro x. destruct x as [[] [] [] [] [] [] [] []]; vm_compute; intuition discriminate. }
    intros [|a [|b [|c [|d y]]]]; cbn [lowers]; intro E; try discriminate.
    injection E; intros E3 E2 E1. exists a, b, c. split; [reflexivity|].
    split; [apply Wh; auto|]. split; apply Wh; auto. }
  intro typed. unfold confirmed, input_. rewrite String.eqb_eq. split.
  - destruct (L1 typed) as (l & El & Bl). destruct (R1 (lstrip typed)) as (r & Er & Br).
    destruct (rstrip (lstrip typed) =? "") eqn:Z.
    + intros _. left. apply String.eqb_eq in Z. rewrite Z in Er. rewrite El, Er. apply B0; assumption.
    + intro E. right. exists l, (rstrip (lstrip typed)), r. split; [rewrite <- Er; exact El|]. auto.
  - intros [B|(l & y & r & -> & Bl & Br & Ey)].
    + rewrite (L2 typed B). reflexivity.
    + rewrite (L3 l _ Bl). destruct (Y y Ey) as (a & b & c & -> & Wa & Wb & Wc).
      assert (E1 : lstrip (String a (String b (String c "")) ++ r)%string = (String a (String b (String c "")) ++ r)%string).
      { cbn. rewrite Wa. reflexivity. }
      rewrite E1, (R3 _ r Br). cbn [rstrip]. rewrite Wc. cbn. exact Ey.
Qed.
Print Assumptions C131_confirmed.

(** "y" does not confirm. *)
Example C131_example :
  (confirmed false "" = true /\ confirmed false " YES " = true /\ confirmed false "y" = false) /\
  (exists P, In P parsers /\ map a_nargs (p_pos P) = [Opt; One] /\
     best (p_pos P) ["b"] [[]; ["b"]] [VNone; VStr "b"]) /\
  says ["c"; "rn"; "--workspace=-x"; "b"] "" = Some (Step (CRename (Some "-x") None "b")).
Proof.
  split; [repeat split|]. split; [|reflexivity].
  exists (mk [] [ws_pos Opt; p_ "new_name" One]). split; [vm_compute; tauto|]. split; [reflexivity|]. split.
  - change ["b"] with ([] ++ ["b"] ++ []). repeat constructor.
  - intros parts' ms' S'. cbn in S'. inversion S' as [|? ? a l m parts ms Fi S1 Q1 Q2]; subst.
    inversion S1 as [|? ? a1 l1 m1 parts1 ms1 Fi1 S2 Q3 Q4]; subst. inversion S2; subst.
    cbn in Fi, Fi1. inversion Fi; subst; inversion Fi1; subst; cbn in Q2; try discriminate.
    apply al_same; [reflexivity|]. apply al_same; [reflexivity|]. constructor.
Qed.
