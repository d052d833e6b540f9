(** C62, continued: what a console monitor shows after any calls. *)
From Coq Require Import String Ascii List ZArith QArith Bool Arith Lia.
From Verif Require Import Common MonModel MonSpec MonProofs MonHistSpec.
Import ListNotations.
Open Scope nat_scope.

Lemma k_run_snoc : forall cs k c, snd (k_run k (cs ++ [c])) = snd (fst (k_step (snd (k_run k cs)) c)).
Proof.
  intros cs. induction cs as [|d cs IH]; intros k c; cbn [app k_run snd].
  - destruct (k_step k c) as [[o k1] e]. reflexivity.
  - destruct (k_step k d) as [[o k1] e]. specialize (IH k1 c). destruct (k_run k1 (cs ++ [c])), (k_run k1 cs). cbn [snd] in *. exact IH.
Qed.
Definition tracks (inline : bool) (bar : nat) (h : list kcall) (k : console) : Prop :=
  k_inline k = inline /\ k_bar k = bar /\ k_label k = label_of h /\ k_cancelled k = cancelled h /\ k_msg k = message h /\
  match running h with None => k_worked k = None | Some (_, t) => k_worked k <> None /\ k_total k = t end.
Lemma report_fields : forall k p m, let k' := snd (report k p m) in
  k_inline k' = k_inline k /\ k_bar k' = k_bar k /\ k_label k' = k_label k /\ k_cancelled k' = k_cancelled k /\ k_msg k' = k_msg k /\
  k_worked k' = k_worked k /\ k_total k' = k_total k.
Proof. intros k p m. unfold report. destruct (k_inline k) eqn:E; cbn; rewrite ?E; auto 10. Qed.
Lemma step_tracks : forall inline bar h k c, tracks inline bar h k ->
  snd (k_step k c) = outcome h c /\ tracks inline bar (c :: h) (snd (fst (k_step k c))).
Proof.
  intros inline bar h k c (A & B & L & X & M & R).
  destruct c as [l t|w m| |]; cbn [k_step].
  - destruct l as [|c l]; [cbn; repeat split; assumption|]. cbn [k_start].
    pose proof (report_fields {| k_inline := k_inline k; k_bar := k_bar k; k_label := c :: l; k_worked := Some 0%Q; k_total := t; k_pct := None;
      k_cancelled := k_cancelled k; k_last := k_last k; k_msg := k_msg k |} None (Some (txt "started"))) as F.
    destruct (report _ None _) as [o k2]. cbn [snd fst] in *. cbn [k_inline k_bar k_label k_cancelled k_msg k_worked k_total] in F.
    destruct F as (F1 & F2 & F3 & F4 & F5 & F6 & F7). split; [reflexivity|]. unfold tracks, label_of. cbn [running cancelled existsb message orb].
    rewrite F1, F2, F3, F4, F5, F6, F7. repeat split; try assumption; discriminate.
  - unfold k_progress. destruct w as [x|].
    + unfold outcome at 1. destruct (running h) as [[l t]|] eqn:RH.
      2:{ rewrite R. cbn [fst snd]. split; [reflexivity|]. unfold tracks, label_of in *. cbn [running cancelled existsb message orb]. unfold outcome.
          rewrite RH in *. auto 10. }
      destruct R as (R1 & R2). destruct (k_worked k) as [y|] eqn:W; [|congruence]. unfold calc_pct. cbn [set_worked k_worked k_total]. rewrite R2.
      assert (OUT : forall p, tracks inline bar (KProgress (Some x) m :: h)
        (snd (fst (let '(o, k2) := if negb (opt_eqb Z.eqb p (k_pct (set_worked k (y + x)%Q))) || negb (opt_eqb text_eqb m (k_msg (set_worked k (y + x)%Q)))
                              then report (set_worked k (y + x)%Q) p m else ([], set_worked k (y + x)%Q) in (o, set_pm k2 p m, @None merr))))
        \/ exists u, t = Some u /\ Qeq_bool u 0 = true).
      { intros p. destruct (match t with Some u => Qeq_bool u 0 | None => false end) eqn:TZ.
        - right. destruct t as [u|]; [eauto|discriminate].
        - left. pose proof (report_fields (set_worked k (y + x)%Q) p m) as F.
          destruct (negb _ || negb _); [destruct (report (set_worked k (y + x)%Q) p m) as [o k2]|]; cbn [fst snd] in *;
          cbn [set_worked k_inline k_bar k_label k_cancelled k_msg k_worked k_total] in F;
          unfold tracks, label_of in *; cbn [running cancelled existsb message orb]; unfold outcome; rewrite RH in *;
          cbn [set_pm set_worked k_inline k_bar k_label k_cancelled k_msg k_worked k_total].
          + destruct F as (F1 & F2 & F3 & F4 & F5 & F6 & F7). rewrite F1, F2, F3, F4, F6, F7.
            repeat split; try assumption; try discriminate. destruct t as [u|]; [rewrite TZ|]; reflexivity.
          + repeat split; try assumption; try discriminate. destruct t as [u|]; [rewrite TZ|]; reflexivity. }
      destruct t as [u|].
      * destruct (Qeq_bool u 0) eqn:UZ.
        -- cbn [fst snd]. split; [reflexivity|]. unfold tracks, label_of in *. cbn [running cancelled existsb message orb]. unfold outcome. rewrite RH in *. rewrite UZ.
           cbn [set_worked k_inline k_bar k_label k_cancelled k_msg k_worked k_total]. repeat split; try assumption; discriminate.
        -- destruct (OUT (Some (py_round (100 * (y + x) / u)))) as [O|(v & [= <-] & Z)]; [|congruence]. split; [|exact O].
           destruct (negb _ || negb _); [destruct (report _ _ _)|]; reflexivity.
      * destruct (OUT None) as [O|(v & [=] & _)]. split; [|exact O]. destruct (negb _ || negb _); [destruct (report _ _ _)|]; reflexivity.
    + pose proof (report_fields k None m) as F. split; [destruct (negb _ || negb _); [destruct (report _ _ _)|]; reflexivity|].
      destruct (negb _ || negb _); [destruct (report k None m) as [o k2]|]; cbn [fst snd] in *;
      unfold tracks, label_of in *; cbn [running cancelled existsb message orb outcome]; cbn [set_pm k_inline k_bar k_label k_cancelled k_msg k_worked k_total].
      * destruct F as (F1 & F2 & F3 & F4 & F5 & F6 & F7). rewrite F1, F2, F3, F4, F6, F7. repeat split; assumption.
      * repeat split; assumption.
  - unfold k_done. pose proof (report_fields k None (Some (if k_cancelled k then txt "cancelled" else match k_msg k with None => txt "done" | Some t => t end))) as F.
    destruct (report k None _) as [o k2]. cbn [fst snd] in *. split; [reflexivity|].
    destruct F as (F1 & F2 & F3 & F4 & F5 & F6 & F7). unfold tracks, label_of in *. cbn [running cancelled existsb message orb].
    rewrite F1, F2, F3, F4, F5, F6, F7. repeat split; assumption.
  - cbn [fst snd]. split; [reflexivity|]. unfold tracks, label_of in *. cbn [running cancelled existsb message orb set_cancelled k_inline k_bar k_label k_cancelled k_msg k_worked k_total].
    repeat split; assumption.
Qed.
Lemma run_tracks : forall inline bar cs, tracks inline bar (rev cs) (snd (k_run (console_init inline bar) cs)).
Proof.
  intros inline bar cs. induction cs as [|c cs IH] using rev_ind; [cbn; repeat split|].
  rewrite k_run_snoc, rev_app_distr. cbn [rev app]. apply step_tracks. exact IH.
Qed.

(** A call raises exactly if it starts a task without a name, reports work
    before any task was started, or reports work of a task with a total of
    zero; the failures before it make no difference. *)
Theorem C62_fails : forall inline bar cs c,
  snd (k_step (snd (k_run (console_init inline bar) cs)) c) = outcome (rev cs) c.
Proof. intros inline bar cs c. exact (proj1 (step_tracks inline bar (rev cs) _ c (run_tracks inline bar cs))). Qed.
Print Assumptions C62_fails.

(** The last line of a task: the name of the task started last, and that it was
    cancelled (at any time before), or the message given last, or "done".  In
    one-line mode it may be followed by blanks, and ends the line. *)
Theorem C62_done : forall inline bar cs, let h := rev cs in
  let o := fst (fst (k_step (snd (k_run (console_init inline bar) cs)) KDone)) in
  let line := label_of h ++ txt ": " ++ last_words h in
  if inline then exists n, o = cr :: line ++ repeat sp n ++ [nl] else o = line ++ [nl].
Proof.
  intros inline bar cs h o line. destruct (run_tracks inline bar cs) as (A & B & L & X & M & R). unfold o. cbn [k_step]. unfold k_done, report.
  set (k := snd (k_run (console_init inline bar) cs)) in *.
  assert (E : line_of k None (Some (if k_cancelled k then txt "cancelled" else match k_msg k with None => txt "done" | Some t => t end)) = line).
  { unfold line, last_words, line_of. rewrite L, X, M. fold h. destruct (cancelled h); [reflexivity|]. destruct (message h) as [[|c m]|]; reflexivity. }
  rewrite E, A. destruct inline; cbn [fst snd].
  - rewrite <- (app_assoc _ _ [nl]) || idtac. destruct (k_last k =? 0).
    + exists 0. cbn [repeat app]. now rewrite app_nil_r.
    + eexists. cbn [app]. rewrite <- app_assoc. reflexivity.
  - now rewrite app_nil_r.
Qed.
Print Assumptions C62_done.

(** Every line of a report, in multi-line mode: the name of the task and the words
    for what [C62_lines] says is shown. *)
Theorem C62_text : forall bar cs w m, let h := rev cs in
  let k := snd (k_run (console_init false bar) cs) in
  let o := fst (fst (k_step k (KProgress w m))) in
  o <> [] -> exists p, (w = None -> p = None) /\ o = label_of h ++ txt ": " ++ words bar p m ++ [nl] /\
    k_pct (snd (fst (k_step k (KProgress w m)))) = p.
Proof.
  intros bar cs w m h k o NE. destruct (run_tracks false bar cs) as (A & B & L & X & M & R). fold k in A, B, L, X, M, R. fold h in L.
  assert (RP : forall k0 p, k_inline k0 = false -> k_bar k0 = bar -> k_label k0 = label_of h ->
    report k0 p m = (label_of h ++ txt ": " ++ words bar p m ++ [nl], k0)).
  { intros k0 p A0 B0 L0. unfold report. rewrite A0. f_equal. unfold line_of. rewrite L0, B0.
    destruct p as [z|]; destruct m as [[|c m]|]; cbn [truthy words]; rewrite <- ?app_assoc; reflexivity. }
  unfold o in NE |- *. cbn [k_step] in NE |- *. unfold k_progress in NE |- *. destruct w as [x|].
  - destruct (k_worked k) as [y|]; [|now elim NE]. destruct (calc_pct (set_worked k (y + x)%Q)) as [p|e]; [|now elim NE].
    destruct (negb _ || negb _) in NE |- *; [|now elim NE]. rewrite (RP (set_worked k (y + x)%Q) p A B L). exists p. cbn [fst snd]. split; [discriminate|]. split; reflexivity.
  - destruct (negb _ || negb _) in NE |- *; [|now elim NE]. rewrite (RP k None A B L). exists None. cbn [fst snd]. auto.
Qed.
Print Assumptions C62_text.

(** Non-vacuity. *)
Example C62_history_example :
  let k cs := snd (k_run (console_init false 10) cs) in
  snd (k_step (k []) (KProgress (Some 1%Q) None)) = Some EType /\
  snd (k_step (k [KStart (txt "a") (Some 0%Q)]) (KProgress (Some 1%Q) None)) = Some EZeroDiv /\
  fst (fst (k_step (k [KStart (txt "a") None; KProgress None (Some (txt "x")); KCancel]) KDone)) = txt "a: cancelled" ++ [nl] /\
  fst (fst (k_step (k [KStart (txt "a") None; KProgress None (Some (txt "x"))]) (KProgress (Some 1%Q) None))) = txt "a: progress" ++ [nl].
Proof. vm_compute. auto. Qed.
