(** Properties C59, C60, C62. *)
From Coq Require Import String Ascii List ZArith QArith Qabs Bool Arith Lia Lqa ZifyBool.
From Verif Require Import Common MonModel MonSpec MonProofs.
Import ListNotations.
Open Scope nat_scope.

(** * C59 Monitors are always finished *)

(** Whatever a task does (raising, catching, nesting, restarting), on every
    monitor each successful start is followed by exactly one matching done. *)
Theorem C59_balanced : forall t s w, exists new,
  w_trace (fst (fst (run t s w))) = w_trace w ++ new /\ forall l, balanced (proj l new).
Proof. exact run_balanced. Qed.
Print Assumptions C59_balanced.

(** A task that does not start its own monitor again, run under
    [monitor.starting]: one start before it, one done after it, none in
    between, and its result or exception is the outcome. *)
Theorem C59_starting : forall label total body s w w1 s1,
  no_restart body = true ->
  start s label total w = (w1, s1, None) ->
  exists a b c,
    w_trace (fst (fst (run (TStarting label total body) s w))) = w_trace w ++ a ++ b ++ c /\
    proj (length s) a = [true] /\ proj (length s) b = [] /\ proj (length s) c = [false] /\
    w_trace (fst (fst (run body s1 w1))) = w_trace w ++ a ++ b /\
    snd (run (TStarting label total body) s w) = snd (run body s1 w1).
Proof.
  intros label total body s w w1 s1 HN HS. cbn [run].
  pose proof (start_spec s label total w) as S. rewrite HS in S |- *.
  destruct S as (SL & ST & a & A1 & A2).
  assert (HC : length s < length s1 \/ length s = length s1 /\ no_restart body = true) by (right; auto).
  destruct (run_low body s1 w1 (length s) HC) as (b & B1 & B2).
  pose proof (no_restart_stack body s1 w1 HN) as K.
  destruct (run body s1 w1) as [[w2 s2] r] eqn:ER. cbn [fst snd] in *. subst s2.
  destruct (done_spec s1 w2) as (c & C1 & C2).
  assert (HD : snd (done s1 w2) = None).
  { unfold start in HS. destruct (label =? "")%string; [discriminate|].
    destruct s as [|c0 p]; [injection HS; intros; subst; reflexivity|].
    destruct (progress p (zero_if total) (Some label) w) as [wp [x|]] eqn:EP; [discriminate|].
    injection HS; intros; subst s1. cbn [done]. cbn [c_total c_label].
    destruct total as [t|]; cbn [zero_if] in *.
    - eapply progress_error. rewrite EP. reflexivity.
    - apply progress_none_ok. }
  destruct (done s1 w2) as [w3 e3]. cbn [fst snd] in *. subst e3.
  exists a, b, c. rewrite C1, B1, A1, <- !app_assoc. split; [reflexivity|].
  rewrite A2, C2, SL, Nat.eqb_refl. auto.
Qed.
Print Assumptions C59_starting.

(** When [start] itself raises, the task is not run and [done] not called. *)
Theorem C59_start_fails : forall label total body s w w1 s1 x,
  start s label total w = (w1, s1, Some x) ->
  run (TStarting label total body) s w = (w1, s1, Some x) /\
  exists new, w_trace w1 = w_trace w ++ new /\ forall l, proj l new = [].
Proof.
  intros label total body s w w1 s1 x HS. cbn [run]. pose proof (start_spec s label total w) as S.
  rewrite HS in S |- *. destruct S as (_ & _ & new & S1 & S2). split; [reflexivity|]. exists new. auto.
Qed.
Print Assumptions C59_start_fails.

Definition w0 : world := {| w_trace := []; w_cancel := false |}.
Definition ex_body : task :=
  TSeq (TProgress (Some 3%Q) (Some "a"%string))
       (TSeq (TChild 5 (TTry (TStarting "sub" (Some 10%Q) (TSeq (TProgress (Some 4%Q) None) (TRaise 7))) TReturn))
             (TRaise 1)).
Example C59_ex : no_restart ex_body = true /\
  start [] "main" (Some 8%Q) w0 = (fst (fst (start [] "main" (Some 8%Q) w0)), [], None) /\
  snd (run (TStarting "main" (Some 8%Q) ex_body) [] w0) = Some (ETask 1) /\
  proj 1 (w_trace (fst (fst (run (TStarting "main" (Some 8%Q) ex_body) [] w0)))) = [true; false].
Proof. vm_compute. auto. Qed.
Example C59_start_ex : start [] "" None w0 = (w0, [], Some EValue).
Proof. reflexivity. Qed.

(** A task that starts its own monitor again with a total, below a monitor
    without a total, can make the outer [done] raise: the result is lost. *)
Theorem C59_restart_refuted : exists label total body s w w1 s1,
  start s label total w = (w1, s1, None) /\
  snd (run body s1 w1) = None /\
  snd (run (TStarting label total body) s w) = Some EType.
Proof.
  exists "a"%string, None, (TTry (TStarting "b" (Some 5%Q) TReturn) TReturn),
    [new_child 1; {| c_partial := 1; c_total := None; c_label := Some "p"%string |}], w0.
  do 2 eexists. split; [reflexivity|]. split; reflexivity.
Qed.
Print Assumptions C59_restart_refuted.

(** * C60 Child monitors conserve work *)

(** A child monitor for [wk] units of a monitor (at any depth below monitors
    started with non-zero totals), started with total [T] and told of an amount
    [X] of work in total, whoever reported it and whether or not the task
    raised, tells its parent of [wk * X / T]; in particular [wk] when [X = T]. *)
Theorem C60_conserved : forall wk label T body s w,
  live s -> label <> ""%string -> ~ (T == 0)%Q -> no_restart body = true ->
  exists new,
    w_trace (fst (fst (run (TChild wk (TStarting label (Some T) body)) s w))) = w_trace w ++ new /\
    (told (length s) new == wk * (told (S (length s)) new / T))%Q /\
    ((told (S (length s)) new == T)%Q -> (told (length s) new == wk)%Q).
Proof.
  intros wk label T body s w HL Hlab HT HN.
  assert (G : exists new,
    w_trace (fst (fst (run (TChild wk (TStarting label (Some T) body)) s w))) = w_trace w ++ new /\
    (told (length s) new == wk * (told (S (length s)) new / T))%Q).
  { cbn [run]. unfold start. destruct (label =? "")%string eqn:EL; [apply String.eqb_eq in EL; contradiction|].
    cbn [zero_if].
    destruct (progress_full s (Some 0%Q) (Some label) w) as (n1 & P1 & _ & _ & P4 & P5).
    destruct (progress_live s HL (Some 0%Q) (Some label) w) as (_ & _ & PE & _).
    destruct (progress s (Some 0%Q) (Some label) w) as [w1 e1]. cbn [fst snd] in P1, PE. subst e1.
    set (c' := {| c_partial := c_partial (new_child wk); c_total := Some T; c_label := Some label |}).
    cbv beta iota. set (w2 := record (Started (length (new_child wk :: s)) label (Some T)) w1).
    fold c'.
    assert (HL' : live (c' :: s)) by (constructor; [exists T; split; [reflexivity|exact HT]|exact HL]).
    destruct (run_rel body [] (c' :: s) w2 HL' (or_intror HN)) as (u & U1 & U2 & n2 & R1 & R2).
    destruct u; [|discriminate U2]. cbn [app] in *.
    destruct (run body (c' :: s) w2) as [[w3 s3] r]. cbn [fst snd] in *. subst s3.
    unfold done. cbv beta iota. set (w4 := record (Finished (length (c' :: s))) w3).
    destruct (progress_full s (zero_if (c_total c')) (c_label c') w4) as (n3 & Q1 & _ & _ & Q4 & Q5).
    destruct (progress s (zero_if (c_total c')) (c_label c') w4) as [w5 e5]. cbn [fst] in *.
    exists ((n1 ++ [Started (S (length s)) label (Some T)]) ++ n2 ++ ([Finished (S (length s))] ++ n3)).
    split.
    - cbn [fst]. rewrite Q1. unfold w4, record; cbn [w_trace]. rewrite R1. unfold w2, record; cbn [w_trace].
      rewrite P1. rewrite <- !app_assoc. reflexivity.
    - rewrite !told_app. rewrite P5, P4, Q5, Q4 by lia. cbn [told wq zero_if c_total c'].
      pose proof (R2 [] c' s T eq_refl eq_refl) as E. rewrite E. cbn [c_partial c' new_child]. field. exact HT. }
  destruct G as (new & G1 & G2). exists new. split; [exact G1|]. split; [exact G2|].
  intros E. rewrite G2, E. field. exact HT.
Qed.
Print Assumptions C60_conserved.

(** At every depth: running any task on a monitor whose ancestors were started
    with non-zero totals, consecutive ancestors see amounts in the ratio
    partial work / total, down to the root. *)
Theorem C60_every_depth : forall t c s w, live s ->
  exists new, w_trace (fst (fst (run t (c :: s) w))) = w_trace w ++ new /\
  forall pre c0 post T, s = pre ++ c0 :: post -> c_total c0 = Some T ->
    (told (length post) new == c_partial c0 / T * told (S (length post)) new)%Q.
Proof.
  intros t c s w HL.
  assert (HU : [c] <> [] \/ no_restart t = true) by (left; discriminate).
  destruct (run_rel t [c] s w HL HU) as (u & _ & _ & new & R1 & R2).
  exists new. auto.
Qed.
Print Assumptions C60_every_depth.

(** Cancellation requested at any depth is seen at every depth, for the rest
    of the run. *)
Theorem C60_cancel : forall s s' t w,
  is_cancelled s' (fst (fst (run TCancel s w))) = true /\
  (forall w1, is_cancelled s w1 = is_cancelled s' w1) /\
  (is_cancelled s w = true -> is_cancelled s' (fst (fst (run t s w))) = true).
Proof.
  intros s s' t w. split; [|split].
  - cbn [run fst]. rewrite is_cancelled_spec. apply cancel_spec.
  - intros w1. rewrite !is_cancelled_spec. reflexivity.
  - rewrite !is_cancelled_spec. apply run_cancel_mono.
Qed.
Print Assumptions C60_cancel.

(** Two levels below the root: 30 of 100 units, of which half is given to a
    sub-task that does all its work and then raises. *)
Definition ex_sub : task :=
  TSeq (TProgress (Some 2%Q) None) (TSeq (TProgress (Some 6%Q) (Some "x"%string)) (TRaise 3)).
Definition ex_mid : task :=
  TSeq (TChild 5 (TTry (TStarting "sub" (Some 8%Q) ex_sub) TReturn)) (TProgress (Some 5%Q) None).
Example C60_ex : live [] /\ no_restart ex_mid = true /\
  let tr := w_trace (fst (fst (run (TChild 30 (TStarting "mid" (Some 10%Q) ex_mid)) [] w0))) in
  (told 2 tr == 8)%Q /\ (told 1 tr == 10)%Q /\ (told 0 tr == 30)%Q.
Proof. split; [constructor|]. split; [reflexivity|]. vm_compute. auto. Qed.

(** Reporting work on a child that was not started, or whose ancestor has no
    total, raises. *)
Example C60_unstarted : snd (run (TChild 1 (TProgress (Some 1%Q) None)) [] w0) = Some EType.
Proof. reflexivity. Qed.

(** * C62 Console monitor *)

(** After a start, the i-th progress report prints a line exactly when its
    rounded percentage or its message differs from that of the report before
    it (before the first: no percentage, and the last message ever given). *)
Theorem C62_lines : forall k label total o0 k0 ws os k2,
  k_start k label total = (o0, k0, None) ->
  k_progs k0 ws = Some (os, k2) ->
  length os = length ws /\
  (forall i o, nth_error os i = Some o ->
    (o <> [] <-> shown_at total ws i <> shown_before total (k_msg k) ws i)) /\
  (forall i z m, nth_error ws i = Some (z, m) -> forall x p T,
     z = Some x -> total = Some T -> fst (shown_at total ws i) = Some p ->
     nearest (100 * worked_sum (firstn (S i) ws) / T) p).
Proof.
  intros k label total o0 k0 ws os k2 HS HP.
  assert (HK : k_total k0 = total /\ k_worked k0 = Some 0%Q /\ k_pct k0 = None /\ k_msg k0 = k_msg k).
  { unfold k_start in HS. destruct label as [|c l]; [discriminate|]. unfold report in HS.
    cbn [k_inline] in HS. destruct (k_inline k); injection HS; intros; subst k0; repeat split. }
  destruct HK as (K1 & K2 & K3 & K4).
  split.
  { clear - HP. revert k0 os k2 HP. induction ws as [|[w m] ws IH]; intros k0 os k2 H; cbn [k_progs] in H.
    - injection H; intros; subst. reflexivity.
    - destruct (k_progress k0 w m) as [[o k1] [e|]]; [discriminate|].
      destruct (k_progs k1 ws) as [[os1 k3]|] eqn:E; [|discriminate].
      injection H; intros; subst. cbn. f_equal. eapply IH; exact E. }
  split.
  - intros i o Hi. pose proof (k_progs_spec ws [] k0 total (k_msg k) os k2 K1) as S. cbn [app length] in S.
    apply S; try assumption. cbn [shown_before]. congruence.
  - intros i z m Hi x p T Hz HT Hp. unfold shown_at in Hp. rewrite Hi in Hp. cbn [fst] in Hp. rewrite Hz, HT in Hp.
    unfold shown in Hp. inversion Hp; subst p. apply py_round_nearest.
Qed.
Print Assumptions C62_lines.
(** Percentages half way between two whole numbers are shown as the even one. *)
Theorem C62_ties : forall z, py_round (inject_Z z + (1 # 2)) = if Z.even z then z else (z + 1)%Z.
Proof.
  intro z. unfold py_round, inject_Z, Qplus. cbn [Qnum Qden]. change (Z.pos (1 * 2)) with 2%Z.
  replace ((z * 2 + 1 * 1) / 2)%Z with z by (Z.div_mod_to_equations; lia).
  replace ((z * 2 + 1 * 1) mod 2)%Z with 1%Z by (Z.div_mod_to_equations; lia). reflexivity.
Qed.
Print Assumptions C62_ties.
Example C62_lines_ex :
  let k := console_init false 10 in
  let ws := [(Some (1#4)%Q, None); (Some (1#8)%Q, None); (Some 30%Q, Some (txt "x")); (None, Some (txt "x"))] in
  exists o0 k0 os k2, k_start k (txt "run") (Some 100%Q) = (o0, k0, None) /\
  k_progs k0 ws = Some (os, k2) /\
  map (fun o => match o with [] => false | _ => true end) os = [true; false; true; true] /\
  nth_error os 2 = Some (txt "run: [###-------]  30% x" ++ [nl]).
Proof. do 4 eexists. split; [reflexivity|]. split; [reflexivity|]. split; reflexivity. Qed.

(** The bar and the percentage have constant width for percentages between 0
    and 100, and the filled part is the percentage rounded to bar units. *)
Theorem C62_bar_width : forall size p, 0 < size -> (0 <= p <= 100)%Z ->
  length (bar_text size p) = size + 3 /\ length (pct_text p) = 4 /\
  exists d r, bar_text size p = txt "[" ++ repeat "#"%char d ++ repeat "-"%char r ++ txt "] " /\
    d + r = size /\ (-50 <= 100 * Z.of_nat d - Z.of_nat size * p <= 50)%Z.
Proof.
  intros size p Hs Hp. destruct (bar_spec size p Hs Hp) as (d & r & B1 & B2 & B3).
  split; [|split; [apply pct_width; exact Hp|exists d, r; auto]].
  rewrite B1. rewrite !app_length, !repeat_length. cbn. lia.
Qed.
Print Assumptions C62_bar_width.
Example C62_bar_ex : bar_text 10 37 = txt "[####------] " /\ pct_text 7 = txt "  7%".
Proof. split; reflexivity. Qed.
(** Outside that range the bar can be longer. *)
Example C62_bar_over : length (bar_text 10 150) = 18.
Proof. reflexivity. Qed.

(** One-line mode: for every history of calls (texts without line breaks) on a
    terminal, whenever a call writes something the visible line is the line
    that multi-line mode would print followed only by blanks. *)
Theorem C62_no_remains : forall bar cs c, Forall plain_call cs -> plain_call c ->
  let k := snd (k_run (console_init true bar) cs) in
  let t := tputs ([], 0) (fst (k_run (console_init true bar) cs)) in
  let o := fst (fst (k_step k c)) in
  o <> [] ->
  exists line body n, fst (fst (k_step (multiline k) c)) = line ++ [nl] /\
    o = body ++ match c with KDone => [nl] | _ => [] end /\
    fst (tputs t body) = line ++ repeat sp n.
Proof.
  intros bar cs c HF Hc k t o Ho.
  assert (I0 : tinv (console_init true bar) ([], 0)).
  { split; [reflexivity|]. split; [apply plainb_plain; reflexivity|]. split; [exact I|]. exists 0. reflexivity. }
  pose proof (run_tinv cs (console_init true bar) ([], 0) I0 HF) as I1. fold k in I1. fold t in I1.
  pose proof (step_tinv k t c I1 Hc) as S. unfold o in *.
  destruct (k_step k c) as [[o1 k1] e]. cbn [fst] in *. destruct S as [_ [S|S]]; [contradiction|exact S].
Qed.
Print Assumptions C62_no_remains.
Example C62_remains_ex :
  let cs := [KStart (txt "run") (Some 10%Q); KProgress (Some 5%Q) (Some (txt "a long message"))] in
  Forall plain_call cs /\
  fst (tputs ([], 0) (fst (k_run (console_init true 0) (cs ++ [KProgress (Some 5%Q) (Some (txt "ok"))]))))
  = txt "run: 100% ok            ".
Proof.
  split; [|vm_compute; reflexivity].
  repeat constructor; cbn; intuition discriminate.
Qed.
