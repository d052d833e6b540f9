From Coq Require Import String Ascii List ZArith QArith Qabs Bool Arith Lia Lqa ZifyBool.
From Verif Require Import Common MonModel MonSpec.
Import ListNotations.
Open Scope nat_scope.

(** * Trace algebra *)
Lemma proj_app : forall l a b, proj l (a ++ b) = proj l a ++ proj l b.
Proof.
  intros l. induction a as [|x a IH]; intros b; [reflexivity|]. cbn [app proj].
  destruct x as [n ? ?|? ? ?|n]; [destruct (n =? l)| |destruct (n =? l)]; cbn [app]; rewrite IH; reflexivity.
Qed.
Lemma told_app : forall l a b, (told l (a ++ b) == told l a + told l b)%Q.
Proof.
  intros l. induction a as [|x a IH]; intros b; [cbn; lra|]. cbn [app told].
  destruct x as [n ? ?|n [x|] ?|n]; try apply IH.
  destruct (n =? l); [rewrite IH; lra|apply IH].
Qed.


Definition rel (s : stack) (new : list event) : Prop :=
  forall pre c post t, s = pre ++ c :: post -> c_total c = Some t ->
  (told (length post) new == c_partial c / t * told (S (length post)) new)%Q.

Lemma rel_nil : forall s, rel s [].
Proof. intros s pre c post t _ _. cbn. lra. Qed.
Lemma rel_app : forall s a b, rel s a -> rel s b -> rel s (a ++ b).
Proof.
  intros s a b Ha Hb pre c post t Hs Ht. rewrite !told_app, (Ha pre c post t Hs Ht), (Hb pre c post t Hs Ht).
  ring.
Qed.
Lemma rel_zero : forall s new, (forall l, l <= length s -> (told l new == 0)%Q) -> rel s new.
Proof.
  intros s new H pre c post t Hs Ht. rewrite !H; [ring| |]; subst s; rewrite app_length; cbn; lia.
Qed.
Lemma rel_tail : forall u s new, rel (u ++ s) new -> rel s new.
Proof.
  intros u s new H pre c post t Hs Ht. apply (H (u ++ pre) c post t); [|assumption].
  subst s. rewrite app_assoc. reflexivity.
Qed.

Definition wq (work : option Q) : Q := match work with Some x => x | None => 0%Q end.

(** Everything [progress] does. *)
Lemma progress_full : forall s work msg w, exists new,
  w_trace (fst (progress s work msg w)) = w_trace w ++ new /\
  w_cancel (fst (progress s work msg w)) = w_cancel w /\
  (forall l, proj l new = []) /\
  (forall l, length s < l -> (told l new == 0)%Q) /\
  (told (length s) new == wq work)%Q.
Proof.
  induction s as [|c s IH]; intros work msg w; cbn [progress].
  - exists [Reported (@length child []) work msg]. split; [reflexivity|]. split; [reflexivity|].
    split; [reflexivity|]. cbn [told length].
    split.
    + intros l Hl. destruct work; [|reflexivity]. replace (0 =? l) with false by lia. reflexivity.
    + destruct work; cbn; [ring|reflexivity].
  - set (w1 := record _ w). set (ev := Reported (length (c :: s)) work msg).
    assert (Eh : forall l, length (c :: s) < l -> (told l [ev] == 0)%Q).
    { intros l Hl. unfold ev. cbn [told]. destruct work; [|reflexivity].
      replace (length (c :: s) =? l) with false by lia. reflexivity. }
    assert (Et : (told (length (c :: s)) [ev] == wq work)%Q).
    { unfold ev. cbn [told]. destruct work; [|reflexivity]. rewrite Nat.eqb_refl. cbn. ring. }
    assert (B : w_trace w1 = w_trace w ++ [ev]) by reflexivity.
    assert (G : forall wk m, exists new,
        w_trace (fst (progress s wk m w1)) = w_trace w ++ new /\
        w_cancel (fst (progress s wk m w1)) = w_cancel w /\
        (forall l, proj l new = []) /\
        (forall l, length (c :: s) < l -> (told l new == 0)%Q) /\
        (told (length (c :: s)) new == wq work)%Q).
    { intros wk m. destruct (IH wk m w1) as (n2 & C1 & C2 & C3 & C4 & C5).
      exists ([ev] ++ n2). rewrite C1, B, <- app_assoc, C2. split; [reflexivity|]. split; [reflexivity|].
      split; [intros l; rewrite proj_app, C3; reflexivity|]. split.
      - intros l Hl. rewrite told_app, Eh by assumption. rewrite C4 by (cbn in Hl; lia). ring.
      - rewrite told_app, Et, C4 by (cbn; lia). ring. }
    assert (G0 : exists new,
        w_trace w1 = w_trace w ++ new /\ w_cancel w1 = w_cancel w /\
        (forall l, proj l new = []) /\
        (forall l, length (c :: s) < l -> (told l new == 0)%Q) /\
        (told (length (c :: s)) new == wq work)%Q).
    { exists [ev]. repeat split; try assumption. }
    destruct work as [x|]; [|apply G].
    destruct (c_total c) as [t|]; [|exact G0].
    destruct (Qeq_bool t 0); [exact G0|apply G].
Qed.

Lemma progress_live : forall s, live s -> forall work msg w, exists new,
  w_trace (fst (progress s work msg w)) = w_trace w ++ new /\
  snd (progress s work msg w) = None /\ rel s new.
Proof.
  induction s as [|c s IH]; intros HL work msg w.
  - exists [Reported (@length child []) work msg]. split; [reflexivity|]. split; [reflexivity|].
    intros pre c post t Hs. destruct pre; discriminate.
  - inversion HL as [|? ? (t & Ht & Hn) HL']; subst. cbn [progress].
    set (w1 := record _ w). set (ev := Reported (length (c :: s)) work msg).
    assert (B : w_trace w1 = w_trace w ++ [ev]) by reflexivity.
    assert (G : forall wk m, (wq wk == c_partial c / t * wq work)%Q -> exists new,
        w_trace (fst (progress s wk m w1)) = w_trace w ++ new /\
        snd (progress s wk m w1) = None /\ rel (c :: s) new).
    { intros wk m Hwk. destruct (IH HL' wk m w1) as (n2 & C1 & C2 & C3).
      destruct (progress_full s wk m w1) as (n2' & D1 & _ & _ & D4 & D5).
      assert (n2' = n2) by (apply (app_inv_head (w_trace w1)); congruence). subst n2'.
      exists (ev :: n2). split; [rewrite C1, B, <- app_assoc; reflexivity|]. split; [exact C2|].
      intros pre c0 post t0 Hs Ht0. destruct pre as [|c1 pre]; cbn in Hs; inversion Hs; subst.
      - assert (t0 = t) by congruence. subst t0.
        assert (E1 : (told (length post) (ev :: n2) == told (length post) n2)%Q).
        { unfold ev. cbn [told]. destruct work; [|reflexivity].
          replace (length (c0 :: post) =? length post) with false; [reflexivity|].
          symmetry; apply Nat.eqb_neq; cbn [length]; lia. }
        assert (E2 : (told (S (length post)) (ev :: n2) == wq work)%Q).
        { unfold ev. cbn [told]. destruct work; cbn [length].
          - rewrite Nat.eqb_refl. rewrite D4 by lia. cbn. ring.
          - rewrite D4 by lia. reflexivity. }
        rewrite E1, E2, D5. exact Hwk.
      - assert (Hlen : length (c1 :: pre ++ c0 :: post) <> length post) by (cbn; rewrite app_length; cbn; lia).
        assert (Hlen2 : length (c1 :: pre ++ c0 :: post) <> S (length post)) by (cbn; rewrite app_length; cbn; lia).
        pose proof (C3 pre c0 post t0 eq_refl Ht0) as R.
        unfold ev. cbn [told]. destruct work; [|exact R].
        apply Nat.eqb_neq in Hlen, Hlen2. rewrite Hlen, Hlen2. exact R. }
    destruct work as [x|].
    + rewrite Ht. destruct (Qeq_bool t 0) eqn:E; [apply Qeq_bool_iff in E; contradiction|].
      apply G. cbn. field. exact Hn.
    + apply G. cbn. ring.
Qed.

(** Whatever the lower part of the list is, the ancestors see consistent
    amounts. *)
Lemma progress_rel : forall u s, live s -> forall work msg w, exists new,
  w_trace (fst (progress (u ++ s) work msg w)) = w_trace w ++ new /\ rel s new.
Proof.
  induction u as [|c u IH]; intros s HL work msg w.
  - destruct (progress_live s HL work msg w) as (new & H1 & _ & H3). exists new. auto.
  - cbn [app progress]. set (w1 := record _ w). set (ev := Reported (length (c :: u ++ s)) work msg).
    assert (B : w_trace w1 = w_trace w ++ [ev]) by reflexivity.
    assert (R : rel s [ev]).
    { apply rel_zero. intros l Hl. unfold ev. cbn [told]. destruct work; [|reflexivity].
      replace (length (c :: u ++ s) =? l) with false; [reflexivity|].
      symmetry. apply Nat.eqb_neq. cbn. rewrite app_length. lia. }
    assert (G0 : exists new, w_trace w1 = w_trace w ++ new /\ rel s new) by (exists [ev]; auto).
    assert (G : forall wk m, exists new,
       w_trace (fst (progress (u ++ s) wk m w1)) = w_trace w ++ new /\ rel s new).
    { intros wk m. destruct (IH s HL wk m w1) as (n2 & C1 & C2). exists ([ev] ++ n2).
      rewrite C1, B, <- app_assoc. split; [reflexivity|]. apply rel_app; assumption. }
    destruct work as [x|]; [|apply G]. destruct (c_total c) as [t|]; [|exact G0].
    destruct (Qeq_bool t 0); [exact G0|apply G].
Qed.

Lemma progress_error : forall s x y m m' w w',
  snd (progress s (Some x) m w) = None -> snd (progress s (Some y) m' w') = None.
Proof.
  induction s as [|c s IH]; intros x y m m' w w'; cbn [progress]; [reflexivity|].
  destruct (c_total c) as [t|]; [|discriminate]. destruct (Qeq_bool t 0); [discriminate|]. apply IH.
Qed.
Lemma progress_none_ok : forall s m w, snd (progress s None m w) = None.
Proof. induction s as [|c s IH]; intros m w; cbn [progress]; [reflexivity|apply IH]. Qed.

(** * Balanced start/done *)
Lemma start_spec : forall s label total w, 
  let '(w1, s1, e) := start s label total w in
  length s1 = length s /\ tl s1 = tl s /\
  exists new, w_trace w1 = w_trace w ++ new /\
    forall l, proj l new = match e with None => if length s =? l then [true] else [] | Some _ => [] end.
Proof.
  intros s label total w. unfold start. destruct (label =? "")%string.
  - split; [reflexivity|]. split; [reflexivity|]. exists []. rewrite app_nil_r. auto.
  - destruct s as [|c p].
    + split; [reflexivity|]. split; [reflexivity|]. exists [Started 0 label total]. split; [reflexivity|].
      intros l. cbn [proj length]. destruct (0 =? l); reflexivity.
    + destruct (progress_full p (zero_if total) (Some label) w) as (n & P1 & P2 & P3 & _).
      destruct (progress p (zero_if total) (Some label) w) as [w1 [x|]]; cbn [fst] in *.
      * split; [reflexivity|]. split; [reflexivity|]. exists n. auto.
      * split; [reflexivity|]. split; [reflexivity|].
        exists (n ++ [Started (length (c :: p)) label total]). unfold record. cbn [w_trace].
        rewrite P1, app_assoc. split; [reflexivity|]. intros l. rewrite proj_app, P3. cbn [proj app].
        destruct (length (c :: p) =? l); reflexivity.
Qed.

Lemma done_spec : forall s w, exists new,
  w_trace (fst (done s w)) = w_trace w ++ new /\
  forall l, proj l new = if length s =? l then [false] else [].
Proof.
  intros s w. unfold done. destruct s as [|c p].
  - exists [Finished 0]. split; [reflexivity|]. intros l. cbn [proj length]. destruct (0 =? l); reflexivity.
  - set (w1 := record _ w).
    destruct (progress_full p (zero_if (c_total c)) (c_label c) w1) as (n & P1 & _ & P3 & _).
    exists ([Finished (length (c :: p))] ++ n). rewrite P1. unfold w1, record. cbn [w_trace].
    rewrite <- app_assoc. split; [reflexivity|]. intros l. rewrite proj_app, P3, app_nil_r. cbn [proj].
    destruct (length (c :: p) =? l); reflexivity.
Qed.

Lemma run_tail : forall t s w, let '(w1, s1, e) := run t s w in length s1 = length s /\ tl s1 = tl s.
Proof.
  induction t as [|n|work msg|a IHa b IHb|a IHa b IHb|label total body IH|wk body IH| |a IHa b IHb];
    intros s w; cbn [run].
  - auto.
  - auto.
  - destruct (progress s work msg w). auto.
  - specialize (IHa s w). destruct (run a s w) as [[w1 s1] [x|]]; [auto|].
    specialize (IHb s1 w1). destruct (run b s1 w1) as [[w2 s2] e]. intuition congruence.
  - specialize (IHa s w). destruct (run a s w) as [[w1 s1] [x|]]; [|auto].
    specialize (IHb s1 w1). destruct (run b s1 w1) as [[w2 s2] e]. intuition congruence.
  - pose proof (start_spec s label total w) as S. destruct (start s label total w) as [[w1 s1] [x|]].
    + destruct S as (S1 & S2 & _). auto.
    + destruct S as (S1 & S2 & _). specialize (IH s1 w1). destruct (run body s1 w1) as [[w2 s2] r].
      destruct (done s2 w2) as [w3 e3]. intuition congruence.
  - destruct (run body (new_child wk :: s) w) as [[w1 s1] e]. auto.
  - auto.
  - destruct (is_cancelled s w); [apply IHa|apply IHb].
Qed.

Lemma cancel_spec : forall s w, w_trace (cancel s w) = w_trace w /\ w_cancel (cancel s w) = true.
Proof. induction s as [|c s IH]; intros w; cbn [cancel]; [auto|apply IH]. Qed.
Lemma is_cancelled_spec : forall s w, is_cancelled s w = w_cancel w.
Proof. induction s as [|c s IH]; intros w; cbn [is_cancelled]; [auto|apply IH]. Qed.

Lemma run_balanced : forall t s w, exists new,
  w_trace (fst (fst (run t s w))) = w_trace w ++ new /\ forall l, balanced (proj l new).
Proof.
  assert (Z : forall w : world, exists new, w_trace w = w_trace w ++ new /\ forall l, balanced (proj l new)).
  { intros w. exists []. rewrite app_nil_r. split; [reflexivity|]. intros; constructor. }
  assert (J : forall (w0 w1 w2 : world),
    (exists new, w_trace w1 = w_trace w0 ++ new /\ forall l, balanced (proj l new)) ->
    (exists new, w_trace w2 = w_trace w1 ++ new /\ forall l, balanced (proj l new)) ->
    exists new, w_trace w2 = w_trace w0 ++ new /\ forall l, balanced (proj l new)).
  { intros w0 w1 w2 (a & A1 & A2) (b & B1 & B2). exists (a ++ b). rewrite B1, A1, app_assoc.
    split; [reflexivity|]. intros l. rewrite proj_app. apply bal_app; auto. }
  induction t as [|n|work msg|a IHa b IHb|a IHa b IHb|label total body IH|wk body IH| |a IHa b IHb];
    intros s w; cbn [run]; try apply Z.
  - destruct (progress_full s work msg w) as (new & P1 & _ & P3 & _).
    destruct (progress s work msg w) as [w1 e]. cbn [fst] in *. exists new. split; [exact P1|].
    intros l. rewrite P3. constructor.
  - specialize (IHa s w). destruct (run a s w) as [[w1 s1] [x|]]; [exact IHa|].
    eapply J; [exact IHa|apply IHb].
  - specialize (IHa s w). destruct (run a s w) as [[w1 s1] [x|]]; [|exact IHa].
    eapply J; [exact IHa|apply IHb].
  - pose proof (start_spec s label total w) as S. destruct (start s label total w) as [[w1 s1] [x|]].
    + destruct S as (_ & _ & new & S1 & S2). exists new. split; [exact S1|]. intros l. rewrite S2. constructor.
    + destruct S as (SL & _ & n1 & S1 & S2). specialize (IH s1 w1).
      pose proof (run_tail body s1 w1) as RT.
      destruct (run body s1 w1) as [[w2 s2] r]. cbn [fst] in IH. destruct IH as (n2 & B1 & B2).
      destruct (done_spec s2 w2) as (n3 & D1 & D2). destruct (done s2 w2) as [w3 e3]. cbn [fst] in *.
      exists (n1 ++ n2 ++ n3). rewrite D1, B1, S1, <- !app_assoc. split; [reflexivity|].
      intros l. rewrite !proj_app, S2, D2. replace (length s2) with (length s) by (destruct RT; congruence).
      destruct (length s =? l); cbn [app]; [apply bal_wrap; apply B2|]. rewrite app_nil_r. apply B2.
  - specialize (IH (new_child wk :: s) w). destruct (run body (new_child wk :: s) w) as [[w1 s1] e]. exact IH.
  - destruct (cancel_spec s w) as [C1 _]. cbn [fst]. exists []. rewrite C1, app_nil_r.
    split; [reflexivity|]. intros; constructor.
  - destruct (is_cancelled s w); [apply IHa|apply IHb].
Qed.

Lemma no_restart_stack : forall t s w, no_restart t = true -> snd (fst (run t s w)) = s.
Proof.
  induction t as [|n|work msg|a IHa b IHb|a IHa b IHb|label total body IH|wk body IH| |a IHa b IHb];
    intros s w H; cbn [run no_restart] in *; try reflexivity; try discriminate;
    try (apply andb_true_iff in H; destruct H as [Ha Hb]).
  - destruct (progress s work msg w); reflexivity.
  - specialize (IHa s w Ha). destruct (run a s w) as [[w1 s1] [x|]]; cbn in IHa |- *; [exact IHa|].
    subst s1. apply IHb; exact Hb.
  - specialize (IHa s w Ha). destruct (run a s w) as [[w1 s1] [x|]]; cbn in IHa |- *; [|exact IHa].
    subst s1. apply IHb; exact Hb.
  - destruct (run body (new_child wk :: s) w) as [[w1 s1] e]; reflexivity.
  - destruct (is_cancelled s w); auto.
Qed.

(** * Conservation of work *)
Lemma start_rel : forall c u s label total w, live s ->
  exists c' , snd (fst (start (c :: u ++ s) label total w)) = c' :: u ++ s /\
  exists new, w_trace (fst (fst (start (c :: u ++ s) label total w))) = w_trace w ++ new /\ rel s new.
Proof.
  intros c u s label total w HL. unfold start. destruct (label =? "")%string.
  - exists c. split; [reflexivity|]. exists []. rewrite app_nil_r. split; [reflexivity|apply rel_nil].
  - destruct (progress_rel u s HL (zero_if total) (Some label) w) as (n & P1 & P2).
    destruct (progress (u ++ s) (zero_if total) (Some label) w) as [w1 [x|]]; cbn [fst snd] in *.
    + eexists. split; [reflexivity|]. exists n. auto.
    + eexists. split; [reflexivity|].
      exists (n ++ [Started (length (c :: u ++ s)) label total]).
      unfold record; cbn [w_trace]. rewrite P1, app_assoc. split; [reflexivity|].
      apply rel_app; [exact P2|]. apply rel_zero. intros; reflexivity.
Qed.

Lemma done_rel : forall c u s w, live s ->
  exists new, w_trace (fst (done (c :: u ++ s) w)) = w_trace w ++ new /\ rel s new.
Proof.
  intros c u s w HL. unfold done. set (w1 := record _ w).
  destruct (progress_rel u s HL (zero_if (c_total c)) (c_label c) w1) as (n & P1 & P2).
  exists ([Finished (length (c :: u ++ s))] ++ n). rewrite P1. unfold w1, record; cbn [w_trace].
  rewrite <- app_assoc. split; [reflexivity|]. apply rel_app; [|exact P2].
  apply rel_zero. intros; reflexivity.
Qed.

Lemma run_rel : forall t u s w, live s -> (u <> [] \/ no_restart t = true) ->
  exists u', snd (fst (run t (u ++ s) w)) = u' ++ s /\ length u' = length u /\
  exists new, w_trace (fst (fst (run t (u ++ s) w))) = w_trace w ++ new /\ rel s new.
Proof.
  assert (Z : forall (u : stack) s (w : world), exists u' : stack, u ++ s = u' ++ s /\ length u' = length u /\
     exists new, w_trace w = w_trace w ++ new /\ rel s new).
  { intros u s w. exists u. split; [reflexivity|]. split; [reflexivity|]. exists [].
    rewrite app_nil_r. split; [reflexivity|apply rel_nil]. }
  assert (LN : forall u u' : stack, length u' = length u -> u <> [] -> u' <> []).
  { intros [|x u] [|y u']; cbn; congruence. }
  induction t as [|n|work msg|a IHa b IHb|a IHa b IHb|label total body IH|wk body IH| |a IHa b IHb];
    intros u s w HL HU; cbn [run no_restart] in *; try apply Z.
  - destruct (progress_rel u s HL work msg w) as (n & P1 & P2).
    destruct (progress (u ++ s) work msg w) as [w1 e]. cbn [fst snd] in *.
    exists u. split; [reflexivity|]. split; [reflexivity|]. exists n. auto.
  - assert (Ha : u <> [] \/ no_restart a = true) by (destruct HU as [|HU]; [auto|apply andb_true_iff in HU; tauto]).
    destruct (IHa u s w HL Ha) as (u1 & S1 & L1 & n1 & T1 & R1).
    destruct (run a (u ++ s) w) as [[w1 s1] [x|]]; cbn [fst snd] in *.
    + exists u1. split; [exact S1|]. split; [exact L1|]. exists n1. auto.
    + subst s1. assert (Hb : u1 <> [] \/ no_restart b = true).
      { destruct HU as [HU|HU]; [left; eapply LN; eassumption|apply andb_true_iff in HU; tauto]. }
      destruct (IHb u1 s w1 HL Hb) as (u2 & S2 & L2 & n2 & T2 & R2).
      exists u2. split; [exact S2|]. split; [congruence|]. exists (n1 ++ n2).
      rewrite T2, T1, app_assoc. split; [reflexivity|]. apply rel_app; assumption.
  - assert (Ha : u <> [] \/ no_restart a = true) by (destruct HU as [|HU]; [auto|apply andb_true_iff in HU; tauto]).
    destruct (IHa u s w HL Ha) as (u1 & S1 & L1 & n1 & T1 & R1).
    destruct (run a (u ++ s) w) as [[w1 s1] [x|]]; cbn [fst snd] in *.
    + subst s1. assert (Hb : u1 <> [] \/ no_restart b = true).
      { destruct HU as [HU|HU]; [left; eapply LN; eassumption|apply andb_true_iff in HU; tauto]. }
      destruct (IHb u1 s w1 HL Hb) as (u2 & S2 & L2 & n2 & T2 & R2).
      exists u2. split; [exact S2|]. split; [congruence|]. exists (n1 ++ n2).
      rewrite T2, T1, app_assoc. split; [reflexivity|]. apply rel_app; assumption.
    + exists u1. split; [exact S1|]. split; [exact L1|]. exists n1. auto.
  - destruct HU as [HU|HU]; [|discriminate]. destruct u as [|c u]; [contradiction|]. cbn [app].
    destruct (start_rel c u s label total w HL) as (c' & S1 & n1 & T1 & R1).
    destruct (start (c :: u ++ s) label total w) as [[w1 s1] [x|]]; cbn [fst snd] in *; subst s1.
    + exists (c' :: u). split; [reflexivity|]. split; [reflexivity|]. exists n1. auto.
    + assert (HU' : c' :: u <> [] \/ no_restart body = true) by (left; discriminate).
      destruct (IH (c' :: u) s w1 HL HU') as (u2 & S2 & L2 & n2 & T2 & R2). cbn [app] in *.
      destruct (run body (c' :: u ++ s) w1) as [[w2 s2] r]. cbn [fst snd] in *. subst s2.
      destruct u2 as [|c2 u2]; [discriminate L2|]. cbn [app].
      destruct (done_rel c2 u2 s w2 HL) as (n3 & T3 & R3).
      destruct (done (c2 :: u2 ++ s) w2) as [w3 e3]. cbn [fst snd] in *.
      exists (c2 :: u2). split; [reflexivity|]. split; [exact L2|]. exists (n1 ++ n2 ++ n3).
      rewrite T3, T2, T1, <- !app_assoc. split; [reflexivity|].
      apply rel_app; [exact R1|]. apply rel_app; assumption.
  - assert (HU' : new_child wk :: u <> [] \/ no_restart body = true) by (left; discriminate).
    destruct (IH (new_child wk :: u) s w HL HU') as (u2 & S2 & L2 & n2 & T2 & R2). cbn [app] in *.
    destruct (run body (new_child wk :: u ++ s) w) as [[w1 s1] e]. cbn [fst snd] in *.
    exists u. split; [reflexivity|]. split; [reflexivity|]. exists n2. auto.
  - destruct (cancel_spec (u ++ s) w) as [C1 _]. exists u. cbn [fst snd].
    split; [reflexivity|]. split; [reflexivity|]. exists []. rewrite C1, app_nil_r.
    split; [reflexivity|apply rel_nil].
  - destruct (is_cancelled (u ++ s) w).
    + apply IHa; [assumption|]. destruct HU as [|HU]; [auto|apply andb_true_iff in HU; tauto].
    + apply IHb; [assumption|]. destruct HU as [|HU]; [auto|apply andb_true_iff in HU; tauto].
Qed.

Lemma run_low : forall t s w l, (l < length s \/ (l = length s /\ no_restart t = true)) ->
  exists new, w_trace (fst (fst (run t s w))) = w_trace w ++ new /\ proj l new = [].
Proof.
  assert (Z : forall (w : world) l, exists new, w_trace w = w_trace w ++ new /\ proj l new = []).
  { intros w l. exists []. rewrite app_nil_r. auto. }
  assert (J : forall (w0 w1 w2 : world) l,
    (exists new, w_trace w1 = w_trace w0 ++ new /\ proj l new = []) ->
    (exists new, w_trace w2 = w_trace w1 ++ new /\ proj l new = []) ->
    exists new, w_trace w2 = w_trace w0 ++ new /\ proj l new = []).
  { intros w0 w1 w2 l (a & A1 & A2) (b & B1 & B2). exists (a ++ b). rewrite B1, A1, app_assoc.
    split; [reflexivity|]. rewrite proj_app, A2, B2. reflexivity. }
  induction t as [|n|work msg|a IHa b IHb|a IHa b IHb|label total body IH|wk body IH| |a IHa b IHb];
    intros s w l HC; cbn [run no_restart] in *; try apply Z.
  - destruct (progress_full s work msg w) as (new & P1 & _ & P3 & _).
    destruct (progress s work msg w) as [w1 e]. cbn [fst] in *. exists new. auto.
  - assert (HA : l < length s \/ l = length s /\ no_restart a = true) by (rewrite andb_true_iff in HC; tauto).
    specialize (IHa s w l HA). pose proof (run_tail a s w) as RT.
    destruct (run a s w) as [[w1 s1] [x|]]; [exact IHa|].
    eapply J; [exact IHa|]. apply IHb. destruct RT as [RT _]. rewrite RT.
    rewrite andb_true_iff in HC; tauto.
  - assert (HA : l < length s \/ l = length s /\ no_restart a = true) by (rewrite andb_true_iff in HC; tauto).
    specialize (IHa s w l HA). pose proof (run_tail a s w) as RT.
    destruct (run a s w) as [[w1 s1] [x|]]; [|exact IHa].
    eapply J; [exact IHa|]. apply IHb. destruct RT as [RT _]. rewrite RT.
    rewrite andb_true_iff in HC; tauto.
  - destruct HC as [HC|[_ HC]]; [|discriminate].
    pose proof (start_spec s label total w) as S. destruct (start s label total w) as [[w1 s1] [x|]].
    + destruct S as (_ & _ & new & S1 & S2). exists new. split; [exact S1|]. apply S2.
    + destruct S as (SL & _ & n1 & S1 & S2).
      assert (HC1 : l < length s1 \/ l = length s1 /\ no_restart body = true) by (left; lia).
      specialize (IH s1 w1 l HC1).
      pose proof (run_tail body s1 w1) as RT.
      destruct (run body s1 w1) as [[w2 s2] r]. cbn [fst] in IH. destruct IH as (n2 & B1 & B2).
      destruct (done_spec s2 w2) as (n3 & D1 & D2). destruct (done s2 w2) as [w3 e3]. cbn [fst] in *.
      exists (n1 ++ n2 ++ n3). rewrite D1, B1, S1, <- !app_assoc. split; [reflexivity|].
      rewrite !proj_app, S2, D2, B2. destruct RT as [RT _].
      replace (length s =? l) with false by lia. replace (length s2 =? l) with false by lia. reflexivity.
  - assert (HC1 : l < length (new_child wk :: s) \/ l = length (new_child wk :: s) /\ no_restart body = true)
      by (left; cbn; lia).
    specialize (IH (new_child wk :: s) w l HC1).
    destruct (run body (new_child wk :: s) w) as [[w1 s1] e]. exact IH.
  - destruct (cancel_spec s w) as [C1 _]. cbn [fst]. exists []. rewrite C1, app_nil_r. auto.
  - rewrite andb_true_iff in HC. destruct (is_cancelled s w); [apply IHa|apply IHb]; tauto.
Qed.

Lemma run_cancel_mono : forall t s w, w_cancel w = true -> w_cancel (fst (fst (run t s w))) = true.
Proof.
  induction t as [|n|work msg|a IHa b IHb|a IHa b IHb|label total body IH|wk body IH| |a IHa b IHb];
    intros s w H; cbn [run]; try exact H.
  - destruct (progress_full s work msg w) as (new & _ & P2 & _).
    destruct (progress s work msg w) as [w1 e]. cbn [fst] in *. congruence.
  - specialize (IHa s w H). destruct (run a s w) as [[w1 s1] [x|]]; [exact IHa|]. apply IHb; exact IHa.
  - specialize (IHa s w H). destruct (run a s w) as [[w1 s1] [x|]]; [|exact IHa]. apply IHb; exact IHa.
  - assert (S : w_cancel (fst (fst (start s label total w))) = true).
    { unfold start. destruct (label =? "")%string; [exact H|]. destruct s as [|c p]; [exact H|].
      destruct (progress_full p (zero_if total) (Some label) w) as (n & _ & P2 & _).
      destruct (progress p (zero_if total) (Some label) w) as [w1 [x|]]; cbn [fst] in *; cbn; congruence. }
    destruct (start s label total w) as [[w1 s1] [x|]]; [exact S|]. cbn [fst] in S.
    specialize (IH s1 w1 S). destruct (run body s1 w1) as [[w2 s2] r]. cbn [fst] in IH.
    unfold done. destruct s2 as [|c p]; [exact IH|]. set (w2' := record _ w2).
    destruct (progress_full p (zero_if (c_total c)) (c_label c) w2') as (n & _ & P2 & _).
    destruct (progress p (zero_if (c_total c)) (c_label c) w2') as [w3 e3]. cbn [fst] in *.
    rewrite P2. exact IH.
  - specialize (IH (new_child wk :: s) w H). destruct (run body (new_child wk :: s) w) as [[w1 s1] e]. exact IH.
  - apply cancel_spec.
  - destruct (is_cancelled s w); [apply IHa|apply IHb]; exact H.
Qed.

(** * Console *)
Lemma py_round_nearest : forall q, nearest q (py_round q).
Proof.
  intros [n d]. unfold nearest, py_round; cbn [Qnum Qden]. set (D := Zpos d).
  assert (HD : (0 < D)%Z) by reflexivity.
  pose proof (Z.div_mod n D ltac:(lia)) as E. pose proof (Z.mod_pos_bound n D HD) as B.
  assert (K : forall z, (- D <= 2 * (z * D - n) <= D)%Z -> (Qabs (inject_Z z - (n # d)) <= 1 # 2)%Q).
  { intros z Hz. apply Qabs_Qle_condition.
    unfold Qle, Qminus, Qplus, Qopp, inject_Z; cbn [Qnum Qden]. fold D. 
    rewrite Pos2Z.inj_mul. fold D. split; lia. }
  destruct (2 * (n mod D) <? D)%Z eqn:E1; [apply K; nia|].
  destruct (D <? 2 * (n mod D))%Z eqn:E2; [apply K; nia|].
  destruct (Z.even (n / D)); apply K; nia.
Qed.

Lemma text_eqb_eq : forall a b, text_eqb a b = true <-> a = b.
Proof.
  induction a as [|x a IH]; intros [|y b]; cbn [text_eqb]; split; intros H; try discriminate; auto.
  - apply andb_true_iff in H. destruct H as [H1 H2]. apply Ascii.eqb_eq in H1. apply IH in H2. congruence.
  - inversion H; subst. rewrite Ascii.eqb_refl. apply IH. reflexivity.
Qed.
Lemma opt_eqb_eq : forall A (eqb : A -> A -> bool), (forall a b, eqb a b = true <-> a = b) ->
  forall x y, opt_eqb eqb x y = true <-> x = y.
Proof.
  intros A eqb H [x|] [y|]; cbn; rewrite ?H; split; intros; try discriminate; try congruence; auto.
Qed.

Lemma report_nonempty : forall k p m, fst (report k p m) <> [].
Proof.
  intros k p m. unfold report. destruct (k_inline k); cbn [fst]; [discriminate|].
  destruct (line_of k p m); discriminate.
Qed.

Lemma changed_iff : forall k p m,
  negb (opt_eqb Z.eqb p (k_pct k)) || negb (opt_eqb text_eqb m (k_msg k)) = true <->
  (p, m) <> (k_pct k, k_msg k).
Proof.
  intros k p m.
  pose proof (opt_eqb_eq Z Z.eqb Z.eqb_eq p (k_pct k)) as H1.
  pose proof (opt_eqb_eq text text_eqb text_eqb_eq m (k_msg k)) as H2.
  destruct (opt_eqb Z.eqb p (k_pct k)); destruct (opt_eqb text_eqb m (k_msg k)); cbn [negb orb].
  - split; [discriminate|]. intros C. exfalso. apply C. f_equal; [apply H1|apply H2]; reflexivity.
  - split; [intros _ C|reflexivity]. inversion C as [[C1 C2]]. apply H2 in C2. discriminate.
  - split; [intros _ C|reflexivity]. inversion C as [[C1 C2]]. apply H1 in C1. discriminate.
  - split; [intros _ C|reflexivity]. inversion C as [[C1 C2]]. apply H1 in C1. discriminate.
Qed.

(** One progress call. *)
Lemma k_progress_spec : forall k work m o k', k_progress k work m = (o, k', None) ->
  (o <> [] <-> (k_pct k', k_msg k') <> (k_pct k, k_msg k)) /\ k_msg k' = m /\
  k_total k' = k_total k /\
  (work = None -> k_pct k' = None /\ k_worked k' = k_worked k) /\
  (forall x, work = Some x -> exists y, k_worked k = Some y /\ k_worked k' = Some (y + x)%Q /\
     k_pct k' = shown (k_total k) (y + x) work).
Proof.
  intros k work m o k' H. unfold k_progress in H. destruct work as [x|].
  - destruct (k_worked k) as [y|] eqn:Ey; [|discriminate].
    set (k1 := set_worked k (y + x)%Q) in *.
    destruct (calc_pct k1) as [p|e] eqn:Ep; [|discriminate].
    assert (Hp : p = shown (k_total k) (y + x) (Some x)).
    { unfold calc_pct, k1, set_worked in Ep; cbn [k_worked k_total] in Ep. unfold shown.
      destruct (k_total k) as [t|]; [|congruence]. destruct (Qeq_bool t 0); congruence. }
    pose proof (changed_iff k1 p m) as C.
    destruct (negb (opt_eqb Z.eqb p (k_pct k1)) || negb (opt_eqb text_eqb m (k_msg k1))) eqn:EC.
    + pose proof (report_nonempty k1 p m) as N. unfold report in *.
      destruct (k_inline k1); injection H; intros; subst o k'; cbn [fst] in N;
        unfold set_pm; cbn [k_pct k_msg k_total k_worked k1 set_worked];
        (split; [split; [intros _; apply C; reflexivity|intros _; exact N]|];
         repeat (split; [reflexivity|]); split; [discriminate|];
         intros x0 Hx; injection Hx; intros; subst x0; exists y; repeat split; exact Hp).
    + injection H; intros; subst o k'. unfold set_pm; cbn [k_pct k_msg k_total k_worked k1 set_worked].
      split.
      * split; [intros N; exfalso; apply N; reflexivity|intros N; exfalso].
        assert (CF : ~ (p, m) <> (k_pct k1, k_msg k1)) by (rewrite <- C; discriminate). contradiction.
      * repeat (split; [reflexivity|]). split; [discriminate|].
        intros x0 Hx; injection Hx; intros; subst x0; exists y; repeat split; exact Hp.
  - pose proof (changed_iff k None m) as C.
    destruct (negb (opt_eqb Z.eqb None (k_pct k)) || negb (opt_eqb text_eqb m (k_msg k))) eqn:EC.
    + pose proof (report_nonempty k None m) as N. unfold report in *.
      destruct (k_inline k); injection H; intros; subst o k'; cbn [fst] in N;
        unfold set_pm; cbn [k_pct k_msg k_total k_worked];
        (split; [split; [intros _; apply C; reflexivity|intros _; exact N]|];
         repeat (split; [reflexivity|]); split; [split; reflexivity|discriminate]).
    + injection H; intros; subst o k'. unfold set_pm; cbn [k_pct k_msg k_total k_worked].
      split.
      * split; [intros N; exfalso; apply N; reflexivity|intros N; exfalso].
        assert (CF : ~ (@None Z, m) <> (k_pct k, k_msg k)) by (rewrite <- C; discriminate). contradiction.
      * repeat (split; [reflexivity|]). split; [split; reflexivity|discriminate].
Qed.

Lemma worked_sum_snoc : forall ws work m,
  worked_sum (ws ++ [(work, m)]) = match work with Some x => (worked_sum ws + x)%Q | None => worked_sum ws end.
Proof. intros. unfold worked_sum. rewrite fold_left_app. reflexivity. Qed.

Lemma k_progs_spec : forall ws done k total m0 os k2,
  k_total k = total -> k_worked k = Some (worked_sum done) ->
  (k_pct k, k_msg k) = shown_before total m0 (done ++ ws) (length done) ->
  k_progs k ws = Some (os, k2) ->
  forall i o, nth_error os i = Some o ->
  (o <> [] <-> shown_at total (done ++ ws) (length done + i) <>
               shown_before total m0 (done ++ ws) (length done + i)).
Proof.
  induction ws as [|[work m] ws IH]; intros done k total m0 os k2 Ht Hw Hs H i o Hi.
  - injection H; intros; subst. destruct i; discriminate.
  - cbn [k_progs] in H. destruct (k_progress k work m) as [[o1 k1] [e|]] eqn:E; [discriminate|].
    destruct (k_progs k1 ws) as [[os1 k3]|] eqn:E2; [|discriminate].
    injection H; intros; subst os k3. apply k_progress_spec in E.
    destruct E as (P1 & P2 & P3 & P4 & P5).
    assert (Hat : shown_at total (done ++ (work, m) :: ws) (length done) = (k_pct k1, k_msg k1)).
    { unfold shown_at. rewrite nth_error_app2 by lia. rewrite Nat.sub_diag. cbn [nth_error].
      rewrite firstn_app. replace (S (length done) - length done) with 1 by lia.
      rewrite firstn_all2 by lia. cbn [firstn]. rewrite worked_sum_snoc, P2. f_equal.
      destruct work as [x|].
      - destruct (P5 x eq_refl) as (y & Y1 & Y2 & Y3). rewrite Y3. rewrite Hw in Y1.
        injection Y1; intros; subst y. rewrite Ht. reflexivity.
      - destruct (P4 eq_refl) as [Y1 _]. rewrite Y1. reflexivity. }
    destruct i as [|i].
    + cbn in Hi. injection Hi; intros; subst o1. rewrite Nat.add_0_r. rewrite <- Hs, Hat. exact P1.
    + cbn in Hi. specialize (IH (done ++ [(work, m)]) k1 total m0 os1 k2).
      rewrite <- app_assoc in IH. cbn [app] in IH. rewrite app_length in IH. cbn [length] in IH.
      replace (length done + S i) with (length done + 1 + i) by lia.
      apply IH; try assumption.
      * congruence.
      * rewrite worked_sum_snoc. destruct work as [x|].
        -- destruct (P5 x eq_refl) as (y & Y1 & Y2 & Y3). congruence.
        -- destruct (P4 eq_refl) as [_ Y1]. congruence.
      * replace (length done + 1) with (S (length done)) by lia. cbn [shown_before]. symmetry. exact Hat.
Qed.

(** bar *)
Lemma py_int_nonneg : forall n d, (0 <= n)%Z -> py_int (n # d) = (n / Zpos d)%Z.
Proof. intros. unfold py_int; cbn [Qnum Qden]. apply Z.quot_div_nonneg; lia. Qed.

Lemma bar_count : forall size p, (0 <= p <= 100)%Z ->
  py_int (inject_Z (Z.of_nat size * p) / 100 + (1 # 2))%Q = ((Z.of_nat size * p + 50) / 100)%Z.
Proof.
  intros size p Hp. set (n := (Z.of_nat size * p)%Z). assert (Hn : (0 <= n)%Z) by (unfold n; nia).
  unfold py_int, Qdiv, Qinv, inject_Z, Qplus, Qmult. cbn [Qnum Qden]. 
  change (Zpos (1 * 100 * 2)) with 200%Z. change (Zpos (1 * 100)) with 100%Z.
  rewrite Z.quot_div_nonneg by lia.
  replace (n * 1 * 2 + 1 * 100)%Z with (2 * (n + 50))%Z by lia.
  change 200%Z with (2 * 100)%Z. rewrite Z.div_mul_cancel_l by lia. reflexivity.
Qed.

Lemma bar_spec : forall size p, 0 < size -> (0 <= p <= 100)%Z ->
  exists d r, bar_text size p = txt "[" ++ repeat "#"%char d ++ repeat "-"%char r ++ txt "] " /\
    d + r = size /\ (-50 <= 100 * Z.of_nat d - Z.of_nat size * p <= 50)%Z.
Proof.
  intros size p Hs Hp. unfold bar_text. destruct size as [|n]; [lia|]. set (size := S n) in *.
  rewrite bar_count by exact Hp. set (q := ((Z.of_nat size * p + 50) / 100)%Z).
  pose proof (Z.div_mod (Z.of_nat size * p + 50) 100 ltac:(lia)) as E. fold q in E.
  pose proof (Z.mod_pos_bound (Z.of_nat size * p + 50) 100 ltac:(lia)) as B.
  assert (Q0 : (0 <= q)%Z) by (clearbody size; nia).
  assert (Q1 : (q <= Z.of_nat size)%Z) by (clearbody size; nia).
  exists (Z.to_nat q), (Z.to_nat (Z.of_nat size - q)). split; [reflexivity|]. split; lia.
Qed.

Lemma pct_width : forall p, (0 <= p <= 100)%Z -> length (pct_text p) = 4.
Proof.
  intros p Hp.
  assert (F : forallb (fun n => length (pct_text (Z.of_nat n)) =? 4) (seq 0 101) = true) by (vm_compute; reflexivity).
  rewrite forallb_forall in F. specialize (F (Z.to_nat p)). rewrite Z2Nat.id in F by lia.
  apply Nat.eqb_eq. apply F. apply in_seq. lia.
Qed.

(** terminal *)
Lemma overwrite_in : forall cur pos c, pos <= length cur ->
  overwrite cur pos c = firstn pos cur ++ c :: skipn (S pos) cur.
Proof.
  intros cur pos c H. unfold overwrite. replace (pos - length cur) with 0 by lia.
  cbn [repeat]. rewrite app_nil_r. reflexivity.
Qed.

Lemma skipn_skipn' : forall (A : Type) (n m : nat) (l : list A), skipn n (skipn m l) = skipn (m + n) l.
Proof.
  intros A n m. induction m as [|m IH]; intros l; [reflexivity|].
  destruct l; [cbn; apply skipn_nil|apply IH].
Qed.

Lemma tputs_plain : forall t cur pos, plain t -> pos <= length cur ->
  tputs (cur, pos) t = (firstn pos cur ++ t ++ skipn (pos + length t) cur, pos + length t).
Proof.
  unfold tputs. induction t as [|c t IH]; intros cur pos [P1 P2] Hp; cbn [fold_left].
  - cbn [length app]. rewrite Nat.add_0_r, firstn_skipn. reflexivity.
  - assert (E : tput (cur, pos) c = (firstn pos cur ++ c :: skipn (S pos) cur, S pos)).
    { unfold tput; cbn [fst snd].
      destruct (Ascii.eqb c cr) eqn:E1; [apply Ascii.eqb_eq in E1; subst; exfalso; apply P1; left; reflexivity|].
      destruct (Ascii.eqb c nl) eqn:E2; [apply Ascii.eqb_eq in E2; subst; exfalso; apply P2; left; reflexivity|].
      rewrite overwrite_in by exact Hp. reflexivity. }
    assert (L : length (firstn pos cur) = pos) by (apply firstn_length_le; exact Hp).
    rewrite E. rewrite IH.
    + cbn [length]. replace (S pos + length t) with (pos + S (length t)) by lia. f_equal.
      rewrite firstn_app, L, (firstn_all2 (firstn pos cur)) by lia. replace (S pos - pos) with 1 by lia.
      change (firstn 1 (c :: skipn (S pos) cur)) with [c]. rewrite <- !app_assoc. cbn [app]. do 2 f_equal.
      rewrite skipn_app, L. rewrite (skipn_all2 (firstn pos cur)) by lia.
      replace (pos + S (length t) - pos) with (S (length t)) by lia.
      change (skipn (S (length t)) (c :: skipn (S pos) cur)) with (skipn (length t) (skipn (S pos) cur)).
      cbn [app]. rewrite skipn_skipn'. f_equal. f_equal. lia.
    + split; intros H; [apply P1|apply P2]; right; exact H.
    + rewrite app_length, L. cbn [length]. lia.
Qed.

Lemma tputs_app : forall t a b, tputs t (a ++ b) = tputs (tputs t a) b.
Proof. intros. unfold tputs. apply fold_left_app. Qed.

(** characters of the lines *)
Lemma plain_app : forall a b, plain a -> plain b -> plain (a ++ b).
Proof. intros a b [A1 A2] [B1 B2]. split; rewrite in_app_iff; tauto. Qed.
Lemma plain_repeat : forall c n, c <> cr -> c <> nl -> plain (repeat c n).
Proof. intros c n H1 H2. split; intros H; apply repeat_spec in H; congruence. Qed.
Definition plainb (t : text) : bool := forallb (fun c => negb (Ascii.eqb c cr) && negb (Ascii.eqb c nl)) t.
Lemma plainb_plain : forall t, plainb t = true -> plain t.
Proof.
  intros t H. unfold plainb in H. rewrite forallb_forall in H.
  split; intros C; apply H in C; vm_compute in C; discriminate.
Qed.
Lemma plain_uint : forall d, plainb (txt (DecimalString.NilEmpty.string_of_uint d)) = true.
Proof. induction d as [|d IH|d IH|d IH|d IH|d IH|d IH|d IH|d IH|d IH|d IH]; try reflexivity; exact IH. Qed.
Lemma plain_dec : forall z, plain (dec z).
Proof.
  intros z. apply plainb_plain. unfold dec.
  assert (U : forall d, plainb (txt (DecimalString.NilZero.string_of_uint d)) = true).
  { intros d. destruct d; try reflexivity; apply (plain_uint); fail. }
  destruct (Z.to_int z) as [d|d]; cbn [DecimalString.NilZero.string_of_int]; [apply U|].
  exact (U d).
Qed.
Lemma plain_bar : forall size p, plain (bar_text size p).
Proof.
  intros size p. unfold bar_text. destruct size; [apply plainb_plain; reflexivity|].
  apply plain_app; [apply plainb_plain; reflexivity|].
  apply plain_app; [apply plain_repeat; discriminate|].
  apply plain_app; [apply plain_repeat; discriminate|apply plainb_plain; reflexivity].
Qed.
Lemma plain_pct : forall p, plain (pct_text p).
Proof.
  intros p. unfold pct_text. apply plain_app; [apply plain_repeat; discriminate|].
  apply plain_app; [apply plain_dec|apply plainb_plain; reflexivity].
Qed.
Definition plain_opt (m : option text) : Prop := match m with Some t => plain t | None => True end.
Lemma plain_line : forall k p m, plain (k_label k) -> plain_opt m -> plain (line_of k p m).
Proof.
  intros k p m Hl Hm. unfold line_of.
  assert (Ht : plain_opt (truthy m)).
  { destruct m as [[|c t]|]; [exact I|exact Hm|exact I]. }
  destruct p as [z|]; destruct (truthy m) as [t|]; cbn [plain_opt] in Ht;
    repeat (apply plain_app; [assumption || apply plain_bar || apply plain_pct || (apply plainb_plain; reflexivity)|]);
    assumption || apply plain_bar || apply plain_pct || (apply plainb_plain; reflexivity).
Qed.

(** the terminal line keeps only blanks behind the last line *)
Definition tinv (k : console) (t : tline) : Prop :=
  k_inline k = true /\ plain (k_label k) /\ plain_opt (k_msg k) /\
  exists n, skipn (k_last k) (fst t) = repeat sp n.

Lemma skipn_repeat : forall n m, skipn n (repeat sp m) = repeat sp (m - n).
Proof.
  induction n as [|n IH]; intros m; [rewrite Nat.sub_0_r; reflexivity|].
  destruct m as [|m]; [reflexivity|]. cbn [repeat skipn]. rewrite IH. f_equal.
Qed.

Lemma report_tinv : forall k t p m, tinv k t -> plain_opt m ->
  tinv (snd (report k p m)) (tputs t (fst (report k p m))) /\
  exists n, fst (tputs t (fst (report k p m))) = line_of k p m ++ repeat sp n.
Proof.
  intros k [cur pos] p m (I1 & I2 & I3 & n0 & I4) Hm. unfold report. rewrite I1. cbn [fst snd] in *.
  set (line := line_of k p m).
  assert (PL : plain line) by (apply plain_line; assumption).
  assert (E : exists n, fst (tputs (cur, pos)
     (cr :: line ++ (if k_last k =? 0 then [] else repeat sp (k_last k - length line)))) = line ++ repeat sp n).
  { set (pad := if k_last k =? 0 then [] else repeat sp (k_last k - length line)).
    change (cr :: line ++ pad) with ([cr] ++ (line ++ pad)). rewrite tputs_app.
    assert (E0 : tputs (cur, pos) [cr] = (cur, 0)) by reflexivity. rewrite E0.
    assert (EP : pad = repeat sp (k_last k - length line)).
    { unfold pad. destruct (k_last k =? 0) eqn:Z0; [|reflexivity].
      replace (k_last k - length line) with 0 by lia. reflexivity. }
    rewrite tputs_plain; [| |lia].
    - cbn [fst firstn app]. rewrite EP, !app_length, repeat_length, <- app_assoc.
      assert (S1 : skipn (0 + (length line + (k_last k - length line))) cur =
                   repeat sp (n0 - (length line + (k_last k - length line) - k_last k))).
      { rewrite <- skipn_repeat, <- I4, skipn_skipn'. f_equal. lia. }
      rewrite S1, <- repeat_app. eexists; reflexivity.
    - apply plain_app; [exact PL|]. rewrite EP. apply plain_repeat; discriminate. }
  split; [|exact E]. unfold tinv; cbn [k_inline k_label k_msg k_last].
  split; [reflexivity|]. split; [exact I2|]. split; [exact I3|].
  destruct E as [n En]. exists n. rewrite En. rewrite skipn_app, skipn_all2 by lia.
  rewrite Nat.sub_diag. reflexivity.
Qed.

(** The text of a report in multi-line mode. *)
Lemma report_multi : forall k p m, fst (report (multiline k) p m) = line_of k p m ++ [nl].
Proof. reflexivity. Qed.

Definition visible_ok (k : console) (t : tline) (c : kcall) (o : text) : Prop :=
  o = [] \/
  exists line body n, fst (fst (k_step (multiline k) c)) = line ++ [nl] /\
    o = body ++ match c with KDone => [nl] | _ => [] end /\
    fst (tputs t body) = line ++ repeat sp n.

Lemma step_tinv : forall k t c, tinv k t -> plain_call c ->
  let '(o, k', e) := k_step k c in tinv k' (tputs t o) /\ visible_ok k t c o.
Proof.
  intros k t c HI Hc. destruct c as [label total|work m| |]; cbn [k_step].
  - cbn [plain_call] in Hc. destruct label as [|ch l].
    + cbn [k_start]. split; [exact HI|left; reflexivity].
    + set (label := ch :: l) in *.
      set (k1 := {| k_inline := k_inline k; k_bar := k_bar k; k_label := label; k_worked := Some 0%Q;
                 k_total := total; k_pct := None; k_cancelled := k_cancelled k;
                 k_last := k_last k; k_msg := k_msg k |}).
      assert (HI1 : tinv k1 t).
      { destruct HI as (I1 & I2 & I3 & I4). unfold tinv, k1; cbn. auto. }
      destruct (report_tinv k1 t None (Some (txt "started")) HI1) as [R1 [n R2]];
        [apply plainb_plain; reflexivity|].
      assert (ES : k_start k label total =
                   (fst (report k1 None (Some (txt "started"))), snd (report k1 None (Some (txt "started"))), None)).
      { unfold k_start, label. fold label. fold k1. destruct (report k1 None (Some (txt "started"))). reflexivity. }
      rewrite ES. split; [exact R1|]. right.
      exists (line_of k1 None (Some (txt "started"))), (fst (report k1 None (Some (txt "started")))), n.
      split; [reflexivity|]. split; [rewrite app_nil_r; reflexivity|exact R2].
  - assert (Hm : plain_opt m) by (destruct m; exact Hc || exact I).
    assert (SP : forall k' t' p m', plain_opt m' -> tinv k' t' -> tinv (set_pm k' p m') t').
    { intros k' t' p m' H' (I1 & I2 & I3 & I4). unfold tinv, set_pm; cbn. auto. }
    unfold k_progress. destruct work as [x|].
    + destruct (k_worked k) as [y|] eqn:Ey; [|split; [exact HI|left; reflexivity]].
      set (k1 := set_worked k (y + x)%Q).
      assert (HI1 : tinv k1 t) by exact HI.
      destruct (calc_pct k1) as [p|e] eqn:Ep; [|split; [exact HI1|left; reflexivity]].
      destruct (negb (opt_eqb Z.eqb p (k_pct k1)) || negb (opt_eqb text_eqb m (k_msg k1))) eqn:EC.
      * destruct (report_tinv k1 t p m HI1 Hm) as [R1 [n R2]].
        destruct (report k1 p m) as [o k2] eqn:ER. cbn [fst snd] in *.
        split; [apply SP; assumption|]. right. exists (line_of k1 p m), o, n.
        split; [|split; [rewrite app_nil_r; reflexivity|exact R2]].
        cbn [k_step k_progress]. unfold k_progress.
        change (k_worked (multiline k)) with (k_worked k). rewrite Ey.
        change (calc_pct (set_worked (multiline k) (y + x)%Q)) with (calc_pct k1). rewrite Ep.
        change (k_pct (set_worked (multiline k) (y + x)%Q)) with (k_pct k1).
        change (k_msg (set_worked (multiline k) (y + x)%Q)) with (k_msg k1). rewrite EC. reflexivity.
      * split; [apply SP; assumption|left; reflexivity].
    + destruct (negb (opt_eqb Z.eqb None (k_pct k)) || negb (opt_eqb text_eqb m (k_msg k))) eqn:EC.
      * destruct (report_tinv k t None m HI Hm) as [R1 [n R2]].
        destruct (report k None m) as [o k2] eqn:ER. cbn [fst snd] in *.
        split; [apply SP; assumption|]. right. exists (line_of k None m), o, n.
        split; [|split; [rewrite app_nil_r; reflexivity|exact R2]].
        cbn [k_step]. unfold k_progress.
        change (k_pct (multiline k)) with (k_pct k). change (k_msg (multiline k)) with (k_msg k).
        rewrite EC. reflexivity.
      * split; [apply SP; assumption|left; reflexivity].
  - unfold k_done.
    set (m := if k_cancelled k then txt "cancelled" else match k_msg k with None => txt "done" | Some t => t end).
    assert (Hm : plain_opt (Some m)).
    { unfold m. destruct (k_cancelled k); [apply plainb_plain; reflexivity|].
      destruct HI as (_ & _ & I3 & _). destruct (k_msg k); [exact I3|apply plainb_plain; reflexivity]. }
    destruct (report_tinv k t None (Some m) HI Hm) as [R1 [n R2]].
    destruct (report k None (Some m)) as [o k2] eqn:ER. cbn [fst snd] in *.
    assert (HIn : k_inline k = true) by (destruct HI; assumption). rewrite HIn.
    split.
    + destruct R1 as (J1 & J2 & J3 & J4). unfold tinv. split; [exact J1|]. split; [exact J2|].
      split; [exact J3|]. exists 0. rewrite tputs_app.
      assert (EN : forall t', tputs t' [nl] = ([], 0)) by (intros; reflexivity).
      rewrite EN. cbn [fst repeat]. apply skipn_nil.
    + right. exists (line_of k None (Some m)), o, n. split; [|split; [reflexivity|exact R2]].
      cbn [k_step]. unfold k_done.
      change (k_cancelled (multiline k)) with (k_cancelled k). change (k_msg (multiline k)) with (k_msg k).
      fold m. cbn [report multiline k_inline]. rewrite app_nil_r. reflexivity.
  - split; [exact HI|left; reflexivity].
Qed.

Lemma run_tinv : forall cs k t, tinv k t -> Forall plain_call cs ->
  tinv (snd (k_run k cs)) (tputs t (fst (k_run k cs))).
Proof.
  induction cs as [|c cs IH]; intros k t HI HF; [exact HI|].
  inversion HF; subst. cbn [k_run]. pose proof (step_tinv k t c HI H1) as S.
  destruct (k_step k c) as [[o k1] e]. destruct S as [S _]. specialize (IH k1 (tputs t o) S H2).
  destruct (k_run k1 cs) as [o2 k2]. cbn [fst snd] in *. rewrite tputs_app. exact IH.
Qed.
