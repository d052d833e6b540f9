(** C144: what is printed is fetched, and nothing else changes. *)
From Coq Require Import String List Arith Bool Lia.
From Verif Require Import FetchModel FetchSpec.
Import ListNotations.
Local Open Scope string_scope.
Local Open Scope nat_scope.

Lemma update_length : forall l i x, length (update l i x) = length l.
Proof. induction l as [|y l IH]; intros [|i] x; cbn; [reflexivity..|]. now rewrite IH. Qed.
Lemma nth_update : forall l i j x d, i < length l -> nth j (update l i x) d = if j =? i then x else nth j l d.
Proof.
  induction l as [|y l IH]; intros i j x d H; cbn in H; [lia|]. destruct i as [|i], j as [|j]; cbn; try reflexivity. apply IH. lia.
Qed.
Lemma app_empty : forall s, (s ++ "")%string = s.
Proof. induction s as [|c s IH]; cbn; [reflexivity|now rewrite IH]. Qed.
Lemma app_assoc3 : forall a b c, ((a ++ b) ++ c)%string = (a ++ (b ++ c))%string.
Proof. induction a as [|x a IH]; intros b c; cbn; [reflexivity|now rewrite IH]. Qed.

(** What a program adds to one of the streams there were before. *)
Definition added (st : state) (p : prog) (i : nat) : string :=
  if i =? s_out st then printed p else if i =? s_err st then complained p else "".
Definition result (p : prog) (st st' : state) : Prop :=
  s_out st' = s_out st /\ s_err st' = s_err st /\ length (streams st) <= length (streams st') /\
  forall i, i < length (streams st) -> at_ i st' = mk_stream (s_text (at_ i st) ++ added st p i)%string (s_closed (at_ i st)).
Lemma stream_eta : forall x, mk_stream (s_text x ++ "")%string (s_closed x) = x.
Proof. intros [t c]. cbn. now rewrite app_empty. Qed.
Lemma result_refl : forall p st, printed p = "" -> complained p = "" -> result p st st.
Proof.
  intros p st P C. unfold result, added. rewrite P, C. repeat split; [lia|]. intros i H. destruct (i =? s_out st), (i =? s_err st); now rewrite stream_eta.
Qed.
Lemma write_ready : forall i s st, ready st -> i = s_out st \/ i = s_err st ->
  exists st', write i s st = Some st' /\ ready st' /\ s_out st' = s_out st /\ s_err st' = s_err st /\ length (streams st') = length (streams st) /\
    forall j, at_ j st' = if j =? i then mk_stream (s_text (at_ i st) ++ s)%string false else at_ j st.
Proof.
  intros i s st (A & B & D & C1 & C2) I. assert (OP : s_closed (at_ i st) = false) by (destruct I as [-> | ->]; assumption).
  assert (LI : i < length (streams st)) by (destruct I as [-> | ->]; assumption).
  unfold write. rewrite OP. eexists. split; [reflexivity|].
  assert (AT : forall j, at_ j (set_stream i (mk_stream (s_text (at_ i st) ++ s)%string false) st) = if j =? i then mk_stream (s_text (at_ i st) ++ s)%string false else at_ j st).
  { intros j. unfold at_ at 1, set_stream. cbn [streams]. rewrite nth_update by exact LI. reflexivity. }
  split; [|split; [reflexivity|split; [reflexivity|split; [apply update_length|exact AT]]]].
  unfold ready. rewrite !AT. cbn [set_stream s_out s_err streams]. rewrite update_length. repeat split; try assumption.
  - destruct (s_out st =? i); [reflexivity|exact C1].
  - destruct (s_err st =? i); [reflexivity|exact C2].
Qed.
Lemma run_ok : forall p st, decent p -> ready st -> result p st (fst (run p st)) /\ snd (run p st) = raises p /\ ready (fst (run p st)).
Proof.
  induction p as [| |s n IH|s n IH|n IH|n IH|b IHb n IH]; intros st D R; cbn [decent] in D; try contradiction.
  - split; [now apply result_refl|]. split; [reflexivity|exact R].
  - split; [now apply result_refl|]. split; [reflexivity|exact R].
  - cbn [run raises]. destruct (write_ready (s_out st) s st R (or_introl eq_refl)) as (st1 & -> & R1 & O & E & L & AT).
    destruct (IH st1 D R1) as ((X1 & X2 & X3 & X4) & Y & Z). split; [|split; [exact Y|exact Z]]. unfold result. rewrite X1, X2, O, E, <- L.
    split; [reflexivity|]. split; [reflexivity|]. split; [exact X3|]. intros i H. rewrite (X4 i H), AT. unfold added. rewrite O, E. cbn [printed complained].
    destruct (Nat.eqb_spec i (s_out st)) as [->|N]; [|reflexivity]. cbn [s_text s_closed]. destruct R as (_ & _ & _ & C1 & _). rewrite C1, app_assoc3. reflexivity.
  - cbn [run raises]. destruct (write_ready (s_err st) s st R (or_intror eq_refl)) as (st1 & -> & R1 & O & E & L & AT).
    destruct (IH st1 D R1) as ((X1 & X2 & X3 & X4) & Y & Z). split; [|split; [exact Y|exact Z]]. unfold result. rewrite X1, X2, O, E, <- L.
    split; [reflexivity|]. split; [reflexivity|]. split; [exact X3|]. intros i H. rewrite (X4 i H), AT. unfold added. rewrite O, E. cbn [printed complained].
    destruct R as (_ & _ & NE & _ & C2).
    destruct (Nat.eqb_spec i (s_out st)) as [->|N]; [rewrite (proj2 (Nat.eqb_neq _ _) NE); reflexivity|].
    destruct (Nat.eqb_spec i (s_err st)) as [->|N2]; [|reflexivity]. cbn [s_text s_closed]. rewrite C2, app_assoc3. reflexivity.
  - cbn [run]. destruct D as (Db & Dn). pose proof R as (A & B & NE & C1 & C2).
    assert (FL : flushes st = true) by (unfold flushes; rewrite C1, C2; reflexivity). rewrite FL.
    assert (RD : forall i, i < length (streams st) -> at_ i (redirected st) = at_ i st) by (intros i H; unfold at_, redirected; cbn [streams]; now rewrite app_nth1).
    assert (RR : ready (redirected st)).
    { unfold ready, at_, redirected. cbn [s_out s_err streams]. rewrite app_length. cbn [length]. rewrite !app_nth2 by lia.
      replace (length (streams st) - length (streams st)) with 0 by lia. replace (S (length (streams st)) - length (streams st)) with 1 by lia. cbn. repeat split; lia. }
    destruct (IHb (redirected st) Db RR) as ((X1 & X2 & X3 & X4) & Y & Z). destruct (run b (redirected st)) as [st1 r]. cbn [fst snd] in *. subst r.
    assert (FL1 : flushes st1 = true) by (destruct Z as (_ & _ & _ & Z1 & Z2); unfold flushes; rewrite Z1, Z2; reflexivity). rewrite FL1.
    set (st2 := mk_state (streams st1) (s_out st) (s_err st)).
    assert (L1 : length (streams st) <= length (streams st1)) by (unfold redirected in X3; cbn [streams] in X3; rewrite app_length in X3; lia).
    assert (OLD : forall i, i < length (streams st) -> at_ i st2 = at_ i st).
    { intros i H. change (at_ i st2) with (at_ i st1). rewrite X4 by (unfold redirected; cbn [streams]; rewrite app_length; lia). rewrite RD by exact H. unfold added. cbn [redirected s_out s_err].
      rewrite (proj2 (Nat.eqb_neq i (length (streams st)))) by lia. rewrite (proj2 (Nat.eqb_neq i (S (length (streams st))))) by lia. apply stream_eta. }
    assert (R2 : ready st2) by (unfold ready; rewrite !OLD by (cbn [st2 s_out s_err]; assumption); cbn [st2 s_out s_err streams]; repeat split; try assumption; lia).
    assert (RES : forall q, printed q = "" -> complained q = "" -> result q st st2).
    { intros q P C. unfold result. split; [reflexivity|]. split; [reflexivity|]. split; [exact L1|]. intros i H. rewrite OLD by exact H. unfold added. rewrite P, C.
      destruct (i =? s_out st), (i =? s_err st); now rewrite stream_eta. }
    cbn [raises]. destruct (raises b) eqn:RB; cbn [orb].
    + split; [|split; [reflexivity|exact R2]]. cbn [fst]. apply RES; cbn [printed complained]; rewrite RB; reflexivity.
    + destruct (IH st2 Dn R2) as ((W1 & W2 & W3 & W4) & V & U). split; [|split; [exact V|exact U]]. unfold result. rewrite W1, W2. split; [reflexivity|]. split; [reflexivity|].
      split; [change (length (streams st2)) with (length (streams st1)) in W3; lia|]. intros i H.
      rewrite W4 by (change (length (streams st2)) with (length (streams st1)); lia). rewrite OLD by exact H. unfold added. cbn [st2 s_out s_err printed complained]. rewrite RB. reflexivity.
Qed.

(** After any program that does not close its streams, with blocks nested in any way and
    with or without an exception, the streams are those of before; each has got the
    texts printed to it outside blocks; no other stream of before has changed; and an
    exception is passed on. *)
Theorem C144_restored : forall p st, decent p -> ready st ->
  s_out (fst (run p st)) = s_out st /\ s_err (fst (run p st)) = s_err st /\ snd (run p st) = raises p /\
  s_text (at_ (s_out st) (fst (run p st))) = (s_text (at_ (s_out st) st) ++ printed p)%string /\
  s_text (at_ (s_err st) (fst (run p st))) = (s_text (at_ (s_err st) st) ++ complained p)%string /\
  forall i, i < length (streams st) -> i <> s_out st -> i <> s_err st -> at_ i (fst (run p st)) = at_ i st.
Proof.
  intros p st D R. destruct (run_ok p st D R) as ((A & B & _ & X) & Y & _). destruct R as (LO & LE & NE & _).
  split; [exact A|]. split; [exact B|]. split; [exact Y|]. split; [|split].
  - rewrite (X _ LO). unfold added. rewrite Nat.eqb_refl. reflexivity.
  - rewrite (X _ LE). unfold added. rewrite Nat.eqb_refl. rewrite (proj2 (Nat.eqb_neq (s_err st) (s_out st))) by congruence. reflexivity.
  - intros i H N1 N2. rewrite (X _ H). unfold added. rewrite (proj2 (Nat.eqb_neq _ _) N1), (proj2 (Nat.eqb_neq _ _) N2). apply stream_eta.
Qed.
Print Assumptions C144_restored.

(** The two streams of a block have got exactly what its body printed. *)
Theorem C144_fetched : forall b st, decent b -> ready st -> let n := length (streams st) in let st' := fst (run (Fetch b Done) st) in
  at_ n st' = mk_stream (printed b) false /\ at_ (S n) st' = mk_stream (complained b) false /\ snd (run (Fetch b Done) st) = raises b.
Proof.
  intros b st D R n st'. unfold st', n. cbn [run]. destruct R as (A & B & NE & C1 & C2).
  assert (FL : flushes st = true) by (unfold flushes; rewrite C1, C2; reflexivity). rewrite FL.
  assert (RR : ready (redirected st)).
  { unfold ready, at_, redirected. cbn [s_out s_err streams]. rewrite app_length. cbn [length]. rewrite !app_nth2 by lia.
    replace (length (streams st) - length (streams st)) with 0 by lia. replace (S (length (streams st)) - length (streams st)) with 1 by lia. cbn. repeat split; lia. }
  assert (N1 : at_ (length (streams st)) (redirected st) = mk_stream "" false).
  { unfold at_, redirected. cbn [streams]. rewrite app_nth2 by lia. replace (length (streams st) - length (streams st)) with 0 by lia. reflexivity. }
  assert (N2 : at_ (S (length (streams st))) (redirected st) = mk_stream "" false).
  { unfold at_, redirected. cbn [streams]. rewrite app_nth2 by lia. replace (S (length (streams st)) - length (streams st)) with 1 by lia. reflexivity. }
  destruct (run_ok b (redirected st) D RR) as ((X1 & X2 & X3 & X4) & Y & Z). destruct (run b (redirected st)) as [st1 r]. cbn [fst snd] in *. subst r.
  assert (FL1 : flushes st1 = true) by (destruct Z as (_ & _ & _ & Z1 & Z2); unfold flushes; rewrite Z1, Z2; reflexivity). rewrite FL1.
  assert (L2 : length (streams (redirected st)) = S (S (length (streams st)))) by (unfold redirected; cbn [streams]; rewrite app_length; cbn; lia).
  assert (V1 : at_ (length (streams st)) st1 = mk_stream (printed b) false).
  { rewrite X4 by lia. rewrite N1. unfold added. cbn [redirected s_out s_err s_text s_closed]. rewrite Nat.eqb_refl. reflexivity. }
  assert (V2 : at_ (S (length (streams st))) st1 = mk_stream (complained b) false).
  { rewrite X4 by lia. rewrite N2. unfold added. cbn [redirected s_out s_err s_text s_closed]. rewrite Nat.eqb_refl. rewrite (proj2 (Nat.eqb_neq (S (length (streams st))) (length (streams st)))) by lia. reflexivity. }
  destruct (raises b); cbn [run fst snd]; repeat split; assumption.
Qed.
Print Assumptions C144_fetched.

(** Of programs that close a fetched stream this is false: the block ends with an error
    and the streams of before are never put back, so everything printed later is lost. *)
Definition closing : prog := Fetch (Print "a" (CloseOut Done)) Done.
Definition start : state := mk_state [mk_stream "" false; mk_stream "" false] 0 1.
Theorem C144_closing_refuted : ~ forall p st, ready st -> s_out (fst (run p st)) = s_out st /\ snd (run p st) = raises p.
Proof. intros H. assert (R : ready start) by (cbv; repeat split; lia). destruct (H closing start R) as (X & _). discriminate X. Qed.
Print Assumptions C144_closing_refuted.

(** Non-vacuity. *)
Definition nested : prog := Print "1" (Fetch (Print "2" (Fetch (Complain "3" Raise) (Print "4" Done))) (Print "5" Done)).
Example C144_example : ready start /\ decent nested /\ raises nested = true /\ printed nested = "1" /\
  map s_text (streams (fst (run nested start))) = ["1"; ""; "2"; ""; ""; "3"] /\
  map s_text (streams (fst (run (Fetch (Print "x" (Complain "y" Done)) (Print "z" Done)) start))) = ["z"; ""; "x"; "y"] /\
  s_out (fst (run closing start)) = 2.
Proof. split; [cbv; repeat split; lia|]. split; [cbv; tauto|]. repeat split; reflexivity. Qed.
