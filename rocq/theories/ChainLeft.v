(** C12 continued: what a run does with the surfaces an earlier run of the
    same processor left in the queue (a run that was cancelled or failed). *)
From Coq Require Import List Bool Arith ZArith QArith Lia.
From Verif Require Import Common ChainModel ChainSpec ChainAux ChainProofs ChainProps ChainIndep.
Import ListNotations.
Open Scope nat_scope.
Open Scope list_scope.

Section Left.
Variables (cf : cfg) (o : oracle) (base : nat) (surfs0 : list surface) (snext : nat).

Lemma burst_keys : forall w todo visited q e q1, burst_loop cf o w visited todo q = (e, q1) ->
  map skey (q_surfs q1) = map skey (q_surfs q) /\ q_count q1 = q_count q /\ q_next q1 = q_next q.
Proof.
  intros w. induction todo as [|p todo IH]; intros visited q e q1 H; cbn [burst_loop] in H.
  - injection H as _ <-. repeat split.
  - destruct (p_done p); [exact (IH _ _ _ _ H)|].
    unfold beam_step in H. cbv zeta beta iota in H.
    match type of H with context [pair_loop ?a ?b ?c ?d ?i ?s ?l] => set (pl := pair_loop a b c d i s l) in H;
      assert (K : map skey pl = map skey (q_surfs q)) by apply pair_loop_key end.
    destruct (azimuth_fails _ _ _ _ _); [injection H as _ <-; cbn; auto|].
    match type of H with context [if ?b then _ else _] => destruct b end.
    + destruct (IH _ _ _ _ H) as (A & B & C). cbn [q_surfs q_count q_next] in *. rewrite A, K. auto.
    + injection H as _ <-. cbn. auto.
Qed.

Definition keys_ok (D : list surface) (q : que) : Prop :=
  exists locs, length locs = q_count q /\ q_next q = snext + q_count q /\
  map skey (D ++ q_surfs q) =
    map skey surfs0 ++ map (fun i => (snext + i, i, nth i locs 0)) (seq 0 (q_count q)).

Lemma keys_ok_eq : forall D q D1 q1, keys_ok D q -> map skey (D1 ++ q_surfs q1) = map skey (D ++ q_surfs q) ->
  q_count q1 = q_count q -> q_next q1 = q_next q -> keys_ok D1 q1.
Proof. intros D q D1 q1 (l & A & B & C) E F G. exists l. rewrite E, F, G. auto. Qed.

Lemma surface_keys : forall q w e q1 w1, surface_phase cf o q w = (e, q1, w1) ->
  keys_ok (map fst (w_done w)) q -> keys_ok (map fst (w_done w1)) q1.
Proof.
  intros q w e q1 w1 H K. unfold surface_phase in H.
  destruct (q_surfs q) as [|s0 ss] eqn:QS; [injection H as _ <- <-; exact K|].
  destruct (burst_loop cf o (s_uid s0) [] (q_packs q) q) as [e2 q2] eqn:B.
  destruct (burst_keys _ _ _ _ _ _ B) as (B1 & B2 & B3).
  assert (K2 : keys_ok (map fst (w_done w)) q2).
  { apply (keys_ok_eq _ _ _ _ K); [|exact B2|exact B3]. rewrite !map_app, B1. reflexivity. }
  destruct e2 as [e2|]; [injection H as _ <- <-; exact K2|].
  destruct (q_surfs q2) as [|s1 rest] eqn:Q2; [injection H as _ <- <-; exact K2|].
  assert (MV : forall ps b, keys_ok (map fst (w_done w ++ [(s1, b)])) (set_packs_surfs q2 ps rest)).
  { intros ps b. apply (keys_ok_eq _ _ _ _ K2); [|reflexivity|reflexivity].
    rewrite (map_app fst), Q2. cbn [map fst q_surfs set_packs_surfs]. rewrite <- app_assoc. reflexivity. }
  repeat match type of H with
  | context [if ?b then (_, _, _) else _] => destruct b; [injection H as _ <- <-; (exact K2 || apply MV)|]
  end.
  destruct (q_packs q2) as [|p ps]; [injection H as _ <- <-; apply MV|].
  destruct (s_stack s1) as [|e0 es]; injection H as _ <- <-; [exact K2|apply MV].
Qed.

Lemma locate_keys : forall force p q r q1 D, locate o force p q = (r, q1) -> keys_ok D q -> keys_ok D q1.
Proof.
  intros force p q r q1 D H K. unfold locate in H.
  assert (Z : forall ps, keys_ok D (set_packs_surfs q ps (q_surfs q))) by (intro ps; apply (keys_ok_eq _ _ _ _ K); reflexivity).
  set (crq := mk_que (q_surfs q ++ [mk_surface (q_next q) (q_count q) (p_uid p) []]) (q_packs q ++ [p])
      (S (q_count q)) (S (q_next q)) (q_psize q) (q_ptrend q) (q_az q)) in H.
  assert (C : keys_ok D crq).
  { destruct K as (l & A & B & E). exists (l ++ [p_uid p]). cbn [q_count q_next q_surfs crq]. subst crq. cbn [q_count q_next q_surfs].
    rewrite app_length. split; [cbn [length]; lia|]. split; [lia|].
    rewrite app_assoc, map_app, E. cbn [map]. rewrite seq_S, map_app, <- app_assoc. f_equal. cbn [map]. f_equal.
    - apply map_ext_in. intros i I. apply in_seq in I. rewrite app_nth1 by lia. reflexivity.
    - cbn [Nat.add]. rewrite app_nth2 by lia. replace (q_count q - length l) with 0 by lia. unfold skey. cbn. rewrite B. reflexivity. }
  destruct (q_surfs q) as [|s ss] eqn:Q; [injection H as _ <-; exact C|].
  destruct force; [injection H as _ <-; exact C|].
  destruct (q_packs q ++ [p]) as [|a [|b c]]; [injection H as _ <-; apply Z|injection H as _ <-; apply Z|].
  destruct (o_new o _ _); injection H as _ <-; [exact C|apply Z].
Qed.

Definition read_q (r : read_res) : que :=
  match r with RGo _ q _ => q | RContinue _ q _ => q | RRaise _ _ q _ => q end.
Lemma handle_keys : forall i q m D, keys_ok D q -> keys_ok D (read_q (handle_packet cf o i q m)).
Proof.
  intros i q m D K. unfold handle_packet. destruct (i_cur i) as [p|]; [|exact K].
  destruct (match i_pt i with None => true | Some t0 => lt_q (p_time p - t0) (c_gap cf) end); [|exact K].
  destruct (locate o (i_resume i) p q) as [r q1] eqn:L. pose proof (locate_keys _ _ _ _ _ _ L K) as K1.
  destruct r as [[|]|]; exact K1.
Qed.
Lemma read_keys : forall s D, keys_ok D (s_q s) -> keys_ok D (read_q (read_phase cf o base s)).
Proof.
  intros s D K. unfold read_phase. destruct (i_gap (s_in s)); [exact K|].
  destruct (i_resume (s_in s)); [apply handle_keys, K|].
  destruct (i_rest (s_in s)) as [|[t| |] r]; [destruct (i_sp (s_in s)); [apply handle_keys, K|exact K]| | |exact K]; apply handle_keys, K.
Qed.

Definition st_ok (s : st) : Prop := keys_ok (map fst (w_done (s_out s))) (s_q s).
Lemma end_ok : forall i q w m, keys_ok (map fst (w_done w)) q ->
  match end_phase i q w m with BCont s => st_ok s | BEnd s => st_ok s | BRaise _ s => st_ok s end.
Proof. intros i q w m K. unfold end_phase. destruct (q_surfs q) eqn:E; [destruct (i_gap i)|]; exact K. Qed.
Lemma body_ok : forall s, st_ok s ->
  match body cf o base s with BCont s' => st_ok s' | BEnd s' => st_ok s' | BRaise _ s' => st_ok s' end.
Proof.
  intros s K. unfold body. pose proof (read_keys s _ K) as R. destruct (read_phase cf o base s) as [i q m|i q m|e i q m]; cbn [read_q] in R; [|exact R|exact R].
  destruct (i_sp i || (c_min cf <=? length (q_surfs q)) || i_gap i).
  - destruct (surface_phase cf o q (s_out s)) as [[e q1] w1] eqn:P. pose proof (surface_keys _ _ _ _ _ P R) as K1.
    destruct e as [e|]; [exact K1|]. apply end_ok, K1.
  - apply end_ok, R.
Qed.
Lemma loop_ok : forall cancel fuel k s, st_ok s -> st_ok (final (loop cf o base cancel fuel k s)).
Proof.
  intros cancel. induction fuel as [|f IH]; intros k s K; [exact K|]. cbn [loop]. pose proof (body_ok s K) as B.
  destruct (body cf o base s) as [s'|s'|e s']; [|exact B|exact B]. destruct (cancel k); [exact B|]. apply IH, B.
Qed.
End Left.

Lemma shift_seq : forall n k a, map (fun i => n + i) (seq a k) = seq (n + a) k.
Proof.
  intros n. induction k as [|k IH]; intro a; [reflexivity|]. cbn [seq map]. rewrite IH.
  replace (n + S a) with (S (n + a)) by lia. reflexivity.
Qed.

(** Refuted for a run that was cancelled: the product of the next file holds
    surfaces located by bursts of the earlier file. *)
Theorem C12_cancelled_refuted : exists cf o cancel in1 in2 s1,
  no_failures o /\ all_valid in1 /\ all_valid in2 /\
  run cf o cancel in1 = OEnd s1 true /\
  let second := run_from cf o no_cancel (q_surfs (s_q s1)) (q_packs (s_q s1)) (length in1) (q_next (s_q s1)) in2 in
  exists s2 x, second = OEnd s2 false /\ In x (written second) /\ s_loc x < length in1.
Proof.
  exists cf3, o_near, (fun k => Nat.eqb k 4), (track 0 9), (track 0 9), (final (run cf3 o_near (fun k => Nat.eqb k 4) (track 0 9))).
  split; [repeat split|]. split; [apply track_valid|]. split; [apply track_valid|].
  split; [vm_compute; reflexivity|]. intro second. exists (final second), (nth 0 (written second) (mk_surface 0 0 0 [])).
  split; [apply ended_spec; vm_compute; reflexivity|]. vm_compute. split; [left; reflexivity|lia].
Qed.
Print Assumptions C12_cancelled_refuted.

(** Surfaces left in the queue by an earlier run come first, unchanged and in
    order, among those this run decides on; the surfaces located in this run
    follow, numbered from 0. *)
Theorem C12_left_surfaces_partial : forall cf o cancel surfs0 packs0 base snext input,
  let s := final (run_from cf o cancel surfs0 packs0 base snext input) in
  exists old mine, known_surfaces s = old ++ mine /\
  map (fun x => (s_uid x, s_counter x, s_loc x)) old = map (fun x => (s_uid x, s_counter x, s_loc x)) surfs0 /\
  numbers mine = seq 0 (length mine) /\ map s_uid mine = seq snext (length mine).
Proof.
  intros cf o cancel surfs0 packs0 base snext input s.
  assert (K : st_ok surfs0 snext s).
  { apply loop_ok. exists []. cbn. split; [reflexivity|]. split; [lia|]. rewrite app_nil_r. reflexivity. }
  destruct K as (l & A & B & C). fold (known_surfaces s) in C.
  exists (firstn (length surfs0) (known_surfaces s)), (skipn (length surfs0) (known_surfaces s)).
  split; [symmetry; apply firstn_skipn|].
  assert (F : map skey (firstn (length surfs0) (known_surfaces s)) = map skey surfs0).
  { rewrite <- firstn_map, C, firstn_app, map_length, Nat.sub_diag. cbn [firstn]. rewrite app_nil_r.
    rewrite <- (map_length skey surfs0) at 1. apply firstn_all. }
  assert (G : map skey (skipn (length surfs0) (known_surfaces s)) =
              map (fun i => (snext + i, i, nth i l 0)) (seq 0 (q_count (s_q s)))).
  { rewrite <- skipn_map, C, skipn_app, map_length, Nat.sub_diag. cbn [skipn].
    rewrite <- (map_length skey surfs0) at 1. rewrite skipn_all. reflexivity. }
  split; [exact F|].
  assert (N : length (skipn (length surfs0) (known_surfaces s)) = q_count (s_q s)).
  { rewrite <- (map_length skey), G, map_length, seq_length. reflexivity. }
  rewrite N. split.
  - apply (f_equal (map (fun x => snd (fst x)))) in G. rewrite !map_map in G. cbn [fst snd skey] in G. unfold numbers.
    rewrite map_id in G. exact G.
  - apply (f_equal (map (fun x => fst (fst x)))) in G. rewrite !map_map in G. cbn [fst snd skey] in G.
    etransitivity; [exact G|].
    rewrite (shift_seq snext (q_count (s_q s)) 0). f_equal. lia.
Qed.
Print Assumptions C12_left_surfaces_partial.

(** A cancelled run leaves surface 3 in the queue; the next one numbers its own
    surfaces from 0 again. *)
Example C12_left_example :
  let s1 := final (run cf3 o_near (fun k => Nat.eqb k 4) (track 0 9)) in
  numbers (q_surfs (s_q s1)) <> [] /\
  numbers (known_surfaces (final (run_from cf3 o_near no_cancel (q_surfs (s_q s1)) (q_packs (s_q s1)) 9 (q_next (s_q s1)) (track 0 9))))
  = numbers (q_surfs (s_q s1)) ++ [0; 1; 2; 3; 4; 5; 6; 7; 8].
Proof. vm_compute. split; [intro H; discriminate H|reflexivity]. Qed.
