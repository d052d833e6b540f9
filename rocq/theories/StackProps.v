(** C20, C21. *)
From Coq Require Import List ZArith QArith Qabs Lia Lqa Bool Sorting.Permutation Sorting.Sorted.
From Verif Require Import Common StackModel StackSpec StackProofs.
Import ListNotations.
Local Open Scope nat_scope.

(** C20: the gathered stack is a window of consecutive contributions, of size
    min(contributions, looks), within range; every position holds the data of
    one and the same contribution; the remaining positions are empty. *)
Theorem C20_window : forall argsort cpi k ns c0 entries g,
  (forall vals, is_argsort vals (argsort vals)) ->
  gather argsort cpi k ns c0 entries = Ok g ->
  g_size g = Nat.min (length entries) k /\
  g_offset g + g_size g <= length entries /\
  (length entries <= k -> g_offset g = 0) /\
  length (g_looks g) = k /\
  (forall i, i < g_size g -> exists e l row,
     nth_error entries (g_offset g + i) = Some e /\ nth_error (g_looks g) i = Some l /\
     l_burst l = Some (e_burst e) /\
     nth_error (s_angles (e_burst e)) (e_index e) = Some (l_angle l) /\
     nth_error (s_beams (e_burst e)) (e_index e) = Some row /\
     l_beam l = row ++ repeat (0%Q, 0%Q) (ns - length row) /\ length (l_beam l) = ns /\
     l_look l = (cpi / 2 + s_doppler (e_burst e) - l_angle l)%Q /\
     l_pointing l = (l_look l - s_pitch (e_burst e))%Q /\
     l_doppler l = s_doppler (e_burst e) /\ l_t0 l = s_t0 (e_burst e) /\
     l_index l = e_abs e /\ l_counter l = s_seq (e_burst e)) /\
  (forall i, g_size g <= i < k -> nth_error (g_looks g) i = Some (empty_look ns)).
Proof.
  intros argsort cpi k ns c0 entries g HA H.
  destruct (gather_inv _ _ _ _ _ _ _ H) as (looks & HW & HM & HL & HG & _ & _).
  destruct (window_of_spec _ _ _ _ _ _ HA HW) as (Hs & Ho & Hz).
  split; [auto|]. split; [auto|]. split; [lia|].
  split. { rewrite HG, app_length, repeat_length. lia. }
  split.
  - intros i Hi.
    destruct (nth_error entries (g_offset g + i)) as [e|] eqn:Ee.
    2:{ apply nth_error_None in Ee. lia. }
    assert (Hn : nth_error (firstn (g_size g) (skipn (g_offset g) entries)) i = Some e)
      by (rewrite nth_error_window; auto).
    destruct (map_res_nth _ _ _ _ _ _ _ _ HM Hn) as (l & Hl & Hm).
    unfold make_look in Hm.
    destruct (nth_error (s_beams (e_burst e)) (e_index e)) as [row|] eqn:Er; [|discriminate].
    destruct (nth_error (s_angles (e_burst e)) (e_index e)) as [a|] eqn:Ea; [|discriminate].
    destruct (Nat.ltb_spec ns (length row)) as [|Hrow]; [discriminate|].
    exists e, l, row. inversion Hm; subst l. cbn.
    repeat split; auto.
    + rewrite HG, nth_error_app1 by lia. exact Hl.
    + rewrite app_length, repeat_length. lia.
  - intros i Hi. rewrite HG, nth_error_app2 by lia. rewrite HL.
    assert (R : forall A (x : A) j m, j < m -> nth_error (repeat x m) j = Some x).
    { clear. induction j; intros [|m] Hj; cbn; auto; try lia. apply IHj. lia. }
    apply R. lia.
Qed.
Print Assumptions C20_window.

(** The absolute look angle of a contribution, written out. *)
Definition abs_look (cpi : Q) (e : entry) : Q :=
  Qabs (cpi / 2 + s_doppler (e_burst e) - nth (e_index e) (s_angles (e_burst e)) 0)%Q.

Lemma look_angles_eq : forall cpi entries angles,
  map_res (look_angle cpi) entries = Ok angles -> map Qabs angles = map (abs_look cpi) entries.
Proof.
  induction entries as [|e r IH]; cbn; intros angles H. { inversion H; auto. }
  destruct (look_angle cpi e) as [q|] eqn:E; cbn in H; [|discriminate].
  destruct (map_res (look_angle cpi) r) as [qs|] eqn:E2; cbn in H; [|discriminate].
  inversion H; subst. cbn. f_equal; auto.
  unfold look_angle in E. unfold abs_look.
  destruct (nth_error (s_angles (e_burst e)) (e_index e)) eqn:En; [|discriminate].
  apply nth_error_nth with (d := 0%Q) in En. rewrite En. inversion E; subst. reflexivity.
Qed.

(** C20: when the absolute look angles strictly decrease and then strictly
    increase along the track, the chosen contributions are those with the
    smallest absolute look angles, for every way of ordering equal values. *)
Theorem C20_smallest_looks : forall argsort cpi k ns c0 entries g,
  (forall vals, is_argsort vals (argsort vals)) ->
  valley (map (abs_look cpi) entries) ->
  gather argsort cpi k ns c0 entries = Ok g ->
  forall i j ei ej, g_offset g <= i < g_offset g + g_size g ->
    ~ (g_offset g <= j < g_offset g + g_size g) ->
    nth_error entries i = Some ei -> nth_error entries j = Some ej ->
    (abs_look cpi ei <= abs_look cpi ej)%Q.
Proof.
  intros argsort cpi k ns c0 entries g HA HV H i j ei ej Hi Hj Ei Ej.
  destruct (gather_inv _ _ _ _ _ _ _ H) as (looks & HW & _).
  destruct (window_of_spec _ _ _ _ _ _ HA HW) as (Hs & Ho & Hz).
  assert (Hil : i < length entries) by (apply nth_error_Some; congruence).
  assert (Hjl : j < length entries) by (apply nth_error_Some; congruence).
  unfold window_of in HW.
  destruct (Nat.ltb_spec (length entries) k) as [Hlt|Hge]. { lia. }
  destruct (map_res (look_angle cpi) entries) as [angles|] eqn:EA; cbn [bind] in HW; [|discriminate].
  rewrite (look_angles_eq _ _ _ EA) in HW.
  set (vals := map (abs_look cpi) entries) in *.
  destruct (list_min (firstn k (argsort vals))) as [m|] eqn:Em; [|discriminate].
  assert (Hoff : g_offset g = m) by congruence. assert (Hsz : g_size g = k) by congruence.
  rewrite Hoff, Hsz in *.
  assert (Hvl : length vals = length entries) by (unfold vals; apply map_length).
  assert (Hk : 0 < k <= length vals) by lia.
  pose proof (valley_window vals (argsort vals) (HA vals) k m HV Hk Em) as W.
  assert (Hi' : In i (firstn k (argsort vals))) by (apply W; lia).
  assert (Hj' : ~ In j (firstn k (argsort vals))) by (rewrite W; lia).
  pose proof (sorted_split vals (argsort vals) (HA vals) k i j Hi' Hj' ltac:(lia)) as HQ.
  assert (N : forall p e, nth_error entries p = Some e -> nth p vals 0%Q = abs_look cpi e).
  { intros p e He. unfold vals. apply nth_error_nth.
    rewrite nth_error_map, He. reflexivity. }
  rewrite (N i ei Ei), (N j ej Ej) in HQ. exact HQ.
Qed.
Print Assumptions C20_smallest_looks.

(** C20: with at least one look configured and beams that exist, gathering
    never fails (no index is out of range). *)
Theorem C20_total : forall argsort cpi k ns c0 entries,
  (forall vals, is_argsort vals (argsort vals)) -> 0 < k ->
  (forall e, In e entries -> e_index e < length (s_angles (e_burst e)) /\
     exists row, nth_error (s_beams (e_burst e)) (e_index e) = Some row /\ length row <= ns) ->
  exists g, gather argsort cpi k ns c0 entries = Ok g.
Proof.
  intros argsort cpi k ns c0 entries HA Hk HE.
  assert (HW : exists s o, window_of argsort cpi k entries = Ok (s, o)).
  { unfold window_of. destruct (Nat.ltb_spec (length entries) k) as [|Hge]; eauto.
    destruct (map_res_ok _ _ _ (look_angle cpi) entries) as [angles EA].
    { intros e He. destruct (HE e He) as [H1 _]. unfold look_angle.
      destruct (nth_error (s_angles (e_burst e)) (e_index e)) eqn:E; eauto.
      apply nth_error_None in E. lia. }
    rewrite EA. cbn [bind].
    destruct (list_min_some (firstn k (argsort (map Qabs angles)))) as [m Em].
    { intro E. apply (f_equal (@length nat)) in E.
      rewrite firstn_length, (perm_length _ _ (HA (map Qabs angles))), map_length,
        (map_res_length _ _ _ _ _ _ EA) in E. cbn in E. lia. }
    rewrite Em. eauto. }
  destruct HW as (s & o & HW). unfold gather. rewrite HW. cbn [bind].
  destruct (window_of_spec _ _ _ _ _ _ HA HW) as (Hs & Ho & Hz).
  destruct (Nat.ltb_spec (length (firstn s (skipn o entries))) s) as [HX|_].
  { rewrite firstn_length, skipn_length in HX. lia. }
  destruct (map_res_ok _ _ _ (make_look cpi ns) (firstn s (skipn o entries))) as [looks EM].
  - intros e He.
    assert (Hin : In e entries).
    { rewrite <- (firstn_skipn o entries). apply in_or_app. right.
      rewrite <- (firstn_skipn s (skipn o entries)). apply in_or_app. auto. }
    destruct (HE e Hin) as [H1 (row & H2 & H3)]. unfold make_look. rewrite H2.
    destruct (nth_error (s_angles (e_burst e)) (e_index e)) eqn:E.
    + destruct (Nat.ltb_spec ns (length row)); [lia|eauto].
    + apply nth_error_None in E. lia.
  - rewrite EM. cbn [bind]. eauto.
Qed.
Print Assumptions C20_total.

(** C21: in a non-empty stack the closest burst is the first one that minimises
    the distance of the beam angle from pi/2, and it is one of the gathered
    bursts. *)
Theorem C21_closest : forall argsort cpi k ns c0 entries g,
  (forall vals, is_argsort vals (argsort vals)) ->
  gather argsort cpi k ns c0 entries = Ok g -> 0 < g_size g ->
  first_argmin (map (fun l => Qabs (l_angle l - cpi / 2)%Q) (firstn (g_size g) (g_looks g)))
    (g_closest g) /\
  exists e, nth_error entries (g_offset g + g_closest g) = Some e /\
    closest_burst g = Some (e_burst e).
Proof.
  intros argsort cpi k ns c0 entries g HA H Hpos.
  pose proof (C20_window _ _ _ _ _ _ _ HA H) as (Hs & Ho & _ & Hlen & Hin & _).
  destruct (gather_inv _ _ _ _ _ _ _ H) as (looks & HW & HM & HL & HG & HC & _).
  assert (HF : firstn (g_size g) (g_looks g) = looks).
  { rewrite HG, firstn_app, HL, Nat.sub_diag, app_nil_r, <- HL. apply firstn_all. }
  rewrite HF. fold (dist cpi).
  destruct (closest_scan_spec cpi looks 0 None c0) as [[HX _]|[(p & l & E & Hp & Hmin & Hfst & _)|[_ [HX _]]]].
  { congruence. }
  2:{ rewrite HX in HL. cbn in HL. lia. }
  cbn in E. rewrite <- HC in E. rewrite E.
  assert (Hpl : p < length looks) by (apply nth_error_Some; congruence).
  assert (N : forall q x, nth_error looks q = Some x -> nth q (map (dist cpi) looks) 0%Q = dist cpi x).
  { intros q x Hq. apply nth_error_nth. rewrite nth_error_map, Hq. reflexivity. }
  split.
  - unfold first_argmin. rewrite map_length.
    change (fun l0 => Qabs (l_angle l0 - cpi / 2)) with (dist cpi).
    split; [auto|]. rewrite (N p l Hp). split.
    + intros q Hq. destruct (nth_error looks q) as [x|] eqn:Eq.
      * rewrite (N q x Eq). apply Hmin. apply nth_error_In in Eq. auto.
      * apply nth_error_None in Eq. lia.
    + intros q Hq. destruct (nth_error looks q) as [x|] eqn:Eq.
      * rewrite (N q x Eq). apply (Hfst q); auto.
      * apply nth_error_None in Eq. lia.
  - destruct (Hin p) as (e & l2 & row & E1 & E2 & E3 & _). { lia. }
    exists e. split; auto. unfold closest_burst. rewrite E, E2. auto.
Qed.
Print Assumptions C21_closest.

(** C21 (outside the property): an empty stack leaves the index of the previous
    surface in place and there is no closest burst. *)
Theorem C21_empty_stack_keeps_index : forall argsort cpi k ns c0 g,
  0 < k -> gather argsort cpi k ns c0 [] = Ok g -> g_closest g = c0 /\ closest_burst g = None.
Proof.
  intros argsort cpi k ns c0 g Hk H. unfold gather, window_of in H. cbn [length] in H.
  destruct (Nat.ltb_spec 0 k); [|lia]. cbn in H. inversion H; subst. cbn. split; auto.
  unfold closest_burst. cbn [g_looks g_closest].
  destruct (nth_error (repeat (empty_look ns) (k - 0)) c0) eqn:E; auto.
  apply nth_error_In, repeat_spec in E. subst. reflexivity.
Qed.
Print Assumptions C21_empty_stack_keeps_index.

(** Examples.  A stable insertion argsort meets the contract. *)
Fixpoint ins (vals : list Q) (i : nat) (l : list nat) : list nat :=
  match l with
  | [] => [i]
  | j :: r => if Qle_bool (nth i vals 0%Q) (nth j vals 0%Q) then i :: l else j :: ins vals i r
  end.
Definition ins_argsort (vals : list Q) : list nat :=
  fold_right (ins vals) [] (seq 0 (length vals)).

Lemma ins_perm : forall vals i l, Permutation (ins vals i l) (i :: l).
Proof.
  induction l as [|j r IH]; cbn; auto. destruct (Qle_bool _ _); auto.
  eapply perm_trans; [apply perm_skip, IH|apply perm_swap].
Qed.
Lemma ins_sorted : forall vals i l,
  StronglySorted (fun a b => (nth a vals 0 <= nth b vals 0)%Q) l ->
  StronglySorted (fun a b => (nth a vals 0 <= nth b vals 0)%Q) (ins vals i l).
Proof.
  induction l as [|j r IH]; cbn; intro H. { repeat constructor. }
  inversion H; subst. destruct (Qle_bool _ _) eqn:E.
  - apply Qle_bool_iff in E. constructor; auto. constructor; auto.
    rewrite Forall_forall in *. intros x Hx. apply Qle_trans with (nth j vals 0%Q); auto.
  - constructor; auto. rewrite Forall_forall in *. intros x Hx.
    apply (Permutation_in _ (ins_perm vals i r)) in Hx. destruct Hx as [<-|Hx]; auto.
    apply Qlt_le_weak, Qnot_le_lt. intro HQ. apply Qle_bool_iff in HQ. congruence.
Qed.
Lemma ins_argsort_ok : forall vals, is_argsort vals (ins_argsort vals).
Proof.
  intro vals. unfold is_argsort, ins_argsort. generalize (seq 0 (length vals)) as l.
  induction l as [|i l [IH1 IH2]]; cbn; split; auto; try constructor.
  - eapply perm_trans; [apply ins_perm|]. auto.
  - apply ins_sorted; auto.
Qed.

Definition mk (id : nat) (a : Q) : entry :=
  {| e_burst := {| s_id := id; s_angles := [a]; s_beams := [[(1, 0)%Q]]; s_t0 := 0; s_doppler := 0;
                   s_pitch := 0; s_seq := Z.of_nat id; s_rmc := false |};
     e_index := 0; e_abs := 0 |}.

(** look angles 3 1 -1 -2 -4 around pi/2 = 2 (cpi = 4): two looks are kept *)
Example C20_ex : exists g,
  gather ins_argsort 4 2 1 7 [mk 0 (-1); mk 1 1; mk 2 (5#2); mk 3 4; mk 4 6] = Ok g /\
  g_offset g = 1 /\ g_size g = 2 /\ g_closest g = 1 /\
  map (fun l => l_counter l) (g_looks g) = [1; 2]%Z.
Proof. eexists. split; [vm_compute; reflexivity|]. repeat split. Qed.
Example C20_ex_valley :
  valley (map (abs_look 4) [mk 0 (-1); mk 1 1; mk 2 (5#2); mk 3 4; mk 4 6]).
Proof.
  exists 2. split; intros i j Hij Hj; cbn [length map] in Hj.
  - destruct j as [|[|[|j]]]; try lia; destruct i as [|[|i]]; try lia; reflexivity.
  - destruct i as [|[|[|[|i]]]]; try lia; destruct j as [|[|[|[|[|j]]]]]; try lia; reflexivity.
Qed.
(** strictness matters: with a plateau a sorting that prefers early positions
    selects a window without the smallest look angle *)
Example C20_ex_plateau : exists g,
  gather ins_argsort 4 2 1 7 [mk 0 1; mk 1 1; mk 2 2; mk 3 3] = Ok g /\
  g_offset g = 0 /\ g_size g = 2 /\
  (abs_look 4 (mk 2 2) < abs_look 4 (mk 1 1))%Q.
Proof. eexists. split; [vm_compute; reflexivity|]. repeat split. Qed.
Example C21_ex_tie : exists g,
  gather ins_argsort 4 5 1 7 [mk 0 5; mk 1 1; mk 2 3] = Ok g /\ g_closest g = 1 /\ 0 < g_size g.
Proof. eexists. split; [vm_compute; reflexivity|]. split; [reflexivity|cbn; lia]. Qed.
