(** Proofs for C20 and C21. *)
From Coq Require Import List ZArith QArith Qabs Lia Lqa Bool Sorting.Permutation Sorting.Sorted.
From Verif Require Import Common StackModel StackSpec.
Import ListNotations.
Local Open Scope nat_scope.

(* ---------- lists ---------- *)
Lemma map_res_length : forall E A B (f : A -> res E B) l r,
  map_res f l = Ok r -> length r = length l.
Proof.
  induction l as [|x l IH]; cbn; intros r H. { inversion H; auto. }
  destruct (f x); cbn in H; [|discriminate].
  destruct (map_res f l) eqn:El; cbn in H; [|discriminate].
  inversion H; subst. cbn. f_equal. auto.
Qed.

Lemma map_res_nth : forall E A B (f : A -> res E B) l r i x,
  map_res f l = Ok r -> nth_error l i = Some x ->
  exists y, nth_error r i = Some y /\ f x = Ok y.
Proof.
  induction l as [|z l IH]; cbn; intros r i x H Hi. { destruct i; discriminate. }
  destruct (f z) eqn:Ez; cbn in H; [|discriminate].
  destruct (map_res f l) eqn:El; cbn in H; [|discriminate].
  inversion H; subst. destruct i; cbn in *.
  - inversion Hi; subst. eauto.
  - eapply IH; eauto.
Qed.

Lemma map_res_ok : forall E A B (f : A -> res E B) l,
  (forall x, In x l -> exists y, f x = Ok y) -> exists r, map_res f l = Ok r.
Proof.
  induction l as [|x l IH]; cbn; intros H. { eauto. }
  destruct (H x) as [y E1]; auto. destruct IH as [r E2]; auto.
  rewrite E1. cbn. rewrite E2. cbn. eauto.
Qed.

Lemma list_min_some : forall l, l <> [] -> exists m, list_min l = Some m.
Proof. destruct l; [congruence|]. cbn. destruct (list_min l); eauto. Qed.

Lemma list_min_spec : forall l m, list_min l = Some m ->
  In m l /\ (forall x, In x l -> m <= x).
Proof.
  induction l as [|a l IH]; cbn; intros m H; [discriminate|].
  destruct (list_min l) as [m'|] eqn:E.
  - inversion H; subst. destruct (IH m' eq_refl) as [Hin Hle]. split.
    + destruct (Nat.min_spec a m') as [[_ ->]|[_ ->]]; auto.
    + intros x [<-|Hx]; [lia|]. specialize (Hle x Hx). lia.
  - inversion H; subst. split; auto. intros x [<-|Hx]; [lia|].
    destruct l; [contradiction|]. cbn in E. destruct (list_min l); discriminate.
Qed.

Lemma NoDup_firstn : forall A (l : list A) k, NoDup l -> NoDup (firstn k l).
Proof.
  induction l as [|x l IH]; intros [|k] H; cbn; try constructor.
  - inversion H; subst. intro Hin. apply H2.
    rewrite <- (firstn_skipn k l). apply in_or_app. auto.
  - inversion H; subst. auto.
Qed.

(** [k] distinct positions below [n] have a minimum of at most [n - k] *)
Lemma min_room : forall (l : list nat) n m, NoDup l -> (forall x, In x l -> m <= x < n) ->
  l <> [] -> m + length l <= n.
Proof.
  intros l n m Hd Hin Hne.
  assert (Hi : incl l (seq m (n - m))).
  { intros x Hx. apply in_seq. specialize (Hin x Hx). lia. }
  pose proof (NoDup_incl_length Hd Hi) as HL. rewrite seq_length in HL.
  destruct l as [|a l]; [congruence|]. specialize (Hin a (or_introl eq_refl)). cbn in *. lia.
Qed.

(* ---------- argsort ---------- *)
Section Sorted.
Variables (vals : list Q) (perm : list nat).
Hypothesis HS : is_argsort vals perm.
Let n := length vals.

Lemma perm_length : length perm = n.
Proof. destruct HS as [P _]. rewrite (Permutation_length P). apply seq_length. Qed.

Lemma perm_in : forall x, In x perm <-> x < n.
Proof.
  destruct HS as [P _]. intro x. split; intro H.
  - apply (Permutation_in _ P) in H. apply in_seq in H. fold n in H. lia.
  - apply (Permutation_in _ (Permutation_sym P)). apply in_seq. fold n. lia.
Qed.

Lemma perm_nodup : NoDup perm.
Proof. destruct HS as [P _]. apply (Permutation_NoDup (Permutation_sym P)). apply seq_NoDup. Qed.

Lemma off_bounds : forall k off, 0 < k <= n -> list_min (firstn k perm) = Some off ->
  off + k <= n.
Proof.
  intros k off Hk Hm. apply list_min_spec in Hm. destruct Hm as [Hin Hle].
  assert (HL : length (firstn k perm) = k) by (rewrite firstn_length, perm_length; lia).
  rewrite <- HL. apply min_room.
  - apply NoDup_firstn, perm_nodup.
  - intros x Hx. split; [apply Hle; auto|]. apply perm_in.
    rewrite <- (firstn_skipn k perm). apply in_or_app; auto.
  - intro E. rewrite E in HL. cbn in HL. lia.
Qed.

Lemma sorted_split : forall k i j, In i (firstn k perm) -> ~ In j (firstn k perm) -> j < n ->
  (nth i vals 0 <= nth j vals 0)%Q.
Proof.
  destruct HS as [_ SS]. intros k i j Hi Hj Hn.
  assert (Hj' : In j (skipn k perm)).
  { apply perm_in in Hn. rewrite <- (firstn_skipn k perm) in Hn.
    apply in_app_or in Hn. tauto. }
  clear Hj Hn. revert k i j Hi Hj'. clear HS.
  induction SS as [|a l SS IH HF]; intros [|k] i j Hi Hj; cbn in *; try contradiction.
  destruct Hi as [<-|Hi].
  - rewrite Forall_forall in HF. apply HF. rewrite <- (firstn_skipn k l).
    apply in_or_app; auto.
  - eapply IH; eauto.
Qed.

Lemma valley_window : forall k off, valley vals -> 0 < k <= n ->
  list_min (firstn k perm) = Some off ->
  forall i, In i (firstn k perm) <-> off <= i < off + k.
Proof.
  intros k off [m [Hd Hi]] Hk Hm.
  pose proof (list_min_spec _ _ Hm) as [Hin Hle].
  set (Sel := firstn k perm) in *.
  assert (HL : length Sel = k) by (unfold Sel; rewrite firstn_length, perm_length; lia).
  assert (HSn : forall x, In x Sel -> x < n).
  { intros x Hx. apply perm_in. rewrite <- (firstn_skipn k perm). apply in_or_app; auto. }
  assert (conv : forall a b c, a < b < c -> In a Sel -> In c Sel -> In b Sel).
  { intros a b c Habc Ha Hc. destruct (in_dec Nat.eq_dec b Sel) as [|Hb]; auto. exfalso.
    pose proof (HSn c Hc) as Hcn.
    assert (Hb' : b < n) by lia.
    pose proof (sorted_split k a b Ha Hb Hb') as H1.
    pose proof (sorted_split k c b Hc Hb Hb') as H2.
    destruct (le_lt_dec b m) as [Hbm|Hbm].
    - assert (H3 := Hd a b ltac:(lia) ltac:(fold n; lia)). lra.
    - assert (H3 := Hi b c ltac:(lia) ltac:(fold n; lia)). lra. }
  assert (mx : forall c, In c Sel -> c < off + k).
  { intros c Hc. destruct (le_lt_dec (off + k) c) as [Hck|]; auto. exfalso.
    assert (Hincl : incl (seq off (S k)) Sel).
    { intros x Hx. apply in_seq in Hx.
      destruct (Nat.eq_dec x off) as [->|]; auto.
      destruct (Nat.eq_dec x c) as [->|]; auto.
      apply (conv off x c); auto. lia. }
    pose proof (NoDup_incl_length (seq_NoDup (S k) off) Hincl) as HX.
    rewrite seq_length in HX. lia. }
  assert (Hincl : incl Sel (seq off k)).
  { intros x Hx. apply in_seq. pose proof (Hle x Hx). pose proof (mx x Hx). lia. }
  assert (Hrev : incl (seq off k) Sel).
  { apply NoDup_length_incl; auto.
    - apply NoDup_firstn, perm_nodup.
    - rewrite seq_length. lia. }
  intro i. split; intro H.
  - apply Hincl, in_seq in H. lia.
  - apply Hrev, in_seq. lia.
Qed.
End Sorted.

(* ---------- gather ---------- *)
Lemma map_nth_Qabs : forall l i, (nth i (map Qabs l) 0 == Qabs (nth i l 0))%Q.
Proof.
  intros l i. rewrite <- (map_nth Qabs l 0%Q i). cbn. reflexivity.
Qed.

Lemma window_of_spec : forall argsort cpi k entries size off,
  (forall vals, is_argsort vals (argsort vals)) ->
  window_of argsort cpi k entries = Ok (size, off) ->
  size = Nat.min (length entries) k /\ off + size <= length entries /\
  (length entries < k -> off = 0).
Proof.
  intros argsort cpi k entries size off HA H. unfold window_of in H.
  destruct (Nat.ltb_spec (length entries) k) as [Hlt|Hge].
  - inversion H; subst. repeat split; lia.
  - destruct (map_res (look_angle cpi) entries) as [angles|] eqn:EA; cbn [bind] in H; [|discriminate].
    destruct (list_min (firstn k (argsort (map Qabs angles)))) as [m|] eqn:Em; [|discriminate].
    assert (Hk : k <> 0) by (intro E0; rewrite E0 in Em; cbn in Em; discriminate).
    inversion H; subst. pose proof (map_res_length _ _ _ _ _ _ EA) as HL.
    assert (off + size <= length entries).
    { rewrite <- HL, <- (map_length Qabs angles).
      eapply off_bounds; eauto. rewrite map_length. lia. }
    repeat split; lia.
Qed.

Lemma gather_inv : forall argsort cpi k ns c0 entries g,
  gather argsort cpi k ns c0 entries = Ok g ->
  exists looks,
    window_of argsort cpi k entries = Ok (g_size g, g_offset g) /\
    map_res (make_look cpi ns) (firstn (g_size g) (skipn (g_offset g) entries)) = Ok looks /\
    length looks = g_size g /\
    g_looks g = looks ++ repeat (empty_look ns) (k - g_size g) /\
    g_closest g = closest_scan cpi looks 0 None c0 /\
    g_rmc g = has_rmc looks.
Proof.
  intros argsort cpi k ns c0 entries g H. unfold gather in H.
  destruct (window_of argsort cpi k entries) as [[size off]|] eqn:EW; cbn [bind] in H; [|discriminate].
  destruct (Nat.ltb_spec (length (firstn size (skipn off entries))) size) as [|Hge]; [discriminate|].
  destruct (map_res (make_look cpi ns) (firstn size (skipn off entries))) as [looks|] eqn:EM;
    cbn [bind] in H; [|discriminate].
  inversion H; subst. cbn. exists looks. repeat split; auto.
  pose proof (map_res_length _ _ _ _ _ _ EM). rewrite firstn_length in *. lia.
Qed.

Lemma nth_error_window : forall A (l : list A) off size i, i < size ->
  nth_error (firstn size (skipn off l)) i = nth_error l (off + i).
Proof.
  intros A l off size i H.
  assert (F : forall (m : list A) s j, j < s -> nth_error (firstn s m) j = nth_error m j).
  { induction m as [|x m IH]; intros [|s] [|j] Hj; cbn; auto; try lia. apply IH. lia. }
  rewrite F by auto. clear. revert l. induction off as [|o IH]; intros [|x l]; cbn; auto.
  destruct i; auto.
Qed.

(* ---------- closest ---------- *)
Definition dist (cpi : Q) (l : look) : Q := Qabs (l_angle l - cpi / 2).

Lemma closest_scan_spec : forall cpi looks i best idx,
  let c := closest_scan cpi looks i best idx in
  (* either nothing improves on [best], or [c] is the first minimum *)
  (best <> None /\ c = idx /\
     (forall b l, best = Some b -> In l looks -> b <= dist cpi l)%Q) \/
  (exists k l, c = i + k /\ nth_error looks k = Some l /\
     (forall l', In l' looks -> dist cpi l <= dist cpi l')%Q /\
     (forall j l', j < k -> nth_error looks j = Some l' -> (dist cpi l < dist cpi l')%Q) /\
     (forall b, best = Some b -> (dist cpi l < b)%Q)) \/
  (best = None /\ looks = [] /\ c = idx).
Proof.
  intros cpi looks. induction looks as [|l r IH]; intros i best idx c.
  - destruct best as [b|].
    + left. repeat split; try discriminate. intros ? ? _ [].
    + right. right. auto.
  - subst c. cbn [closest_scan]. fold (dist cpi l).
    destruct (match best with None => true | Some b => negb (Qle_bool b (dist cpi l)) end) eqn:EB.
    + right. left. assert (Hb : forall b, best = Some b -> (dist cpi l < b)%Q).
      { intros b ->. destruct (Qle_bool b (dist cpi l)) eqn:E; [discriminate|].
        apply Qnot_le_lt. intro H. apply Qle_bool_iff in H. congruence. }
      destruct (IH (S i) (Some (dist cpi l)) i) as [[_ [-> H1]] | [(k & l2 & -> & H2 & H3 & H4 & H5) | [H _]]].
      * exists 0, l. repeat split; auto; try lia.
        intros l' [<-|Hl']; [apply Qle_refl|]. apply H1; auto.
      * exists (S k), l2. specialize (H5 (dist cpi l) eq_refl).
        repeat split; auto; try lia.
        -- intros l' [<-|Hl']; [apply Qlt_le_weak; auto|]. auto.
        -- intros [|j] l' Hj Hn; cbn in Hn.
           ++ inversion Hn; subst; auto.
           ++ apply (H4 j); auto; lia.
        -- intros b Hbb. specialize (Hb b Hbb). lra.
      * discriminate.
    + destruct best as [b|]; [|discriminate].
      assert (Hb : (b <= dist cpi l)%Q).
      { destruct (Qle_bool b (dist cpi l)) eqn:E; [|discriminate]. apply Qle_bool_iff; auto. }
      destruct (IH (S i) (Some b) idx) as [[_ [-> H1]] | [(k & l2 & -> & H2 & H3 & H4 & H5) | [H _]]].
      * left. repeat split; try discriminate. intros b0 l0 E [<-|Hin].
        -- inversion E; subst; auto.
        -- apply H1; auto.
      * right. left. exists (S k), l2. specialize (H5 b eq_refl).
        repeat split; auto; try lia.
        -- intros l' [<-|Hl']; auto. lra.
        -- intros [|j] l' Hj Hn; cbn in Hn.
           ++ inversion Hn; subst; lra.
           ++ apply (H4 j); auto; lia.
        -- intros b0 E; inversion E; subst; auto.
      * discriminate.
Qed.
