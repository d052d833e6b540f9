From Coq Require Import String Ascii List Arith Bool Lia.
From Verif Require Import Common ArgModel ArgSpec.
Import ListNotations.
Open Scope string_scope.
Open Scope list_scope.

(** * Words *)
Lemma lex_word : forall P s, word s -> lex P s = TArg s.
Proof.
  intros P s H. destruct s as [|a r]; [reflexivity|].
  unfold lex. destruct a as [[] [] [] [] [] [] [] []]; try reflexivity.
  exfalso. apply (H r). reflexivity.
Qed.
Lemma lex_words : forall P l, Forall word l -> map (lex P) l = map TArg l.
Proof.
  intros P l F. induction F as [|s l Hs F IH]; [reflexivity|].
  cbn [map]. rewrite (lex_word _ _ Hs), IH. reflexivity.
Qed.
Lemma find_key : forall {A B} (f : A -> B) (e : A -> B -> bool) (l : list A) (x : A),
  (forall y b, e y b = true <-> f y = b) -> NoDup (map f l) -> In x l ->
  find (fun y => e y (f x)) l = Some x.
Proof.
  intros A B f e l x He. induction l as [|y l IH]; intros ND Hin; [destruct Hin|].
  cbn [find]. destruct (e y (f x)) eqn:E.
  - apply He in E. f_equal. destruct Hin as [->|Hin]; [reflexivity|].
    cbn [map] in ND. inversion ND as [|? ? N1 N2]; subst. exfalso. apply N1.
    rewrite E. apply in_map. exact Hin.
  - destruct Hin as [->|Hin].
    + assert (Q : e x (f x) = true) by (apply He; reflexivity). congruence.
    + apply IH; [|exact Hin]. inversion ND; assumption.
Qed.
Section P.
Variable P : parser.
Hypothesis D : distinct P.

Lemma find_long : forall o, In o (opts_of P) -> find (fun x => o_long x =? o_long o) (opts_of P) = Some o.
Proof.
  intros o H. apply (find_key o_long (fun y b => o_long y =? b)); [|apply D|exact H].
  intros y b. apply String.eqb_eq.
Qed.
Lemma find_short : forall o c, In o (opts_of P) -> o_short o = Some c -> find (short_is c) (opts_of P) = Some o.
Proof.
  intros o c H S0. destruct (find (short_is c) (opts_of P)) as [x|] eqn:E.
  - apply find_some in E. destruct E as [E1 E2]. unfold short_is in E2.
    destruct (o_short x) as [d|] eqn:Ex; [|discriminate]. apply Ascii.eqb_eq in E2. subst d.
    f_equal. destruct D as (_ & D2 & _). apply (D2 x o c); assumption.
  - exfalso. apply (find_none _ _ E) in H. unfold short_is in H. rewrite S0, Ascii.eqb_refl in H. discriminate.
Qed.
Lemma cut_none : forall s, no_equal s = true -> cut_eq s = (s, None).
Proof.
  induction s as [|c s IH]; [reflexivity|]. cbn [no_equal cut_eq]. intro H.
  apply andb_true_iff in H. destruct H as [H1 H2]. apply negb_true_iff in H1. rewrite H1, (IH H2). reflexivity.
Qed.
Lemma cut_some : forall s v, no_equal s = true -> cut_eq (s ++ "=" ++ v)%string = (s, Some v).
Proof.
  induction s as [|c s IH]; intro v; [reflexivity|].
  cbn [no_equal]. intro H. apply andb_true_iff in H. destruct H as [H1 H2]. apply negb_true_iff in H1.
  change ((String c s ++ "=" ++ v))%string with (String c (s ++ "=" ++ v)%string).
  cbn [cut_eq]. rewrite H1, (IH v H2). reflexivity.
Qed.
Lemma no_equal_ne : forall s v, no_equal (s ++ "=" ++ v)%string = false.
Proof.
  induction s as [|c s IH]; intro v; [reflexivity|].
  change ((String c s ++ "=" ++ v))%string with (String c (s ++ "=" ++ v)%string). cbn [no_equal].
  rewrite IH. apply andb_false_r.
Qed.
Lemma lex_spelt : forall o s, In o (opts_of P) -> spelt o s -> lex P s = TOpt o None.
Proof.
  intros o s H Sp. destruct D as (_ & _ & D3 & _). destruct (D3 o H) as (L1 & L2 & L3).
  destruct Sp as [c Hc|].
  - assert (N : c <> "-"%char) by (intro Q; subst c; contradiction).
    assert (E : lex P (String "-" (String c "")) = lex_short P c "").
    { unfold lex. destruct c as [[] [] [] [] [] [] [] []]; try reflexivity. exfalso. apply N. reflexivity. }
    rewrite E. unfold lex_short. rewrite (find_short o c H Hc). reflexivity.
  - change (lex P ("--" ++ o_long o)%string) with (lex_long P (o_long o)). unfold lex_long.
    destruct (o_long o =? "") eqn:E0; [apply String.eqb_eq in E0; contradiction|].
    rewrite (cut_none _ L2). rewrite (find_long o H). reflexivity.
Qed.
Lemma lex_equal : forall o v, In o (opts_of P) -> lex P ("--" ++ o_long o ++ "=" ++ v)%string = TOpt o (Some v).
Proof.
  intros o v H. destruct D as (_ & _ & D3 & _). destruct (D3 o H) as (L1 & L2 & L3).
  change (lex P ("--" ++ o_long o ++ "=" ++ v)%string) with (lex_long P (o_long o ++ "=" ++ v)%string).
  unfold lex_long.
  destruct ((o_long o ++ "=" ++ v)%string =? "") eqn:E0.
  { apply String.eqb_eq in E0. pose proof (no_equal_ne (o_long o) v) as Q. rewrite E0 in Q. discriminate. }
  rewrite (cut_some _ v L2).
  destruct (find (fun o0 => o_long o0 =? (o_long o ++ "=" ++ v)%string) (opts_of P)) as [x|] eqn:E.
  { apply find_some in E. destruct E as [E1 E2]. apply String.eqb_eq in E2.
    destruct (D3 x E1) as (_ & Q & _). rewrite E2, no_equal_ne in Q. discriminate. }
  rewrite (find_long o H). reflexivity.
Qed.
Lemma lex_joined : forall o c d r, In o (opts_of P) -> o_short o = Some c -> d <> "="%char -> o_kind o = Value ->
  lex P (String "-" (String c (String d r))) = TOpt o (Some (String d r)).
Proof.
  intros o c d r H Hc Hd K. destruct D as (_ & _ & D3 & _). destruct (D3 o H) as (L1 & L2 & L3).
  assert (N : c <> "-"%char) by (intro Q; subst c; contradiction).
  assert (E : lex P (String "-" (String c (String d r))) = lex_short P c (String d r)).
  { unfold lex. destruct c as [[] [] [] [] [] [] [] []]; try reflexivity. exfalso. apply N. reflexivity. }
  rewrite E. unfold lex_short. rewrite (find_short o c H Hc), K.
  destruct (Ascii.eqb d "=") eqn:Q; [apply Ascii.eqb_eq in Q; contradiction|]. reflexivity.
Qed.
End P.

(** * Sharing *)
Definition ok (a : nargs) (k : nat) : Prop :=
  match a with One => k = 1 | Opt => k <= 1 | Star => True | Plus => 1 <= k end.
Definition least (a : nargs) : nat := match a with One | Plus => 1 | _ => 0 end.
Fixpoint least_sum (sh : list nargs) : nat := match sh with [] => 0 | a :: r => least a + least_sum r end.
Definition valid (sh : list nargs) (c : list nat) : Prop := Forall2 ok sh c.

Lemma ok_least : forall a k, ok a k -> least a <= k.
Proof. intros [] k H; cbn in *; lia. Qed.
Lemma least_ok : forall a, ok a (least a).
Proof. intros []; cbn; lia. Qed.
Lemma valid_least : forall sh c, valid sh c -> least_sum sh <= list_sum c.
Proof.
  intros sh c V. induction V as [|a k sh c Ha V IH]; [cbn; lia|]. change (least a + least_sum sh <= k + list_sum c). apply ok_least in Ha. lia.
Qed.
Lemma in_down : forall n k, In k (down n) <-> k <= n.
Proof.
  induction n as [|n IH]; intro k; cbn [down In].
  - split; [intros [<-|[]]; lia|intro; left; lia].
  - rewrite IH. split; [intros [<-|H]; lia|intro H]. destruct (Nat.eq_dec (S n) k); [left; assumption|right; lia].
Qed.
Lemma in_counts : forall a n k, In k (counts a n) <-> ok a k /\ k <= n.
Proof.
  intros a n k. destruct a; cbn [counts ok].
  - destruct (Nat.leb_spec 1 n); cbn [In]; [|split; [tauto|lia]]. split; [intros [<-|[]]; lia|intros []; left; lia].
  - destruct (Nat.leb_spec 1 n); cbn [In].
    + split; [intros [<-|[<-|[]]]; lia|intros [H1 _]]. destruct k as [|[|]]; [right; left|left|]; lia.
    + split; [intros [<-|[]]; lia|intros []; left; lia].
  - rewrite in_down. tauto.
  - rewrite filter_In, in_down, Nat.leb_le. tauto.
Qed.
(** best first *)
Lemma down_sorted : forall n l1 k l2, down n = l1 ++ k :: l2 -> forall k', In k' l2 -> k' < k.
Proof.
  induction n as [|n IH]; intros l1 k l2 E k' Hin; cbn [down] in E.
  - destruct l1 as [|x [|y l1]]; cbn in E; injection E; intros; subst; try discriminate. destruct Hin.
  - destruct l1 as [|x l1]; cbn [app] in E; injection E; intros E1 E2; subst.
    + apply in_down in Hin. lia.
    + apply (IH l1 k l2 E1 k' Hin).
Qed.
Lemma filter_split : forall {A} (f : A -> bool) l l1 k l2, filter f l = l1 ++ k :: l2 ->
  exists m1 m2, l = m1 ++ k :: m2 /\ filter f m2 = l2.
Proof.
  intros A f. induction l as [|x l IH]; intros l1 k l2 E; cbn [filter] in E; [destruct l1; discriminate|].
  destruct (f x) eqn:Q.
  - destruct l1 as [|y l1]; cbn [app] in E; injection E; intros E1 E2; subst.
    + exists [], l. split; reflexivity.
    + destruct (IH l1 k l2 E1) as (m1 & m2 & -> & F). exists (y :: m1), m2. split; [reflexivity|exact F].
  - destruct (IH l1 k l2 E) as (m1 & m2 & -> & F). exists (x :: m1), m2. split; [reflexivity|exact F].
Qed.
Lemma counts_sorted : forall a n l1 k l2, counts a n = l1 ++ k :: l2 -> forall k', In k' l2 -> k' < k.
Proof.
  intros a n l1 k l2 E k' Hin. destruct a; cbn [counts] in E.
  - destruct (Nat.leb 1 n); destruct l1 as [|x [|y l1]]; cbn in E; try discriminate; injection E; intros; subst; destruct Hin.
  - destruct (Nat.leb 1 n).
    + destruct l1 as [|x [|y [|z l1]]]; cbn in E; try discriminate; injection E; intros; subst.
      * destruct Hin as [<-|[]]. lia.
      * destruct Hin.
    + destruct l1 as [|x [|y l1]]; cbn in E; try discriminate; injection E; intros; subst; destruct Hin.
  - apply (down_sorted n l1 k l2 E k' Hin).
  - apply filter_split in E. destruct E as (m1 & m2 & E & F). subst l2. apply filter_In in Hin.
    apply (down_sorted n m1 k m2 E k'). apply Hin.
Qed.
Lemma first_some_split : forall {A B} (f : A -> option B) l r, first_some (map f l) = Some r ->
  exists l1 k l2, l = l1 ++ k :: l2 /\ f k = Some r /\ forall k', In k' l1 -> f k' = None.
Proof.
  intros A B f. induction l as [|x l IH]; intros r E; [discriminate|]. cbn [map first_some] in E.
  destruct (f x) as [y|] eqn:Q.
  - injection E; intros ->. exists [], x, l. split; [reflexivity|]. split; [exact Q|]. intros k' [].
  - destruct (IH r E) as (l1 & k & l2 & -> & F & N). exists (x :: l1), k, l2. split; [reflexivity|].
    split; [exact F|]. intros k' [<-|H]; [exact Q|apply N; exact H].
Qed.
Lemma first_some_none : forall {A B} (f : A -> option B) l, first_some (map f l) = None <-> forall k, In k l -> f k = None.
Proof.
  intros A B f. induction l as [|x l IH]; cbn [map first_some In].
  - split; [intros _ k []|reflexivity].
  - destruct (f x) as [y|] eqn:Q.
    + split; [discriminate|intro H]. rewrite (H x (or_introl eq_refl)) in Q. discriminate.
    + rewrite IH. split; [intros H k [<-|Hk]; [exact Q|apply H; exact Hk]|intros H k Hk; apply H; right; exact Hk].
Qed.
Lemma share_valid : forall sh n c, share sh n = Some c -> valid sh c /\ list_sum c <= n.
Proof.
  induction sh as [|a sh IH]; intros n c E; cbn [share] in E.
  - injection E; intros <-. split; [constructor|cbn; lia].
  - apply first_some_split in E. destruct E as (l1 & k & l2 & E1 & E2 & _).
    destruct (share sh (n - k)) as [c'|] eqn:Q; cbn [option_map] in E2; [|discriminate].
    injection E2; intros <-. destruct (IH _ _ Q) as [V Sm].
    assert (Hk : In k (counts a n)) by (rewrite E1; apply in_or_app; right; left; reflexivity).
    apply in_counts in Hk. split; [constructor; [apply Hk|exact V]|]. cbn [list_sum fold_right].
    change (k + list_sum c' <= n). lia.
Qed.
Lemma share_some : forall sh n, least_sum sh <= n -> exists c, share sh n = Some c.
Proof.
  induction sh as [|a sh IH]; intros n L; cbn [share]; [exists []; reflexivity|]. cbn [least_sum] in L.
  destruct (first_some (map (fun k => option_map (cons k) (share sh (n - k))) (counts a n))) as [c|] eqn:E;
    [exists c; reflexivity|]. exfalso.
  rewrite first_some_none in E.
  assert (HI : In (least a) (counts a n)) by (apply in_counts; split; [apply least_ok|lia]).
  specialize (E (least a) HI).
  destruct (IH (n - least a) ltac:(lia)) as [c Q]. rewrite Q in E. discriminate.
Qed.
Lemma share_none : forall sh n, share sh n = None <-> n < least_sum sh.
Proof.
  intros sh n. split; intro H.
  - destruct (le_lt_dec (least_sum sh) n) as [L|L]; [|exact L]. destruct (share_some _ _ L) as [c Q]. congruence.
  - destruct (share sh n) as [c|] eqn:E; [|reflexivity]. apply share_valid in E. destruct E as [V L].
    apply valid_least in V. lia.
Qed.
(** Between the fewest words and a number that can be shared, all can. *)
Lemma between : forall sh c, valid sh c -> forall m, least_sum sh <= m -> m <= list_sum c ->
  exists c', valid sh c' /\ list_sum c' = m.
Proof.
  intros sh c V. induction V as [|a k sh c Ha V IH]; intros m L1 L2.
  - exists []. split; [constructor|cbn in *; lia].
  - cbn [least_sum] in L1. change (list_sum (k :: c)) with (k + list_sum c) in L2.
    pose proof (valid_least _ _ V) as L3. pose proof (ok_least _ _ Ha) as L4.
    destruct (le_lt_dec (list_sum c + least a) m) as [L|L].
    + exists ((m - list_sum c) :: c). split.
      * constructor; [|exact V]. destruct a; cbn [ok least] in *; try exact I; lia.
      * change (list_sum ((m - list_sum c) :: c)) with (m - list_sum c + list_sum c). lia.
    + destruct (IH (m - least a) ltac:(lia) ltac:(lia)) as (c' & V' & E').
      exists (least a :: c'). split; [constructor; [apply least_ok|exact V']|].
      change (list_sum (least a :: c')) with (least a + list_sum c'). lia.
Qed.
Inductive lexge : list nat -> list nat -> Prop :=
| lg_nil : lexge [] []
| lg_more a b r r' : b < a -> lexge (a :: r) (b :: r')
| lg_same a r r' : lexge r r' -> lexge (a :: r) (a :: r').
Lemma share_best : forall sh c', valid sh c' -> exists c, share sh (list_sum c') = Some c /\
  list_sum c = list_sum c' /\ forall c'', valid sh c'' -> list_sum c'' = list_sum c' -> lexge c c''.
Proof.
  induction sh as [|a sh IH]; intros c' V'.
  - inversion V'; subst. exists []. split; [reflexivity|]. split; [reflexivity|].
    intros c'' V'' _. inversion V''; subst. constructor.
  - inversion V' as [|? k' ? t' Hk' Vt']; subst. set (n := list_sum (k' :: t')).
    assert (En : n = k' + list_sum t') by reflexivity.
    destruct (share_some (a :: sh) n) as [c Ec].
    { unfold n. apply valid_least. exact V'. }
    exists c. split; [exact Ec|]. cbn [share] in Ec.
    apply first_some_split in Ec. destruct Ec as (l1 & k & l2 & E1 & E2 & E3).
    destruct (share sh (n - k)) as [t|] eqn:Q; cbn [option_map] in E2; [|discriminate]. injection E2; intros <-.
    assert (Hk : In k (counts a n)) by (rewrite E1; apply in_or_app; right; left; reflexivity).
    assert (M : forall c'', valid (a :: sh) c'' -> list_sum c'' = n -> exists k'' t'', c'' = k'' :: t'' /\
              valid sh t'' /\ k'' + list_sum t'' = n /\ k'' <= k).
    { intros c'' V'' S''. inversion V'' as [|? k'' ? t'' Hk'' Vt'']; subst. exists k'', t''.
      change (list_sum (k'' :: t'')) with (k'' + list_sum t'') in S''.
      split; [reflexivity|]. split; [exact Vt''|]. split; [exact S''|].
      assert (Hin : In k'' (counts a n)) by (apply in_counts; split; [exact Hk''|lia]).
      rewrite E1 in Hin. apply in_app_or in Hin. destruct Hin as [Hin|[->|Hin]].
      - exfalso. specialize (E3 k'' Hin). destruct (share sh (n - k'')) as [z|] eqn:Z; [discriminate|].
        apply share_none in Z. apply valid_least in Vt''. lia.
      - lia.
      - pose proof (counts_sorted a n l1 k l2 E1 k'' Hin). lia. }
    destruct (M (k' :: t') V' eq_refl) as (k0 & t0 & Ek & Vt0 & Ss & Lk). injection Ek; intros <- <-.
    pose proof (share_valid _ _ _ Q) as [Vt Lt].
    assert (B : exists c0, valid sh c0 /\ list_sum c0 = n - k).
    { apply (between sh t' Vt'); [|lia]. apply valid_least in Vt. lia. }
    destruct B as (c0 & V0 & S0). destruct (IH c0 V0) as (c1 & Ec1 & Sc1 & Best). rewrite S0 in Ec1.
    rewrite Q in Ec1. injection Ec1; intros <-.
    apply in_counts in Hk. destruct Hk as [_ Hk]. split.
    + change (k + list_sum t = n). lia.
    + intros c'' V'' S''. destruct (M c'' V'' S'') as (k'' & t'' & -> & Vt'' & Ss'' & Lk'').
      destruct (Nat.eq_dec k'' k) as [->|Nk]; [|apply lg_more; lia].
      apply lg_same. apply Best; [exact Vt''|lia].
Qed.
Lemma least_app : forall a b, least_sum (a ++ b) = least_sum a + least_sum b.
Proof. induction a as [|x a IH]; intro b; cbn; [reflexivity|]. rewrite IH. lia. Qed.
Lemma share_length : forall sh n c, share sh n = Some c -> length c = length sh.
Proof.
  intros sh n c E. apply share_valid in E. destruct E as [V _].
  clear n. induction V as [|a k sh c Ha V IH]; [reflexivity|]. cbn [length]. rewrite IH. reflexivity.
Qed.

(** [partly] on all positionals, when they can all be served. *)
Lemma partly_all : forall sh n c, share sh n = Some c -> partly (length sh) sh n = c.
Proof.
  intros sh n c E. destruct sh as [|a sh]; cbn [length partly firstn].
  - cbn in E. cbn. congruence.
  - rewrite firstn_all. rewrite E. reflexivity.
Qed.
(** Otherwise the next positional needs a word and no word is left. *)
Lemma partly_some : forall i sh n, i <= length sh -> n < least_sum (firstn i sh) ->
  exists j a, j < i /\ nth_error sh j = Some a /\ length (partly i sh n) = j /\ least a = 1 /\
    list_sum (partly i sh n) = n.
Proof.
  induction i as [|i IH]; intros sh n Hi L; [cbn in L; lia|].
  assert (Q : share (firstn (S i) sh) n = None) by (apply share_none; exact L).
  cbn [partly]. rewrite Q.
  destruct (nth_error sh i) as [a|] eqn:Ea.
  2:{ apply nth_error_None in Ea. lia. }
  assert (F : firstn (S i) sh = firstn i sh ++ [a]).
  { clear - Ea. revert i Ea. induction sh as [|x sh IHs]; intros i Ea; [destruct i; discriminate|].
    destruct i as [|i]; cbn [nth_error] in Ea; [injection Ea; intros ->; reflexivity|].
    change (firstn (S (S i)) (x :: sh)) with (x :: firstn (S i) sh). rewrite (IHs i Ea). reflexivity. }
  rewrite F, least_app in L. cbn [least_sum] in L.
  destruct (le_lt_dec (least_sum (firstn i sh)) n) as [Li|Li].
  - destruct (share_some _ _ Li) as [c Ec].
    assert (E : partly i sh n = c).
    { destruct i; cbn [partly]; rewrite Ec; reflexivity. }
    rewrite E. exists i, a. split; [lia|]. split; [exact Ea|]. split.
    { rewrite (share_length _ _ _ Ec). apply firstn_length_le. lia. }
    assert (La : least a = 1) by (destruct a; cbn in *; lia). split; [exact La|].
    pose proof (share_valid _ _ _ Ec) as [V S']. pose proof (valid_least _ _ V). lia.
  - destruct (IH sh n ltac:(lia) Li) as (j & b & J1 & J2 & J3 & J4 & J5).
    exists j, b. split; [lia|]. split; [exact J2|]. split; [exact J3|]. split; [exact J4|exact J5].
Qed.

(** * The loop *)
Lemma run_args_app : forall l ts, (match ts with TArg _ :: _ => False | _ => True end) ->
  run_of (map TArg l ++ ts) = l.
Proof.
  induction l as [|s l IH]; intros ts H; cbn [map app run_of].
  - destruct ts as [|[]]; try reflexivity. contradiction.
  - rewrite IH by exact H. reflexivity.
Qed.
Lemma skipn_map_app : forall l (ts : list tok), skipn (length l) (map TArg l ++ ts) = ts.
Proof. induction l as [|s l IH]; intro ts; [reflexivity|]. cbn [length map app skipn]. apply IH. Qed.
Lemma run_of_length : forall ts, length (run_of ts) <= length ts.
Proof. induction ts as [|[] ts IH]; cbn; lia. Qed.
Lemma go_fuel : forall f f' ts ps n ex, length ts < f -> length ts < f' -> go f ts ps n ex = go f' ts ps n ex.
Proof.
  induction f as [|f IH]; intros f' ts ps n ex L L'; [lia|]. destruct f' as [|f']; [lia|].
  cbn [go]. destruct (forallb is_arg ts); [reflexivity|].
  destruct ts as [|t ts]; [reflexivity|]. cbn [length] in L, L'.
  destruct t as [s|o e| | |]; try reflexivity.
  - destruct (consume ps (run_of (TArg s :: ts)) n) as [[ps' k] n'].
    destruct (Nat.ltb_spec 0 k).
    + apply IH; rewrite skipn_length; cbn [length]; lia.
    + apply IH; rewrite skipn_length; cbn [run_of length]; lia.
  - destruct (o_kind o), e as [v|]; try reflexivity; try (apply IH; lia).
    + destruct ts as [|[] ts]; try reflexivity. cbn [length] in *. apply IH; lia.
    + apply IH; rewrite skipn_length; lia.
  - apply IH; lia.
Qed.
(** what the loop does on enough fuel *)
Definition eat (ts : list tok) (ps : list pos) (n : ns) (ex : bool) : outcome := go (S (length ts)) ts ps n ex.
Lemma go_eat : forall f ts ps n ex, length ts < f -> go f ts ps n ex = eat ts ps n ex.
Proof. intros. unfold eat. apply go_fuel; lia. Qed.

(** tokens of an item *)
Inductive item_toks : item -> list tok -> Prop :=
| it_flag o : item_toks (IFlag o) [TOpt o None]
| it_value o v : item_toks (IValue o v) [TOpt o None; TArg v]
| it_explicit o v : item_toks (IValue o v) [TOpt o (Some v)]
| it_many o vs : item_toks (IMany o vs) (TOpt o None :: map TArg vs).
Definition effect (n : ns) (i : item) : ns := set n (o_dest (item_opt i)) (item_value i).
Lemma go_opt : forall f o e r ps n ex, go (S f) (TOpt o e :: r) ps n ex =
  match o_kind o, e with
  | Help, None => PHelp
  | Flag, None => go f r ps (set n (o_dest o) (VBool true)) ex
  | Help, Some _ | Flag, Some _ => PErr
  | Value, Some v => go f r ps (set n (o_dest o) (VStr v)) ex
  | Value, None => match r with TArg v :: r' => go f r' ps (set n (o_dest o) (VStr v)) ex | _ => PErr end
  | Many, Some v => go f r ps (set n (o_dest o) (VList [v])) ex
  | Many, None => go f (skipn (length (run_of r)) r) ps (set n (o_dest o) (VList (run_of r))) ex
  end.
Proof. reflexivity. Qed.
Lemma eat_item : forall i ts, item_toks i ts -> o_kind (item_opt i) = item_kind i -> forall r ps n ex,
  (forall o vs, i = IMany o vs -> match r with TArg _ :: _ => False | _ => True end) ->
  eat (ts ++ r) ps n ex = eat r ps (effect n i) ex.
Proof.
  intros i ts T K r ps n ex C. destruct T as [o|o v|o v|o vs]; cbn [item_opt item_kind] in K.
  - unfold eat at 1. cbn [app]. rewrite go_opt, K. apply go_eat. cbn [length]. lia.
  - unfold eat at 1. cbn [app]. rewrite go_opt, K. apply go_eat. cbn [length]. lia.
  - unfold eat at 1. cbn [app]. rewrite go_opt, K. apply go_eat. cbn [length]. lia.
  - unfold eat at 1. cbn [app]. rewrite go_opt, K. specialize (C o vs eq_refl).
    rewrite (run_args_app vs r C), skipn_map_app. apply go_eat.
    cbn [length]. rewrite app_length. lia.
Qed.
Inductive items_toks : list item -> list tok -> Prop :=
| its_nil : items_toks [] []
| its_cons i its ts ts' : item_toks i ts -> items_toks its ts' -> items_toks (i :: its) (ts ++ ts').
Lemma items_head : forall its ts, items_toks its ts -> match ts with TArg _ :: _ => False | _ => True end.
Proof. intros its ts T. destruct T as [|i its ts ts' Ti T]; [exact I|]. destruct Ti; exact I. Qed.
Lemma eat_items : forall its ts, items_toks its ts -> Forall (fun i => o_kind (item_opt i) = item_kind i) its ->
  forall r ps n ex, (match r with TArg _ :: _ => closed its | _ => True end) ->
  eat (ts ++ r) ps n ex = eat r ps (fold_left effect its n) ex.
Proof.
  intros its ts T. induction T as [|i its ts ts' Ti T IH]; intros F r ps n ex C; [reflexivity|].
  inversion F as [|? ? K F']; subst. rewrite <- app_assoc. cbn [fold_left].
  rewrite (eat_item i ts Ti K).
  - apply IH; [exact F'|]. destruct r as [|[] r]; try exact I. intros its' o vs E. apply (C (i :: its') o vs).
    rewrite E. reflexivity.
  - intros o vs ->. pose proof (items_head _ _ T) as H.
    destruct T as [|j its tj ts'' Tj T]; cbn [app].
    + destruct r as [|[] r]; try exact I. apply (C [] o vs). reflexivity.
    + destruct Tj; exact I.
Qed.

(** ** Words with nothing but words after them, or an option *)
Lemma forallb_args : forall l, forallb is_arg (map TArg l) = true.
Proof. induction l; [reflexivity|assumption]. Qed.
Lemma eat_end : forall l ps n ex, eat (map TArg l) ps n ex =
  let '(ps', k, n') := consume ps l n in
  if existsb needed ps' then PErr else if ex || negb (Nat.eqb k (length l)) then PErr else POk n'.
Proof.
  intros l ps n ex. unfold eat. cbn [go]. rewrite forallb_args.
  replace (run_of (map TArg l)) with l; [reflexivity|].
  rewrite <- (app_nil_r (map TArg l)), run_args_app; [reflexivity|exact I].
Qed.
Definition starts_opt (ts : list tok) : Prop := exists o e r, ts = TOpt o e :: r.
Lemma eat_mid : forall l ts ps n ex, l <> [] -> starts_opt ts -> eat (map TArg l ++ ts) ps n ex =
  let '(ps', k, n') := consume ps l n in
  if Nat.ltb 0 k then eat (skipn k (map TArg l ++ ts)) ps' n' ex else eat ts ps' n' true.
Proof.
  intros l ts ps n ex Nl (o & e & r & ->). unfold eat at 1. cbn [go].
  assert (E : forallb is_arg (map TArg l ++ TOpt o e :: r) = false).
  { rewrite forallb_app. cbn. apply andb_false_r. }
  rewrite E. rewrite (run_args_app l (TOpt o e :: r) I), skipn_map_app.
  destruct l as [|s l]; [contradiction|]. cbn [map app].
  destruct (consume ps (s :: l) n) as [[ps' k] n']. destruct (Nat.ltb_spec 0 k) as [Lk|Lk].
  - apply go_eat. rewrite skipn_length. cbn [length]. lia.
  - apply go_eat. cbn [length]. rewrite app_length. cbn [length]. lia.
Qed.

(** ** The values *)
Lemma give_other : forall ps c l n d, ~ In d (map a_dest ps) -> give ps c l n d = n d.
Proof.
  induction ps as [|p ps IH]; intros c l n d H; [reflexivity|]. destruct c as [|k c]; [reflexivity|].
  cbn [give]. rewrite IH; [|intro Q; apply H; right; exact Q]. unfold set.
  destruct (d =? a_dest p) eqn:E; [|reflexivity]. apply String.eqb_eq in E. exfalso. apply H. left. symmetry. exact E.
Qed.
Lemma give_shared : forall ps l parts ms, shared ps l parts ms -> NoDup (map a_dest ps) -> forall n,
  map (fun p => give ps (map (@length string) parts) l n (a_dest p)) ps = map Some ms.
Proof.
  intros ps l parts ms S0. induction S0 as [|p ps a l m parts ms Fi S0 IH]; intros ND n; [reflexivity|].
  cbn [map] in ND. inversion ND as [|? ? N1 N2]; subst.
  cbn [map give]. rewrite skipn_app, skipn_all, Nat.sub_diag. cbn [skipn app].
  rewrite (firstn_app (length a) a l), firstn_all, Nat.sub_diag. cbn [firstn]. rewrite app_nil_r.
  f_equal.
  - rewrite give_other by exact N1. unfold set. rewrite String.eqb_refl. f_equal.
    inversion Fi; reflexivity.
  - apply IH. exact N2.
Qed.
(** shares and counts *)
Lemma shared_valid : forall ps l parts ms, shared ps l parts ms ->
  valid (map a_nargs ps) (map (@length string) parts) /\ list_sum (map (@length string) parts) = length l.
Proof.
  intros ps l parts ms S0. induction S0 as [|p ps a l m parts ms Fi S0 [IH1 IH2]].
  - split; [constructor|reflexivity].
  - split.
    + cbn [map]. constructor; [|exact IH1]. inversion Fi; cbn; lia.
    + cbn [map]. change (length a + list_sum (map (@length string) parts) = length (a ++ l)).
      rewrite app_length. lia.
Qed.
Lemma valid_shared : forall ps c l, valid (map a_nargs ps) c -> list_sum c = length l ->
  exists parts ms, shared ps l parts ms /\ map (@length string) parts = c.
Proof.
  induction ps as [|p ps IH]; intros c l V Sm; cbn [map] in V.
  - inversion V; subst. cbn in Sm. destruct l; [|discriminate]. exists [], []. split; [constructor|reflexivity].
  - inversion V as [|? k ? t Hk Vt]; subst. change (list_sum (k :: t)) with (k + list_sum t) in Sm.
    assert (L1 : length (firstn k l) = k) by (apply firstn_length_le; lia).
    destruct (IH t (skipn k l) Vt) as (parts & ms & S0 & E0).
    { rewrite skipn_length. lia. }
    assert (Fi : exists m, fits (a_nargs p) (firstn k l) m).
    { destruct (a_nargs p); cbn in Hk.
      - destruct (firstn k l) as [|s [|]]; cbn in L1; try lia. eexists; constructor.
      - destruct (firstn k l) as [|s [|]]; cbn in L1; try lia; eexists; constructor.
      - eexists; constructor.
      - destruct (firstn k l) as [|s]; cbn in L1; try lia. eexists; constructor. }
    destruct Fi as [m Fi]. exists (firstn k l :: parts), (m :: ms). split.
    + rewrite <- (firstn_skipn k l) at 1. constructor; assumption.
    + cbn [map]. rewrite L1, E0. reflexivity.
Qed.
Lemma lexge_parts : forall parts parts', lexge (map (@length string) parts) (map (@length string) parts') ->
  at_least parts parts'.
Proof.
  induction parts as [|a parts IH]; intros [|b parts'] H; cbn [map] in H; inversion H; subst.
  - constructor.
  - apply al_more. assumption.
  - apply al_same; [assumption|apply IH; assumption].
Qed.
Lemma best_share : forall ps l parts0 ms0, shared ps l parts0 ms0 -> exists parts ms, best ps l parts ms /\
  share (map a_nargs ps) (length l) = Some (map (@length string) parts).
Proof.
  intros ps l parts0 ms0 S0. destruct (shared_valid _ _ _ _ S0) as [V0 E0].
  destruct (share_best _ _ V0) as (c & Ec & Sc & B). rewrite E0 in *.
  destruct (share_valid _ _ _ Ec) as [Vc _].
  destruct (valid_shared ps c l Vc Sc) as (parts & ms & S1 & E1). exists parts, ms. rewrite E1. split; [|exact Ec].
  split; [exact S1|]. intros parts' ms' S'. destruct (shared_valid _ _ _ _ S') as [V' E'].
  apply lexge_parts. rewrite E1. apply B; assumption.
Qed.
Lemma at_least_antisym : forall p q, at_least p q -> at_least q p -> map (@length string) p = map (@length string) q.
Proof.
  intros p q H. induction H as [|a b r r' L|a b r r' L H IH]; intro K; [reflexivity| |].
  - inversion K; subst; lia.
  - inversion K; subst; [lia|]. cbn [map]. rewrite L, IH; [reflexivity|assumption].
Qed.
Lemma parts_unique : forall ps l p q ms ms', shared ps l p ms -> shared ps l q ms' ->
  map (@length string) p = map (@length string) q -> ms = ms'.
Proof.
  intros ps l p q ms ms' H. revert q ms'. induction H as [|x ps a l m p ms Fi H IH]; intros q ms' K E.
  - inversion K; reflexivity.
  - inversion K as [|? ? a' l' m' q' ms'' Fi' K' Q1 Q2]; subst. cbn [map] in E. injection E; intros E2 E1.
    assert (A : a' = a /\ l' = l).
    { clear - Q2 E1. revert a' Q2 E1. induction a as [|s a IHa]; intros a' Q2 E1; destruct a' as [|s' a']; cbn in *; try lia.
      - split; [reflexivity|exact Q2].
      - injection Q2; intros Q3 ->. destruct (IHa a' Q3 ltac:(lia)) as [-> ->]. split; reflexivity. }
    destruct A as [-> ->]. f_equal; [|apply (IH q' ms'' K' E2)].
    inversion Fi; subst; inversion Fi'; subst; try reflexivity; congruence.
Qed.
Lemma best_unique : forall ps l p q ms ms', best ps l p ms -> best ps l q ms' -> ms = ms'.
Proof.
  intros ps l p q ms ms' [H1 H2] [K1 K2]. apply (parts_unique ps l p q ms ms' H1 K1).
  apply at_least_antisym; [apply (H2 _ _ K1)|apply (K2 _ _ H1)].
Qed.
Lemma partly_pos : forall ps n c, share (map a_nargs ps) n = Some c -> partly (length ps) (map a_nargs ps) n = c.
Proof. intros ps n c E. rewrite <- (partly_all _ _ _ E). rewrite map_length. reflexivity. Qed.
Lemma consume_best : forall ps l parts ms n, best ps l parts ms ->
  consume ps l n = ([], length l, give ps (map (@length string) parts) l n).
Proof.
  intros ps l parts ms n [S0 B]. destruct (best_share _ _ _ _ S0) as (parts1 & ms1 & B1 & E1).
  assert (Q : map (@length string) parts = map (@length string) parts1).
  { apply at_least_antisym; [apply (B _ _ (proj1 B1))|apply (proj2 B1 _ _ S0)]. }
  rewrite <- Q in E1. unfold consume.
  rewrite (partly_pos _ _ _ E1).
  pose proof (share_length _ _ _ E1) as L. rewrite !map_length in L.
  rewrite map_length, L, skipn_all. destruct (shared_valid _ _ _ _ S0) as [_ W]. f_equal. f_equal. exact W.
Qed.
(** ** Refusals *)
Lemma eat_extra : forall its ts, items_toks its ts -> Forall (fun i => o_kind (item_opt i) = item_kind i) its ->
  forall ps n, eat ts ps n true = PErr.
Proof.
  intros its ts T F ps n. rewrite <- (app_nil_r ts), (eat_items its ts T F); [|exact I].
  change (@nil tok) with (map TArg []). rewrite eat_end.
  destruct (consume ps [] (fold_left effect its n)) as [[ps' k] n']. destruct (existsb needed ps'); reflexivity.
Qed.
Lemma partly_short : forall i sh n, n < least_sum (firstn i sh) -> length (partly i sh n) <= i.
Proof.
  induction i as [|i IH]; intros sh n L; [cbn in L; lia|]. cbn [partly].
  apply share_none in L. rewrite L. destruct (share (firstn i sh) n) as [c|] eqn:E.
  - assert (Q : partly i sh n = c) by (destruct i; cbn [partly]; rewrite E; reflexivity).
    rewrite Q, (share_length _ _ _ E). rewrite firstn_length. lia.
  - apply share_none in E. specialize (IH sh n E). lia.
Qed.
Lemma needed_least : forall p, needed p = true <-> least (a_nargs p) = 1.
Proof. intro p. unfold needed. destruct (a_nargs p); cbn; split; congruence. Qed.
(** what is left when the positionals cannot all be served *)
Lemma consume_short : forall ps l n, length l < least_sum (map a_nargs ps) ->
  exists p ps' n', consume ps l n = (p :: ps', length l, n') /\ needed p = true.
Proof.
  intros ps l n L. unfold consume.
  assert (L' : length l < least_sum (firstn (length (map a_nargs ps)) (map a_nargs ps))) by (rewrite firstn_all; exact L).
  destruct (partly_some _ _ _ (le_n _) L') as (j & a & J1 & J2 & J3 & J4 & J5).
  rewrite map_length in J1, J3, J5. rewrite J3, J5.
  rewrite nth_error_map in J2. destruct (nth_error ps j) as [p|] eqn:E; cbn [option_map] in J2; [|discriminate].
  injection J2; intros <-. apply nth_error_split in E. destruct E as (l1 & l2 & -> & E2).
  exists p, l2. eexists. split.
  - rewrite <- E2 at 1. rewrite skipn_app, skipn_all, Nat.sub_diag. cbn [skipn app]. reflexivity.
  - apply needed_least. exact J4.
Qed.
Lemma consume_long : forall ps l n, least_sum (map a_nargs ps) <= length l ->
  exists k n', consume ps l n = ([], k, n') /\ k <= length l.
Proof.
  intros ps l n L. unfold consume. destruct (share_some _ _ L) as [c E].
  rewrite (partly_pos _ _ _ E).
  pose proof (share_length _ _ _ E) as Q. rewrite map_length in Q. rewrite Q, skipn_all.
  exists (list_sum c). eexists. split; [reflexivity|]. apply (share_valid _ _ _ E).
Qed.
Lemma consume_none : forall l n, consume [] l n = ([], 0, n).
Proof. intros l n. unfold consume. cbn. reflexivity. Qed.
Lemma eat_short : forall its ts, items_toks its ts -> Forall (fun i => o_kind (item_opt i) = item_kind i) its ->
  forall p ps n ex, needed p = true -> eat ts (p :: ps) n ex = PErr.
Proof.
  intros its ts T F p ps n ex H. rewrite <- (app_nil_r ts), (eat_items its ts T F); [|exact I].
  change (@nil tok) with (map TArg []). rewrite eat_end.
  destruct (consume_short (p :: ps) [] (fold_left effect its n)) as (q & qs & n' & -> & Hq).
  { apply needed_least in H. cbn. lia. }
  cbn [existsb]. rewrite Hq. reflexivity.
Qed.
(** all words are used only if they can be shared *)
Lemma consume_used : forall ps l n n', consume ps l n = ([], length l, n') ->
  exists parts ms, shared ps l parts ms.
Proof.
  intros ps l n n' E. destruct (le_lt_dec (least_sum (map a_nargs ps)) (length l)) as [L|L].
  - unfold consume in E. destruct (share_some _ _ L) as [c Ec].
    rewrite (partly_pos _ _ _ Ec) in E. injection E; intros _ E2 _.
    destruct (share_valid _ _ _ Ec) as [V _]. destruct (valid_shared ps c l V E2) as (parts & ms & S0 & _).
    exists parts, ms. exact S0.
  - destruct (consume_short ps l n L) as (p & ps' & n'' & E' & _). rewrite E' in E. discriminate.
Qed.

(** * Words of items *)
Lemma opts_in : forall P o, In o (p_opts P) -> In o (opts_of P).
Proof. intros P o H. right. exact H. Qed.
Lemma written_toks : forall P, distinct P -> forall i ws, written i ws -> In (item_opt i) (p_opts P) ->
  o_kind (item_opt i) = item_kind i -> item_toks i (map (lex P) ws).
Proof.
  intros P D i ws W H K. apply opts_in in H.
  destruct W as [o s Sp|o s v Sp Wv|o v|o c d r Hc Hd|o s vs Sp F]; cbn [item_opt item_kind] in *.
  - cbn [map]. rewrite (lex_spelt P D o s H Sp). constructor.
  - cbn [map]. rewrite (lex_spelt P D o s H Sp), (lex_word P v Wv). constructor.
  - cbn [map]. rewrite (lex_equal P D o v H). constructor.
  - cbn [map]. rewrite (lex_joined P D o c d r H Hc Hd K). constructor.
  - cbn [map]. rewrite (lex_spelt P D o s H Sp), (lex_words P vs F). constructor.
Qed.
Lemma all_toks : forall P, distinct P -> forall its ws, all_written its ws -> belongs P its ->
  items_toks its (map (lex P) ws).
Proof.
  intros P D its ws A. induction A as [|i its ws ws' W A IH]; intro B; [constructor|].
  inversion B as [|? ? [B1 B2] B']; subst. rewrite map_app. constructor; [|apply IH; exact B'].
  apply (written_toks P D); assumption.
Qed.
Definition fine (t : tok) : bool := negb (is_out t) && negb (is_amb t).
Lemma items_fine : forall its ts, items_toks its ts -> forallb fine ts = true.
Proof.
  intros its ts T. induction T as [|i its ts ts' Ti T IH]; [reflexivity|]. rewrite forallb_app, IH, andb_true_r.
  destruct Ti as [o|o v|o v|o vs]; try reflexivity. cbn. induction vs; [reflexivity|assumption].
Qed.
Lemma args_fine : forall l, forallb fine (map TArg l) = true.
Proof. induction l; [reflexivity|assumption]. Qed.
Lemma parse_fine : forall P argv, forallb fine (map (lex P) argv) = true ->
  parse P argv = eat (map (lex P) argv) (p_pos P) (start P) false.
Proof.
  intros P argv F. unfold parse, eat. cbv zeta.
  assert (E : existsb is_out (map (lex P) argv) = false /\ existsb is_amb (map (lex P) argv) = false).
  { induction (map (lex P) argv) as [|t ts IH]; [split; reflexivity|]. cbn [forallb existsb] in *.
    apply andb_true_iff in F. destruct F as [F1 F2]. destruct (IH F2) as [-> ->].
    unfold fine in F1. apply andb_true_iff in F1. destruct F1 as [F3 F4].
    apply negb_true_iff in F3. apply negb_true_iff in F4. rewrite F3, F4. split; reflexivity. }
  destruct E as [-> ->]. reflexivity.
Qed.
Lemma items_app : forall a ta b tb, items_toks a ta -> items_toks b tb -> items_toks (a ++ b) (ta ++ tb).
Proof.
  intros a ta b tb A B. induction A as [|i its ts ts' Ti T IH]; [exact B|].
  rewrite <- app_assoc. cbn [app]. constructor; assumption.
Qed.
Lemma items_start : forall its ts, items_toks its ts -> ts = [] \/ starts_opt ts.
Proof.
  intros its ts T. destruct T as [|i its ts ts' Ti T]; [left; reflexivity|right].
  destruct Ti; cbn [app]; eexists; eexists; eexists; reflexivity.
Qed.
Lemma belongs_kind : forall P its, belongs P its -> Forall (fun i => o_kind (item_opt i) = item_kind i) its.
Proof. intros P its B. eapply Forall_impl; [|exact B]. cbn. tauto. Qed.

(** * Attributes *)
Lemma effect_at : forall its n d, fold_left effect its n d =
  match mentioned d its with Some v => Some v | None => n d end.
Proof.
  induction its as [|i its IH]; intros n d; [reflexivity|]. cbn [fold_left mentioned]. rewrite IH.
  destruct (mentioned d its) as [v|]; [reflexivity|]. unfold effect, set. rewrite (String.eqb_sym d).
  destruct (o_dest (item_opt i) =? d); reflexivity.
Qed.
Lemma mentioned_app : forall d a b, mentioned d (a ++ b) =
  match mentioned d b with Some v => Some v | None => mentioned d a end.
Proof.
  intros d a b. induction a as [|i a IH]; cbn [app mentioned].
  - destruct (mentioned d b); reflexivity.
  - rewrite IH. destruct (mentioned d b); [reflexivity|]. reflexivity.
Qed.
Lemma fold_set_other : forall {A} (f : A -> string) (g : A -> value) l n d, ~ In d (map f l) ->
  fold_left (fun n o => set n (f o) (g o)) l n d = n d.
Proof.
  intros A f g. induction l as [|x l IH]; intros n d H; [reflexivity|]. cbn [fold_left]. rewrite IH.
  - unfold set. destruct (d =? f x) eqn:E; [|reflexivity]. apply String.eqb_eq in E. exfalso. apply H. left. auto.
  - intro Q. apply H. right. exact Q.
Qed.
Lemma fold_set_in : forall {A} (f : A -> string) (g : A -> value) l n x, NoDup (map f l) -> In x l ->
  fold_left (fun n o => set n (f o) (g o)) l n (f x) = Some (g x).
Proof.
  intros A f g. induction l as [|y l IH]; intros n x ND H; [destruct H|]. cbn [fold_left].
  cbn [map] in ND. inversion ND as [|? ? N1 N2]; subst. destruct H as [->|H].
  - rewrite fold_set_other by exact N1. unfold set. rewrite String.eqb_refl. reflexivity.
  - apply IH; assumption.
Qed.
Lemma nodup_app : forall {A} (a b : list A), NoDup (a ++ b) -> NoDup a /\ NoDup b /\ forall x, In x a -> ~ In x b.
Proof.
  intros A. induction a as [|x a IH]; intros b H; cbn [app] in *.
  - split; [constructor|]. split; [exact H|]. intros x [].
  - inversion H as [|? ? H1 H2]; subst. destruct (IH b H2) as (I1 & I2 & I3). split.
    { constructor; [|exact I1]. intro Q. apply H1. apply in_or_app. left. exact Q. }
    split; [exact I2|]. intros y [->|Hy]; [|apply I3; exact Hy]. intro Q. apply H1. apply in_or_app. right. exact Q.
Qed.
Lemma start_opt : forall P, distinct P -> forall o, In o (p_opts P) -> start P (o_dest o) = Some (unmentioned (o_kind o)).
Proof.
  intros P (_ & _ & _ & _ & ND) o H. apply nodup_app in ND. destruct ND as (N1 & _ & _). unfold start.
  rewrite (fold_set_in o_dest (fun o => default_of (o_kind o)) (p_opts P) _ o N1 H).
  destruct (o_kind o); reflexivity.
Qed.
Lemma mentioned_in : forall P its d v, belongs P its -> mentioned d its = Some v -> In d (map o_dest (p_opts P)).
Proof.
  intros P its d v B. induction B as [|i its [B1 B2] B IH]; cbn [mentioned]; [discriminate|].
  destruct (mentioned d its) as [w|]; [intro Q; apply IH; exact Q|].
  destruct (o_dest (item_opt i) =? d) eqn:E; [|discriminate]. intros _. apply String.eqb_eq in E. subst d.
  apply in_map. exact B1.
Qed.
(** what is known at the end *)
Lemma means_end : forall P, distinct P -> forall its1 its2 l parts ms, belongs P its1 -> belongs P its2 ->
  shared (p_pos P) l parts ms ->
  means P (its1 ++ its2) ms
    (fold_left effect its2 (give (p_pos P) (map (@length string) parts) l (fold_left effect its1 (start P)))).
Proof.
  intros P D its1 its2 l parts ms B1 B2 S0.
  pose proof D as (_ & _ & _ & _ & ND). apply nodup_app in ND. destruct ND as (N1 & N2 & N3). split.
  - intros o H. rewrite effect_at, mentioned_app.
    destruct (mentioned (o_dest o) its2); [reflexivity|].
    rewrite give_other by (apply N3; apply in_map; exact H). rewrite effect_at.
    destruct (mentioned (o_dest o) its1); [reflexivity|]. apply start_opt; assumption.
  - rewrite <- (give_shared _ _ _ _ S0 N2 (fold_left effect its1 (start P))).
    apply map_ext_in. intros p Hp. rewrite effect_at.
    destruct (mentioned (a_dest p) its2) as [v|] eqn:E; [|reflexivity].
    exfalso. apply (mentioned_in P _ _ _ B2) in E. apply (N3 _ E). apply in_map. exact Hp.
Qed.

(** the loop never loses an attribute *)
Lemma give_keeps : forall ps c l n d, n d <> None -> give ps c l n d <> None.
Proof.
  induction ps as [|p ps IH]; intros c l n d H; [exact H|]. destruct c as [|k c]; [exact H|].
  cbn [give]. apply IH. unfold set. destruct (d =? a_dest p); [discriminate|exact H].
Qed.
Lemma set_keeps : forall n d v d', n d' <> None -> set n d v d' <> None.
Proof. intros n d v d' H. unfold set. destruct (d' =? d); [discriminate|exact H]. Qed.
Lemma go_keeps : forall f ts ps n ex n', go f ts ps n ex = POk n' -> forall d, n d <> None -> n' d <> None.
Proof.
  induction f as [|f IH]; intros ts ps n ex n' E d H; [discriminate|]. cbn [go] in E.
  destruct (forallb is_arg ts).
  - unfold consume in E. cbv zeta in E.
    destruct (existsb needed _); [discriminate|]. destruct (ex || _); [discriminate|].
    injection E; intros <-. apply give_keeps. exact H.
  - destruct ts as [|t ts]; [discriminate|]. destruct t as [s|o e| | |]; try discriminate.
    + unfold consume in E. cbv zeta in E. destruct (Nat.ltb 0 _).
      * apply (IH _ _ _ _ _ E). apply give_keeps. exact H.
      * apply (IH _ _ _ _ _ E). apply give_keeps. exact H.
    + destruct (o_kind o), e as [v|]; try discriminate;
        try (apply (IH _ _ _ _ _ E); apply set_keeps; exact H).
      destruct ts as [|[] ts]; try discriminate. apply (IH _ _ _ _ _ E). apply set_keeps; exact H.
    + apply (IH _ _ _ _ _ E). exact H.
Qed.
Lemma fold_set_some : forall {A} (f : A -> string) (g : A -> value) l n d, In d (map f l) \/ n d <> None ->
  fold_left (fun n o => set n (f o) (g o)) l n d <> None.
Proof.
  intros A f g. induction l as [|x l IH]; intros n d H; [destruct H as [[]|H]; exact H|].
  cbn [fold_left]. apply IH. destruct H as [[<-|H]|H].
  - right. unfold set. rewrite String.eqb_refl. discriminate.
  - left. exact H.
  - right. apply set_keeps. exact H.
Qed.
Lemma start_some : forall P d, In d (map o_dest (p_opts P) ++ map a_dest (p_pos P)) -> start P d <> None.
Proof.
  intros P d H. unfold start. apply in_app_or in H.
  apply (fold_set_some o_dest (fun o => default_of (o_kind o))). destruct H as [H|H]; [left; exact H|right].
  apply (fold_set_some a_dest (fun _ => VNone)). left. exact H.
Qed.
Lemma parse_keeps : forall P argv n, parse P argv = POk n -> forall d,
  In d (map o_dest (p_opts P) ++ map a_dest (p_pos P)) -> n d <> None.
Proof.
  intros P argv n E d H. unfold parse in E. cbv zeta in E.
  destruct (existsb is_out _); [discriminate|]. destruct (existsb is_amb _); [discriminate|].
  apply (go_keeps _ _ _ _ _ _ E). apply start_some. exact H.
Qed.

(** * The tables are well formed *)
Fixpoint nodupb (l : list string) : bool :=
  match l with [] => true | x :: r => negb (existsb (String.eqb x) r) && nodupb r end.
Lemma nodupb_ok : forall l, nodupb l = true -> NoDup l.
Proof.
  induction l as [|x l IH]; cbn [nodupb]; intro H; [constructor|]. apply andb_true_iff in H. destruct H as [H1 H2].
  constructor; [|apply IH; exact H2]. intro Q. apply negb_true_iff in H1. rewrite <- not_true_iff_false in H1.
  apply H1. apply existsb_exists. exists x. split; [exact Q|apply String.eqb_refl].
Qed.
Definition shorts (P : parser) : list ascii :=
  flat_map (fun o => match o_short o with Some c => [c] | None => [] end) (opts_of P).
Lemma shorts_unique : forall l o o' c,
  NoDup (flat_map (fun o => match o_short o with Some c => [c] | None => [] end) l) ->
  In o l -> In o' l -> o_short o = Some c -> o_short o' = Some c -> o = o'.
Proof.
  induction l as [|x l IH]; intros o o' c ND H H' E E'; [destruct H|]. cbn [flat_map] in ND.
  apply nodup_app in ND. destruct ND as (_ & N2 & N3).
  assert (Q : forall y d, In y l -> o_short y = Some d ->
    In d (flat_map (fun o => match o_short o with Some c => [c] | None => [] end) l)).
  { intros y d Hy Ey. apply in_flat_map. exists y. split; [exact Hy|]. rewrite Ey. left. reflexivity. }
  destruct H as [->|H], H' as [->|H']; [reflexivity| | |apply (IH o o' c); assumption].
  - exfalso. apply (N3 c); [rewrite E; left; reflexivity|]. apply (Q o'); assumption.
  - exfalso. apply (N3 c); [rewrite E'; left; reflexivity|]. apply (Q o); assumption.
Qed.
Definition distinctb (P : parser) : bool :=
  nodupb (map o_long (opts_of P)) &&
  nodupb (map (fun c => String c "") (shorts P)) &&
  forallb (fun o => negb (o_long o =? "") && no_equal (o_long o) &&
                    match o_short o with Some c => negb (Ascii.eqb c "-"%char) | None => true end) (opts_of P) &&
  forallb (fun o => match o_kind o with Help => false | _ => true end) (p_opts P) &&
  nodupb (map o_dest (p_opts P) ++ map a_dest (p_pos P)).
Lemma distinctb_ok : forall P, distinctb P = true -> distinct P.
Proof.
  intros P H. unfold distinctb in H. apply andb_true_iff in H; destruct H as [H HH].
  apply andb_true_iff in H; destruct H as [H HH0]. apply andb_true_iff in H; destruct H as [H HH1].
  apply andb_true_iff in H; destruct H as [H HH2].
  split; [apply nodupb_ok; exact H|]. split.
  { intros o o' c. apply shorts_unique. apply nodupb_ok in HH2. fold (shorts P).
    apply NoDup_map_inv in HH2. exact HH2. }
  split.
  { intros o Ho. rewrite forallb_forall in HH1. specialize (HH1 o Ho).
    apply andb_true_iff in HH1. destruct HH1 as [Q Q3]. apply andb_true_iff in Q. destruct Q as [Q1 Q2].
    split; [|split; [exact Q2|]].
    - intro Z. rewrite Z in Q1. discriminate.
    - intro Z. rewrite Z in Q3. discriminate. }
  split; [|apply nodupb_ok; exact HH].
  intros o Ho Z. rewrite forallb_forall in HH0. specialize (HH0 o Ho). rewrite Z in HH0. discriminate.
Qed.
