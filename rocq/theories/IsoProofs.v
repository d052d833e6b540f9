(** Calendar and numeral lemmas for IsoProps. *)
From Coq Require Import String List ZArith QArith Qround Qabs Ascii Bool Lia Lqa.
From Verif Require Import Common IsoModel IsoSpec.
Import ListNotations.
Local Open Scope Z_scope.

(** * Calendar *)

Definition dby (y : Z) : Z := 365 * (y - 1) + (y - 1) / 4 - (y - 1) / 100 + (y - 1) / 400.
Definition ord (a : Z * Z * Z) : Z :=
  let '(y, m, d) := a in dby y + before_month (is_leap y) m + d.
Definition valid (a : Z * Z * Z) : Prop :=
  let '(y, m, d) := a in 1 <= m <= 12 /\ 1 <= d <= days_in_month (is_leap y) m.

Lemma leap_iff : forall y, is_leap y = true <-> leap_year y.
Proof.
  intros y. unfold is_leap, leap_year. rewrite andb_true_iff, orb_true_iff, negb_true_iff.
  rewrite !Z.eqb_eq, Z.eqb_neq. Z.to_euclidean_division_equations. lia.
Qed.
Lemma dby_succ : forall y, dby (y + 1) = dby y + 365 + (if is_leap y then 1 else 0).
Proof.
  intros y. unfold dby. replace (y + 1 - 1) with y by lia.
  destruct (is_leap y) eqn:E.
  - apply leap_iff in E. unfold leap_year in E. Z.to_euclidean_division_equations. lia.
  - assert (N : ~ leap_year y) by (intros C; apply leap_iff in C; congruence).
    unfold leap_year in N. Z.to_euclidean_division_equations. lia.
Qed.
Lemma month_cases : forall m, 1 <= m <= 12 ->
  m = 1 \/ m = 2 \/ m = 3 \/ m = 4 \/ m = 5 \/ m = 6 \/ m = 7 \/ m = 8 \/ m = 9 \/ m = 10 \/ m = 11 \/ m = 12.
Proof. intros. lia. Qed.
Ltac months H := apply month_cases in H; destruct H as [->|[->|[->|[->|[->|[->|[->|[->|[->|[->|[->| ->]]]]]]]]]]].

Lemma md_iff : forall y m k, month_days y m k <-> 1 <= m <= 12 /\ k = days_in_month (is_leap y) m.
Proof.
  intros y m k. split.
  - intros H. inversion H as [L|L|m' I|m' I]; subst; clear H.
    + apply leap_iff in L. rewrite L. cbn. lia.
    + destruct (is_leap y) eqn:E; [apply leap_iff in E; contradiction|]. cbn. lia.
    + cbn in I. destruct I as [<-|[<-|[<-|[<-|[]]]]]; cbn; lia.
    + cbn in I. destruct I as [<-|[<-|[<-|[<-|[<-|[<-|[<-|[]]]]]]]]; cbn; lia.
  - intros (H & ->). months H; cbn; try (apply md_31; cbn; tauto); try (apply md_30; cbn; tauto).
    destruct (is_leap y) eqn:E; [apply md_feb_leap, leap_iff, E|].
    apply md_feb. intros C. apply leap_iff in C. congruence.
Qed.
Lemma next_ord : forall a b, next_date a b -> valid a /\ valid b /\ ord b = ord a + 1.
Proof.
  intros a b H. destruct H as [y m d k M D|y m k M L|y].
  - apply md_iff in M. destruct M as (M & ->). unfold valid, ord. lia.
  - apply md_iff in M. destruct M as (M & ->). unfold valid, ord.
    assert (D : 1 <= days_in_month (is_leap y) m) by (months M; destruct (is_leap y); cbn; lia).
    assert (D' : 1 <= days_in_month (is_leap y) (m + 1)) by (months M; destruct (is_leap y); cbn; lia).
    repeat split; try lia. months M; try lia; destruct (is_leap y); cbn; lia.
  - unfold valid, ord. cbn. rewrite dby_succ. destruct (is_leap y); lia.
Qed.
Lemma date_ord : forall n a, date_at n a -> valid a /\ ord a = base_day + n.
Proof.
  induction 1 as [|n a b H IH N|n a b H IH N].
  - split; [cbn; lia|reflexivity].
  - apply next_ord in N. split; [tauto|lia].
  - apply next_ord in N. split; [tauto|lia].
Qed.
Lemma has_next : forall a, valid a -> exists b, next_date a b.
Proof.
  intros ((y, m), d) (M & D).
  destruct (Z.eq_dec d (days_in_month (is_leap y) m)) as [->|N].
  - destruct (Z.eq_dec m 12) as [->|N].
    + cbn. eexists. apply nd_year.
    + eexists. apply nd_month; [apply md_iff; auto|lia].
  - eexists. eapply nd_day; [apply md_iff; split; [exact M|reflexivity]|lia].
Qed.
Lemma has_prev : forall b, valid b -> exists a, next_date a b.
Proof.
  intros ((y, m), d) (M & D).
  destruct (Z.eq_dec d 1) as [->|N].
  - destruct (Z.eq_dec m 1) as [->|N].
    + exists (y - 1, 12, 31). replace y with (y - 1 + 1) at 2 by lia. apply nd_year.
    + exists (y, m - 1, days_in_month (is_leap y) (m - 1)). replace m with (m - 1 + 1) at 3 by lia.
      apply nd_month; [apply md_iff; split; [lia|reflexivity]|lia].
  - exists (y, m, d - 1). replace d with (d - 1 + 1) at 2 by lia.
    eapply nd_day; [apply md_iff; split; [exact M|reflexivity]|lia].
Qed.
Lemma date_total : forall n, exists a, date_at n a.
Proof.
  assert (P : forall k : nat, exists a, date_at (Z.of_nat k) a).
  { induction k as [|k (a & IH)]; [eexists; apply da_base|].
    destruct (has_next a) as (b & N); [apply date_ord in IH; tauto|].
    exists b. rewrite Nat2Z.inj_succ. unfold Z.succ. eapply da_after; eauto. }
  assert (M : forall k : nat, exists a, date_at (- Z.of_nat k) a).
  { induction k as [|k (a & IH)]; [eexists; apply da_base|].
    destruct (has_prev a) as (b & N); [apply date_ord in IH; tauto|].
    exists b. replace (- Z.of_nat (S k)) with (- Z.of_nat k - 1) by lia. eapply da_before; eauto. }
  intros n. destruct (Z.le_ge_cases 0 n) as [H|H].
  - destruct (P (Z.to_nat n)) as (a & A). exists a. rewrite Z2Nat.id in A by lia. exact A.
  - destruct (M (Z.to_nat (- n))) as (a & A). exists a. rewrite Z2Nat.id, Z.opp_involutive in A by lia. exact A.
Qed.

Lemma in_year : forall y m d, valid (y, m, d) -> dby y < ord (y, m, d) <= dby (y + 1).
Proof.
  intros y m d (M & D). rewrite dby_succ. unfold ord. months M; destruct (is_leap y); cbn in *; lia.
Qed.
Lemma dby_mono : forall y z, y <= z -> dby y <= dby z.
Proof.
  intros y z H. replace z with (y + Z.of_nat (Z.to_nat (z - y))) by lia. generalize (Z.to_nat (z - y)). intros k.
  induction k as [|k IH]; [rewrite Z.add_0_r; lia|].
  replace (y + Z.of_nat (S k)) with (y + Z.of_nat k + 1) by lia. rewrite dby_succ.
  destruct (is_leap (y + Z.of_nat k)); lia.
Qed.
(** Order of dates. *)
Definition before (a b : Z * Z * Z) : Prop :=
  let '(y, m, d) := a in let '(y', m', d') := b in
  y < y' \/ (y = y' /\ (m < m' \/ (m = m' /\ d < d'))).
Lemma month_step : forall l m m' d, 1 <= m -> m < m' -> m' <= 12 -> 1 <= d <= days_in_month l m ->
  before_month l m + d <= before_month l m'.
Proof.
  intros l m m' d H1 H2 H3 D. assert (M : 1 <= m <= 12) by lia. assert (M' : 1 <= m' <= 12) by lia.
  clear H1 H3. months M; months M'; try lia; clear H2; destruct l; cbn [before_month days_in_month] in D |- *; lia.
Qed.
Lemma ord_before : forall a b, valid a -> valid b -> before a b -> ord a < ord b.
Proof.
  intros ((y, m), d) ((y', m'), d') Va Vb [L|(<- & [L|(<- & L)])].
  - pose proof (in_year y m d Va). pose proof (in_year y' m' d' Vb). pose proof (dby_mono (y + 1) y'). lia.
  - destruct Va as (Ma & Da), Vb as (Mb & Db). unfold ord.
    pose proof (month_step (is_leap y) m m' d). lia.
  - unfold ord. lia.
Qed.
Lemma before_total : forall a b, before a b \/ a = b \/ before b a.
Proof.
  intros ((y, m), d) ((y', m'), d'). unfold before.
  destruct (Z.lt_trichotomy y y') as [H|[<-|H]]; [lia| |lia].
  destruct (Z.lt_trichotomy m m') as [H|[<-|H]]; [lia| |lia].
  destruct (Z.lt_trichotomy d d') as [H|[<-|H]]; [lia|auto|lia].
Qed.
Lemma before_ord : forall a b, valid a -> valid b -> ord a < ord b -> before a b.
Proof.
  intros a b Va Vb L. destruct (before_total a b) as [H|[->|H]]; [exact H|lia|].
  pose proof (ord_before b a Vb Va H). lia.
Qed.
Lemma ord_inj : forall a b, valid a -> valid b -> ord a = ord b -> a = b.
Proof.
  intros a b Va Vb E. destruct (before_total a b) as [H|[->|H]]; [|reflexivity|].
  - pose proof (ord_before a b Va Vb H). lia.
  - pose proof (ord_before b a Vb Va H). lia.
Qed.
Lemma date_iff : forall n a, date_at n a <-> valid a /\ ord a = base_day + n.
Proof.
  intros n a. split; [apply date_ord|]. intros (V & O). destruct (date_total n) as (b & B).
  pose proof (date_ord n b B) as (V' & O'). replace a with b; [exact B|]. apply ord_inj; congruence.
Qed.

(** The library's conversion, over one cycle of 400 years by computation. *)
Definition validb (a : Z * Z * Z) : bool :=
  let '(y, m, d) := a in (1 <=? m) && (m <=? 12) && (1 <=? d) && (d <=? days_in_month (is_leap y) m).
Definition day_ok (k : Z) : bool := let a := ord2ymd (k + 1) in validb a && (ord a =? k + 1).
Definition day_step (s : Z * bool) : Z * bool := (fst s + 1, snd s && day_ok (fst s)).
Lemma cycle_checked : Pos.iter day_step (0, true) 146097 = (146097, true).
Proof. vm_compute. reflexivity. Qed.
Lemma cycle_days : forall k, 0 <= k < 146097 -> day_ok k = true.
Proof.
  assert (I : let s := Pos.iter day_step (0, true) 146097 in
              snd s = true -> forall k, 0 <= k < fst s -> day_ok k = true).
  { apply (Pos.iter_invariant 146097 _ day_step (fun s => snd s = true -> forall k, 0 <= k < fst s -> day_ok k = true)).
    - intros (n, b) IH H k Hk. cbn [day_step fst snd] in *. apply andb_true_iff in H. destruct H as (H1 & H2).
      destruct (Z.eq_dec k n) as [->|N]; [exact H2|]. apply IH; [exact H1|lia].
    - cbn [fst snd]. intros _ k Hk. lia. }
  cbv zeta in I. rewrite cycle_checked in I. cbn [fst snd] in I. apply I. reflexivity.
Qed.
Definition shift_year (q : Z) (a : Z * Z * Z) : Z * Z * Z := let '(y, m, d) := a in (y + 400 * q, m, d).
Lemma leap_shift : forall y q, is_leap (y + 400 * q) = is_leap y.
Proof.
  intros y q. unfold is_leap.
  replace ((y + 400 * q) mod 4) with (y mod 4) by (Z.to_euclidean_division_equations; lia).
  replace ((y + 400 * q) mod 100) with (y mod 100) by (Z.to_euclidean_division_equations; lia).
  replace ((y + 400 * q) mod 400) with (y mod 400) by (Z.to_euclidean_division_equations; lia). reflexivity.
Qed.
Lemma dby_shift : forall y q, dby (y + 400 * q) = dby y + 146097 * q.
Proof.
  intros y q. unfold dby. replace (y + 400 * q - 1) with (y - 1 + 400 * q) by lia.
  replace ((y - 1 + 400 * q) / 4) with ((y - 1) / 4 + 100 * q) by (Z.to_euclidean_division_equations; lia).
  replace ((y - 1 + 400 * q) / 100) with ((y - 1) / 100 + 4 * q) by (Z.to_euclidean_division_equations; lia).
  replace ((y - 1 + 400 * q) / 400) with ((y - 1) / 400 + q) by (Z.to_euclidean_division_equations; lia). lia.
Qed.
Lemma shift_valid : forall q a, valid a -> valid (shift_year q a).
Proof. intros q ((y, m), d) V. unfold valid, shift_year in *. rewrite leap_shift. exact V. Qed.
Lemma shift_ord : forall q a, ord (shift_year q a) = ord a + 146097 * q.
Proof. intros q ((y, m), d). unfold ord, shift_year. rewrite leap_shift, dby_shift. lia. Qed.
Lemma ord2ymd_shift : forall n q, ord2ymd (n + 146097 * q) = shift_year q (ord2ymd n).
Proof.
  intros n q. unfold ord2ymd.
  replace (n + 146097 * q - 1) with (n - 1 + q * 146097) by lia.
  rewrite Z.div_add, Z_mod_plus_full by lia. cbv zeta.
  set (x := (n - 1) mod 146097).
  destruct ((x mod 36524 mod 1461 / 365 =? 4) || (x / 36524 =? 4)); [unfold shift_year; do 2 f_equal; lia|].
  match goal with |- context [if ?c then _ else _] => destruct c end; unfold shift_year; do 2 f_equal; lia.
Qed.
Lemma ord2ymd_ok : forall n, valid (ord2ymd n) /\ ord (ord2ymd n) = n.
Proof.
  intros n. set (q := (n - 1) / 146097). set (k := (n - 1) mod 146097).
  assert (B : 0 <= k < 146097) by (apply Z.mod_pos_bound; lia).
  assert (E : n = k + 1 + 146097 * q) by (unfold k, q; Z.to_euclidean_division_equations; lia).
  pose proof (cycle_days k B) as C. unfold day_ok in C. cbv zeta in C. apply andb_true_iff in C. destruct C as (C1 & C2).
  apply Z.eqb_eq in C2.
  assert (V : valid (ord2ymd (k + 1))).
  { clear - C1. destruct (ord2ymd (k + 1)) as ((y, m), d). unfold validb in C1. unfold valid.
    rewrite !andb_true_iff, !Z.leb_le in C1. lia. }
  rewrite E, ord2ymd_shift. split; [apply shift_valid, V|]. rewrite shift_ord, C2. reflexivity.
Qed.
Lemma ord2ymd_date : forall n, date_at (n - base_day) (ord2ymd n).
Proof. intros n. apply date_iff. destruct (ord2ymd_ok n) as (V & O). split; [exact V|]. lia. Qed.

(** Years 1 to 9999. *)
Lemma year_range : forall day y m d, 1 <= day <= max_day -> ord2ymd day = (y, m, d) -> 1 <= y <= 9999.
Proof.
  intros day y m d H E. destruct (ord2ymd_ok day) as (V & O). rewrite E in *.
  pose proof (in_year y m d V) as I. rewrite O in I.
  assert (A : dby 1 = 0) by reflexivity. assert (B : dby 10000 = max_day) by reflexivity.
  split.
  - apply Z.nlt_ge. intros C. pose proof (dby_mono (y + 1) 1). lia.
  - apply Z.nlt_ge. intros C. pose proof (dby_mono 10000 y). lia.
Qed.

(** * Numerals *)

Lemma digit_cases : forall n, 0 <= n <= 9 ->
  n = 0 \/ n = 1 \/ n = 2 \/ n = 3 \/ n = 4 \/ n = 5 \/ n = 6 \/ n = 7 \/ n = 8 \/ n = 9.
Proof. intros. lia. Qed.
Lemma digit_code : forall n, nat_of_ascii (digit n) = (48 + Z.to_nat (n mod 10))%nat.
Proof.
  intros n. unfold digit. pose proof (Z.mod_pos_bound n 10 eq_refl) as B.
  assert (B' : 0 <= n mod 10 <= 9) by lia. apply digit_cases in B'.
  repeat destruct B' as [B'|B']; rewrite B'; reflexivity.
Qed.
Lemma digit_read : forall n, digit_value (digit n) = Some (n mod 10).
Proof.
  intros n. unfold digit_value. cbv zeta. rewrite digit_code. pose proof (Z.mod_pos_bound n 10 eq_refl) as B.
  rewrite Nat2Z.inj_add, Z2Nat.id by lia.
  replace ((48 <=? Z.of_nat 48 + n mod 10) && (Z.of_nat 48 + n mod 10 <=? 57)) with true.
  - f_equal. lia.
  - symmetry. apply andb_true_iff. rewrite !Z.leb_le. lia.
Qed.
Lemma value_app : forall l r acc, value_from acc (l ++ r) =
  match value_from acc l with Some v => value_from v r | None => None end.
Proof.
  induction l as [|a l IH]; intros r acc; cbn; [reflexivity|]. destruct (digit_value a); [apply IH|reflexivity].
Qed.
Lemma decimals_length : forall w n, length (decimals w n) = w.
Proof. induction w as [|w IH]; intros n; cbn; [reflexivity|]. rewrite app_length, IH. cbn. lia. Qed.
Lemma decimals_numeral : forall w n, 0 <= n < 10 ^ Z.of_nat w -> numeral w (decimals w n) n.
Proof.
  intros w. unfold numeral. induction w as [|w IH]; intros n H.
  - cbn in *. split; [reflexivity|]. f_equal. lia.
  - split; [apply decimals_length|]. cbn [decimals]. rewrite value_app.
    rewrite Nat2Z.inj_succ, Z.pow_succ_r in H by lia.
    destruct (IH (n / 10)) as (_ & ->).
    + split; [apply Z.div_pos; lia|]. apply Z.div_lt_upper_bound; lia.
    + cbn [value_from]. rewrite digit_read. f_equal. pose proof (Z.div_mod n 10). lia.
Qed.

(** * Order of texts *)

Lemma lt_app : forall a b r r', length a = length b -> text_lt a b -> text_lt (a ++ r) (b ++ r').
Proof.
  induction a as [|x a IH]; intros [|y b] r r' L H; try discriminate L; cbn in *; try contradiction.
  destruct H as [H|(E & H)]; [left; exact H|]. right. split; [exact E|]. apply IH; [congruence|exact H].
Qed.
Lemma lt_same : forall a r r', text_lt r r' -> text_lt (a ++ r) (a ++ r').
Proof. induction a as [|x a IH]; intros r r' H; cbn; [exact H|]. right. split; [reflexivity|]. apply IH, H. Qed.
Lemma lt_head : forall x r r', text_lt r r' -> text_lt (x :: r) (x :: r').
Proof. intros. right. auto. Qed.
Lemma decimals_lt : forall w a b, 0 <= a -> a < b -> b < 10 ^ Z.of_nat w -> text_lt (decimals w a) (decimals w b).
Proof.
  induction w as [|w IH]; intros a b H0 H1 H2; [cbn in H2; lia|]. cbn [decimals].
  rewrite Nat2Z.inj_succ, Z.pow_succ_r in H2 by lia.
  destruct (Z.lt_ge_cases (a / 10) (b / 10)) as [L|L].
  - apply lt_app; [rewrite !decimals_length; reflexivity|]. apply IH; [apply Z.div_pos; lia|exact L|].
    apply Z.div_lt_upper_bound; lia.
  - assert (E : a / 10 = b / 10) by (pose proof (Z.div_le_mono a b 10); lia).
    rewrite E. apply lt_same. cbn. left. rewrite !digit_code.
    pose proof (Z.div_mod a 10). pose proof (Z.div_mod b 10).
    pose proof (Z.mod_pos_bound a 10 eq_refl). pose proof (Z.mod_pos_bound b 10 eq_refl). lia.
Qed.
Lemma field_lt : forall w a b r r', 0 <= a -> a < b -> b < 10 ^ Z.of_nat w ->
  text_lt (decimals w a ++ r) (decimals w b ++ r').
Proof. intros. apply lt_app; [rewrite !decimals_length; reflexivity|]. apply decimals_lt; assumption. Qed.
Lemma lt_irrefl : forall a, ~ text_lt a a.
Proof. induction a as [|x a IH]; cbn; [tauto|]. intros [H|(_ & H)]; [lia|tauto]. Qed.
Lemma lt_trans : forall a b c, text_lt a b -> text_lt b c -> text_lt a c.
Proof.
  induction a as [|x a IH]; intros [|y b] [|z c]; cbn; try tauto.
  intros [H|(-> & H)] [H'|(-> & H')].
  - left. lia.
  - left. exact H.
  - left. exact H'.
  - right. split; [reflexivity|]. eapply IH; eauto.
Qed.

(** * The text of an instant *)

Lemma day_parts : forall us, 0 <= us < us_per_day ->
  let s := us / 1000000 in
  0 <= s / 3600 < 24 /\ 0 <= s / 60 mod 60 < 60 /\ 0 <= s mod 60 < 60 /\ 0 <= us mod 1000000 < 1000000 /\
  us = ((s / 3600 * 60 + s / 60 mod 60) * 60 + s mod 60) * 1000000 + us mod 1000000.
Proof.
  intros us H s. unfold us_per_day in H.
  assert (S : 0 <= s < 86400) by (unfold s; split; [apply Z.div_pos; lia|apply Z.div_lt_upper_bound; lia]).
  assert (E : us = s * 1000000 + us mod 1000000) by (unfold s; pose proof (Z.div_mod us 1000000); lia).
  pose proof (Z.mod_pos_bound us 1000000 eq_refl) as M. revert E M. generalize (us mod 1000000). intros f E M.
  clearbody s.
  assert (D : s / 3600 = s / 60 / 60) by (rewrite Z.div_div by lia; reflexivity). rewrite D.
  pose proof (Z.div_mod s 60 ltac:(lia)). pose proof (Z.mod_pos_bound s 60 eq_refl).
  pose proof (Z.div_mod (s / 60) 60 ltac:(lia)). pose proof (Z.mod_pos_bound (s / 60) 60 eq_refl).
  lia.
Qed.

Lemma isoformat_states : forall day us, 1 <= day <= max_day -> 0 <= us < us_per_day ->
  states (isoformat day us) ((day - base_day) * us_per_day + us).
Proof.
  intros day us Hd Hu. unfold isoformat. destruct (ord2ymd day) as ((y, m), d) eqn:E.
  pose proof (year_range day y m d Hd E) as Y. destruct (ord2ymd_ok day) as (V & _). rewrite E in V.
  pose proof (ord2ymd_date day) as DA. rewrite E in DA.
  destruct (day_parts us Hu) as (P1 & P2 & P3 & P4 & P5). cbv zeta in *.
  destruct V as (V1 & V2).
  assert (V3 : d <= 31) by (months V1; destruct (is_leap y); cbn in V2; lia).
  set (s := us / 1000000) in *. set (f := us mod 1000000) in *.
  eapply (states_intro _ _ (decimals 4 y) (decimals 2 m) (decimals 2 d) (decimals 2 (s / 3600)) (decimals 2 (s / 60 mod 60))
    (decimals 2 (s mod 60)) (if f =? 0 then [] else "."%char :: decimals 6 f) y m d (s / 3600) (s / 60 mod 60) (s mod 60) f
    (day - base_day)).
  - cbn [chars list_ascii_of_string app]. destruct (f =? 0); reflexivity.
  - apply decimals_numeral. cbn. lia.
  - apply decimals_numeral. cbn. lia.
  - apply decimals_numeral. cbn. lia.
  - apply decimals_numeral. cbn. lia.
  - apply decimals_numeral. cbn. lia.
  - apply decimals_numeral. cbn. lia.
  - destruct (Z.eqb_spec f 0) as [->|N]; [left; auto|]. right. eexists. split; [reflexivity|].
    apply decimals_numeral. cbn. lia.
  - exact P1.
  - exact P2.
  - exact P3.
  - exact DA.
  - rewrite P5. unfold us_per_day. ring.
Qed.

Lemma isoformat_lt : forall day us day' us', 1 <= day <= max_day -> 1 <= day' <= max_day ->
  0 <= us < us_per_day -> 0 <= us' < us_per_day ->
  (day - base_day) * us_per_day + us < (day' - base_day) * us_per_day + us' ->
  text_lt (isoformat day us) (isoformat day' us').
Proof.
  intros day us day' us' Hd Hd' Hu Hu' L. unfold isoformat.
  destruct (ord2ymd day) as ((y, m), d) eqn:E. destruct (ord2ymd day') as ((y', m'), d') eqn:E'.
  pose proof (year_range day y m d Hd E) as Y. pose proof (year_range day' y' m' d' Hd' E') as Y'.
  destruct (ord2ymd_ok day) as (V & O). rewrite E in V, O. destruct (ord2ymd_ok day') as (V' & O'). rewrite E' in V', O'.
  assert (DL : d <= 31) by (destruct V as (V1 & V2); months V1; destruct (is_leap y); cbn in V2; lia).
  assert (DL' : d' <= 31) by (destruct V' as (V1 & V2); months V1; destruct (is_leap y'); cbn in V2; lia).
  destruct (day_parts us Hu) as (P1 & P2 & P3 & P4 & P5). destruct (day_parts us' Hu') as (Q1 & Q2 & Q3 & Q4 & Q5).
  cbv zeta in *.
  set (h := us / 1000000 / 3600) in *. set (i := us / 1000000 / 60 mod 60) in *. set (s := us / 1000000 mod 60) in *.
  set (f := us mod 1000000) in *.
  set (h' := us' / 1000000 / 3600) in *. set (i' := us' / 1000000 / 60 mod 60) in *. set (s' := us' / 1000000 mod 60) in *.
  set (f' := us' mod 1000000) in *. clearbody h i s f h' i' s' f'.
  assert (C : day < day' \/ (day = day' /\ us < us')).
  { destruct (Z.lt_trichotomy day day') as [K|[K|K]]; [left; exact K|right; subst; lia|exfalso].
    unfold us_per_day in *. nia. }
  destruct C as [C|(C & Cu)].
  - rewrite <- O, <- O' in C. apply before_ord in C; [|exact V|exact V'].
    destruct V as (V1 & V2), V' as (V1' & V2'). clear P5 Q5.
    destruct C as [C|(-> & [C|(-> & C)])].
    + apply field_lt; [lia|exact C|cbn; lia].
    + apply lt_same, lt_same. apply field_lt; [lia|exact C|cbn; lia].
    + apply lt_same, lt_same, lt_same, lt_same. apply field_lt; [lia|exact C|cbn; lia].
  - rewrite <- C, E in E'. injection E' as <- <- <-. do 6 apply lt_same.
    destruct (Z.lt_trichotomy h h') as [K|[<-|K]]; [apply field_lt; [lia|exact K|cbn; lia]| |exfalso; lia].
    do 2 apply lt_same.
    destruct (Z.lt_trichotomy i i') as [K|[<-|K]]; [apply field_lt; [lia|exact K|cbn; lia]| |exfalso; lia].
    do 2 apply lt_same.
    destruct (Z.lt_trichotomy s s') as [K|[<-|K]]; [apply field_lt; [lia|exact K|cbn; lia]| |exfalso; lia].
    apply lt_same.
    assert (K : f < f') by lia. destruct (Z.eqb_spec f 0) as [->|N], (Z.eqb_spec f' 0) as [->|N']; try lia.
    + left. cbn. lia.
    + rewrite <- !app_assoc. apply lt_same. apply field_lt; [lia|exact K|cbn; lia].
Qed.

Lemma isoformat_length : forall day us,
  length (isoformat day us) = if us mod 1000000 =? 0 then 25%nat else 32%nat.
Proof.
  intros day us. unfold isoformat. destruct (ord2ymd day) as ((y, m), d).
  destruct (us mod 1000000 =? 0); rewrite !app_length, !decimals_length; reflexivity.
Qed.

(** * A text states one instant *)

Lemma split_eq : forall {X} (a b r r' : list X), length a = length b -> a ++ r = b ++ r' -> a = b /\ r = r'.
Proof.
  intros X. induction a as [|x a IH]; intros [|y b] r r' L H; try discriminate L; cbn in *; [auto|].
  injection H as -> H. destruct (IH b r r') as (-> & ->); [congruence|exact H|auto].
Qed.
Lemma states_one : forall text u v, states text u -> states text v -> u = v.
Proof.
  intros text u v H H'.
  destruct H as [ty tm td th ti ts tf y m d h i s f n T (Ly & Vy) (Lm & Vm) (Ld & Vd) (Lh & Vh) (Li & Vi) (Ls & Vs) F _ _ _ D U].
  destruct H' as [ty' tm' td' th' ti' ts' tf' y' m' d' h' i' s' f' n' T' (Ly' & Vy') (Lm' & Vm') (Ld' & Vd') (Lh' & Vh')
    (Li' & Vi') (Ls' & Vs') F' _ _ _ D' U'].
  rewrite T in T'. clear T.
  apply split_eq in T'; [|congruence]. destruct T' as (<- & T'). injection T' as T'.
  apply split_eq in T'; [|congruence]. destruct T' as (<- & T'). injection T' as T'.
  apply split_eq in T'; [|congruence]. destruct T' as (<- & T'). injection T' as T'.
  apply split_eq in T'; [|congruence]. destruct T' as (<- & T'). injection T' as T'.
  apply split_eq in T'; [|congruence]. destruct T' as (<- & T'). injection T' as T'.
  apply split_eq in T'; [|congruence]. destruct T' as (<- & T').
  rewrite Vy in Vy'. injection Vy' as <-. rewrite Vm in Vm'. injection Vm' as <-. rewrite Vd in Vd'. injection Vd' as <-.
  rewrite Vh in Vh'. injection Vh' as <-. rewrite Vi in Vi'. injection Vi' as <-. rewrite Vs in Vs'. injection Vs' as <-.
  assert (n = n') by (apply date_ord in D, D'; lia). subst n'.
  assert (f = f'); [|subst; reflexivity].
  destruct F as [(-> & ->)|(t6 & -> & L6 & V6)], F' as [(-> & ->)|(t6' & -> & L6' & V6')].
  - reflexivity.
  - exfalso. cbn in T'. discriminate T'.
  - exfalso. cbn in T'. discriminate T'.
  - cbn [app] in T'. injection T' as T'. apply split_eq in T'; [|congruence]. destruct T' as (<- & _). congruence.
Qed.

(** * Rounding *)

Lemma round_half : forall q, (Qabs (q - inject_Z (round_even q)) <= 1 # 2)%Q /\
  ((Qabs (q - inject_Z (round_even q)) == 1 # 2)%Q -> Z.even (round_even q) = true).
Proof.
  intros q. unfold round_even. cbv zeta. set (f := Qfloor q).
  pose proof (Qfloor_le q) as A. pose proof (Qlt_floor q) as B. fold f in A, B. rewrite inject_Z_plus in B.
  change (inject_Z 1) with 1%Q in B.
  destruct (Qcompare_spec (q - inject_Z f) (1 # 2)) as [C|C|C].
  - destruct (Z.even f) eqn:E.
    + split; [rewrite Qabs_pos; lra|auto].
    + split.
      * rewrite inject_Z_plus. change (inject_Z 1) with 1%Q. rewrite Qabs_neg; lra.
      * intros _. rewrite Z.even_add, E. reflexivity.
  - rewrite Qabs_pos by lra. split; [lra|]. intros D. lra.
  - rewrite inject_Z_plus. change (inject_Z 1) with 1%Q. rewrite Qabs_neg by lra. split; [lra|]. intros D. lra.
Qed.
Lemma far_half : forall q z z', (Qabs (q - inject_Z z) <= 1 # 2)%Q -> z' <> z -> (1 # 2 <= Qabs (q - inject_Z z'))%Q.
Proof.
  intros q z z' H N. apply Qabs_Qle_condition in H.
  assert (C : (inject_Z z' + 1 <= inject_Z z)%Q \/ (inject_Z z + 1 <= inject_Z z')%Q).
  { change 1%Q with (inject_Z 1). rewrite <- !inject_Z_plus, <- !Zle_Qle. lia. }
  destruct C as [C|C].
  - apply Qle_trans with (q - inject_Z z')%Q; [lra|apply Qle_Qabs].
  - rewrite <- Qabs_opp. apply Qle_trans with (- (q - inject_Z z'))%Q; [lra|apply Qle_Qabs].
Qed.
Lemma round_nearest : forall q, nearest q (round_even q).
Proof.
  intros q. destruct (round_half q) as (H1 & H2). split.
  - intros z'. destruct (Z.eq_dec z' (round_even q)) as [->|N]; [apply Qle_refl|].
    apply Qle_trans with (1 # 2); [exact H1|]. eapply far_half; eauto.
  - intros z' E N. apply H2. apply Qle_antisym; [exact H1|]. rewrite <- E. eapply far_half; eauto.
Qed.
Lemma round_exact : forall q z, (q == inject_Z z)%Q -> round_even q = z.
Proof.
  intros q z E. destruct (Z.eq_dec z (round_even q)) as [->|N]; [reflexivity|]. exfalso.
  destruct (round_half q) as (H1 & _). pose proof (far_half q _ z H1 N) as F. rewrite E in F.
  assert (Z0 : (inject_Z z - inject_Z z == 0)%Q) by ring. rewrite Z0 in F. cbn in F. lra.
Qed.
Lemma round_mono : forall p q, (p <= q)%Q -> round_even p <= round_even q.
Proof.
  intros p q H. apply Z.nlt_ge. intros L.
  destruct (round_half p) as (P1 & P2), (round_half q) as (Q1 & Q2).
  set (a := round_even p) in *. set (b := round_even q) in *. clearbody a b.
  pose proof (proj1 (Qabs_Qle_condition _ _) P1) as P3. pose proof (proj1 (Qabs_Qle_condition _ _) Q1) as Q3.
  assert (C : (inject_Z b + 1 <= inject_Z a)%Q).
  { change 1%Q with (inject_Z 1). rewrite <- inject_Z_plus, <- Zle_Qle. lia. }
  assert (Ea : (p - inject_Z a == - (1 # 2))%Q) by lra. assert (Eb : (q - inject_Z b == 1 # 2)%Q) by lra.
  assert (E1 : (inject_Z a == inject_Z (b + 1))%Q) by (rewrite inject_Z_plus; change (inject_Z 1) with 1%Q; lra).
  assert (E : a = b + 1) by (apply inject_Z_injective, E1).
  assert (Va : Z.even a = true) by (apply P2; rewrite Ea; reflexivity).
  assert (Vb : Z.even b = true) by (apply Q2; rewrite Eb; reflexivity).
  rewrite E, Z.even_add, Vb in Va. discriminate Va.
Qed.
