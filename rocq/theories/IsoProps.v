(** C116: the times stated in the products. *)
From Coq Require Import String List ZArith QArith Qround Qabs Ascii Bool Lia Lqa.
From Verif Require Import Common IsoModel IsoSpec IsoProofs.
Import ListNotations.
Local Open Scope Z_scope.

(** The microsecond nearest to a time decides. *)
Lemma iso_fin : forall now q, let us := round_even (q * inject_Z 1000000) in
  iso_format now (Some (Fin q)) =
  if (first_instant <=? us) && (us <=? last_instant)
  then Ok (isoformat (base_day + us / us_per_day) (us mod us_per_day)) else Err EOverflow.
Proof.
  intros now q us. cbn [iso_format timedelta]. fold us. cbv zeta.
  pose proof (Z.div_mod us us_per_day ltac:(unfold us_per_day; lia)) as D.
  pose proof (Z.mod_pos_bound us us_per_day eq_refl) as M.
  unfold add_to_base. cbv zeta. set (k := us / us_per_day) in *. set (r := us mod us_per_day) in *.
  unfold first_instant, last_instant, base_day, max_day, us_per_day in *.
  destruct (Z.leb_spec (- (730119 * 86400000000)) us) as [A|A], (Z.leb_spec us (2921940 * 86400000000 - 1)) as [B|B]; cbn [andb].
  - assert (K : -730119 <= k <= 2921939) by lia.
    destruct (Z.leb_spec (Z.abs k) 999999999); [|lia]. cbn [bind]. fold k r.
    destruct (Z.leb_spec 1 (730120 + k)); [|lia]. destruct (Z.leb_spec (730120 + k) 3652059); [|lia]. reflexivity.
  - destruct (Z.leb_spec (Z.abs k) 999999999); [|reflexivity]. cbn [bind]. fold k r.
    destruct (Z.leb_spec 1 (730120 + k)), (Z.leb_spec (730120 + k) 3652059); try reflexivity. lia.
  - destruct (Z.leb_spec (Z.abs k) 999999999); [|reflexivity]. cbn [bind]. fold k r.
    destruct (Z.leb_spec 1 (730120 + k)), (Z.leb_spec (730120 + k) 3652059); try reflexivity. lia.
  - lia.
Qed.
Lemma in_range : forall us, first_instant <= us <= last_instant ->
  1 <= base_day + us / us_per_day <= max_day /\ 0 <= us mod us_per_day < us_per_day /\
  (base_day + us / us_per_day - base_day) * us_per_day + us mod us_per_day = us.
Proof.
  intros us H. pose proof (Z.div_mod us us_per_day ltac:(unfold us_per_day; lia)) as D.
  pose proof (Z.mod_pos_bound us us_per_day eq_refl) as M.
  unfold first_instant, last_instant, base_day, max_day, us_per_day in *. lia.
Qed.

(** The text of a time states the nearest microsecond (the time itself when it is
    a whole number of microseconds) and nothing else; it is given for exactly the
    times that are nearest to an instant of the years 1 to 9999. *)
Theorem C116_text : forall now q,
  exists us, nearest (q * inject_Z 1000000) us /\
    (forall z, (q * inject_Z 1000000 == inject_Z z)%Q -> us = z) /\
    (first_instant <= us <= last_instant ->
       exists text, iso_format now (Some (Fin q)) = Ok text /\
         (forall v, states text v <-> v = us) /\ (length text = 25 \/ length text = 32)%nat) /\
    (~ first_instant <= us <= last_instant -> iso_format now (Some (Fin q)) = Err EOverflow).
Proof.
  intros now q. exists (round_even (q * inject_Z 1000000)). split; [apply round_nearest|].
  split; [intros z; apply round_exact|]. rewrite iso_fin. set (us := round_even (q * inject_Z 1000000)).
  destruct (Z.leb_spec first_instant us) as [A|A], (Z.leb_spec us last_instant) as [B|B]; cbn [andb];
    try (split; [intros C; exfalso; lia|reflexivity]).
  split; [|intros C; exfalso; lia]. intros H. eexists. split; [reflexivity|].
  destruct (in_range us H) as (R1 & R2 & R3). pose proof (isoformat_states _ _ R1 R2) as S. rewrite R3 in S. split.
  - intros v. split; [intros S'; eapply states_one; eauto|intros ->; exact S].
  - rewrite isoformat_length. destruct (_ =? 0); [left|right]; reflexivity.
Qed.
Print Assumptions C116_text.

(** Times that are no numbers. *)
Theorem C116_errors : forall now first last,
  iso_format now (Some NaN) = Err ENan /\ iso_format now (Some Infinite) = Err EOverflow /\
  product_times now NaN last = Err ENan /\
  (forall text, iso_format now (Some first) = Ok text -> product_times now first NaN = Err ENan).
Proof.
  intros now first last. repeat split; try reflexivity. intros text H. unfold product_times. rewrite H. reflexivity.
Qed.
Print Assumptions C116_errors.

(** Texts sort as the times do. *)
Theorem C116_order : forall now p q tp tq,
  iso_format now (Some (Fin p)) = Ok tp -> iso_format now (Some (Fin q)) = Ok tq ->
  ((p <= q)%Q -> text_lt tp tq \/ tp = tq) /\
  (text_lt tp tq -> (p < q)%Q) /\
  (tp = tq <-> round_even (p * inject_Z 1000000) = round_even (q * inject_Z 1000000)).
Proof.
  intros now p q tp tq. rewrite !iso_fin.
  set (u := round_even (p * inject_Z 1000000)). set (v := round_even (q * inject_Z 1000000)).
  destruct (Z.leb_spec first_instant u) as [A|A], (Z.leb_spec u last_instant) as [B|B]; cbn [andb]; try discriminate.
  destruct (Z.leb_spec first_instant v) as [A'|A'], (Z.leb_spec v last_instant) as [B'|B']; cbn [andb]; try discriminate.
  intros E E'.
  assert (Tp : tp = isoformat (base_day + u / us_per_day) (u mod us_per_day)) by congruence.
  assert (Tq : tq = isoformat (base_day + v / us_per_day) (v mod us_per_day)) by congruence. clear E E'.
  destruct (in_range u (conj A B)) as (R1 & R2 & R3). destruct (in_range v (conj A' B')) as (R1' & R2' & R3').
  assert (Lt : forall a b c d, 1 <= a <= max_day -> 0 <= b < us_per_day -> 1 <= c <= max_day -> 0 <= d < us_per_day ->
    (a - base_day) * us_per_day + b < (c - base_day) * us_per_day + d -> text_lt (isoformat a b) (isoformat c d)).
  { intros. apply isoformat_lt; assumption. }
  assert (UV : u < v -> text_lt tp tq). { intros H. rewrite Tp, Tq. apply Lt; try assumption. rewrite R3, R3'. exact H. }
  assert (VU : v < u -> text_lt tq tp). { intros H. rewrite Tp, Tq. apply Lt; try assumption. rewrite R3, R3'. exact H. }
  assert (EQ : u = v -> tp = tq) by (intros H; rewrite Tp, Tq, H; reflexivity).
  assert (Mono : forall a b, (a <= b)%Q -> round_even (a * inject_Z 1000000) <= round_even (b * inject_Z 1000000)).
  { intros a b H. apply round_mono. apply Qmult_le_compat_r; [exact H|discriminate]. }
  split; [|split].
  - intros H. apply Mono in H. fold u v in H. destruct (Z.eq_dec u v) as [K|K]; [right; auto|left; apply UV; lia].
  - intros H. destruct (Qlt_le_dec p q) as [L|L]; [exact L|exfalso].
    apply Mono in L. fold u v in L. destruct (Z.eq_dec u v) as [K|K].
    + rewrite (EQ K) in H. exact (lt_irrefl _ H).
    + apply (lt_irrefl tp). eapply lt_trans; [exact H|]. apply VU. lia.
  - split; [|exact EQ]. intros H. destruct (Z.lt_trichotomy u v) as [K|[K|K]]; [|exact K|].
    + exfalso. apply UV in K. rewrite H in K. exact (lt_irrefl _ K).
    + exfalso. apply VU in K. rewrite H in K. exact (lt_irrefl _ K).
Qed.
Print Assumptions C116_order.

(** A product of bursts in order of time states a first time that is not after its
    last; its creation time is the clock's. *)
Theorem C116_product : forall day us first last,
  1 <= day <= max_day -> 0 <= us < us_per_day -> (first <= last)%Q ->
  first_instant <= round_even (first * inject_Z 1000000) -> round_even (last * inject_Z 1000000) <= last_instant ->
  exists c f l, product_times (day, us) (Fin first) (Fin last) = Ok (c, f, l) /\
    states c ((day - base_day) * us_per_day + us) /\
    (text_lt f l \/ f = l) /\
    states f (round_even (first * inject_Z 1000000)) /\ states l (round_even (last * inject_Z 1000000)).
Proof.
  intros day us first last Hd Hu L A B.
  assert (M : round_even (first * inject_Z 1000000) <= round_even (last * inject_Z 1000000)).
  { apply round_mono. apply Qmult_le_compat_r; [exact L|discriminate]. }
  assert (G : forall q, let u := round_even (q * inject_Z 1000000) in first_instant <= u <= last_instant ->
    exists t, iso_format (day, us) (Some (Fin q)) = Ok t /\ states t u).
  { intros q u H. rewrite iso_fin. fold u.
    destruct (Z.leb_spec first_instant u); [|lia]. destruct (Z.leb_spec u last_instant); [|lia]. cbn [andb].
    eexists. split; [reflexivity|]. destruct (in_range u H) as (R1 & R2 & R3).
    pose proof (isoformat_states _ _ R1 R2) as S. rewrite R3 in S. exact S. }
  destruct (G first ltac:(lia)) as (f & F1 & F2). destruct (G last ltac:(lia)) as (l & L1 & L2).
  exists (isoformat day us), f, l. unfold product_times. rewrite F1, L1. cbn [iso_format bind fst snd].
  split; [reflexivity|]. split; [apply isoformat_states; assumption|].
  split; [|split; assumption]. destruct (C116_order (day, us) first last f l F1 L1) as (O & _). apply O, L.
Qed.
Print Assumptions C116_product.

(** 1 January 2000 is the origin; a leap day; a tie; the second before year
    10000 ends; the next second. *)
Definition shown (q : Q) : option string :=
  match iso_format (1, 0) (Some (Fin q)) with Ok t => Some (string_of_list_ascii t) | Err _ => None end.
Example C116_example :
  shown 0 = Some "2000-01-01T00:00:00+00:00"%string /\
  shown (5093999 # 1) = Some "2000-02-28T22:59:59+00:00"%string /\
  shown (5097600 + 86400) = Some "2000-03-01T00:00:00+00:00"%string /\
  shown (12345678901234 # 20000) = Some "2019-07-24T11:45:45.061700+00:00"%string /\
  shown (5 # 2000000) = Some "2000-01-01T00:00:00.000002+00:00"%string /\
  shown (- (1 # 1000000)) = Some "1999-12-31T23:59:59.999999+00:00"%string /\
  shown (2921940 * 86400 - 1) = Some "9999-12-31T23:59:59+00:00"%string /\
  shown (2921940 * 86400) = None /\ shown (- (730119 * 86400)) = Some "0001-01-01T00:00:00+00:00"%string.
Proof. repeat split; vm_compute; reflexivity. Qed.
