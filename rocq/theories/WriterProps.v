(** Properties C35-C37, C76, C77. *)
From Coq Require Import String List ZArith QArith Qabs Qround Bool Arith Lia Lqa ZifyBool.
From Verif Require Import Common WriterModel WriterSpec WriterProofs.
Import ListNotations.
Open Scope nat_scope.

(** * C35 Product records stay aligned *)

(** A call succeeds exactly when the record is writable, whatever happened
    before, and the record index counts the successful calls. *)
Theorem C35_success : forall (A : Type) vars castable (rs : list (wrecord A)) k r,
  nth_error rs k = Some r ->
  (nth_error (fst (write_all A vars castable (w_init A) rs)) k = Some None <->
   writable vars castable r = true) /\
  w_index (snd (write_all A vars castable (w_init A) rs)) = length (filter (writable vars castable) rs).
Proof.
  intros A vars castable rs k r Hk. split; [apply wa_outcomes; assumption|].
  rewrite wa_index. reflexivity.
Qed.
Print Assumptions C35_success.

(** Every value supplied with the i-th successful write is in row i at the
    end, for every history including failing calls. *)
Theorem C35_supplied : forall (A : Type) vars castable (rs : list (wrecord A)) i r x a b e,
  Forall is_dict rs ->
  nth_error (filter (writable vars castable) rs) i = Some r ->
  supplies r x a b e ->
  w_tbl (snd (write_all A vars castable (w_init A) rs)) x i a b = Some e.
Proof. intros. eapply row_supplied; eassumption. Qed.
Print Assumptions C35_supplied.

(** What was not supplied is fill, when the call just before did not fail.
    Missing for the full property: rows written right after a failed call
    (false, see [C35_leftover_refuted]). *)
Theorem C35_fill_partial : forall (A : Type) vars castable (pre post : list (wrecord A)) r x a b,
  Forall is_dict (pre ++ r :: post) ->
  writable vars castable r = true ->
  (pre = [] \/ exists p q, pre = p ++ [q] /\ writable vars castable q = true) ->
  silent r x a b ->
  w_tbl (snd (write_all A vars castable (w_init A) (pre ++ r :: post))) x
        (length (filter (writable vars castable) pre)) a b = None.
Proof. intros. apply row_fill; assumption. Qed.
Print Assumptions C35_fill_partial.

(** Calls made later, failing or not, never touch rows of earlier records. *)
Theorem C35_earlier_untouched : forall (A : Type) vars castable (pre post : list (wrecord A)) x i a b,
  i < length (filter (writable vars castable) pre) ->
  w_tbl (snd (write_all A vars castable (w_init A) (pre ++ post))) x i a b =
  w_tbl (snd (write_all A vars castable (w_init A) pre)) x i a b.
Proof.
  intros A vars castable pre post x i a b Hi. rewrite wa_app. apply wa_earlier.
  rewrite wa_index. cbn. exact Hi.
Qed.
Print Assumptions C35_earlier_untouched.

(** Number of records, when no call fails; with failing calls it is at most
    one more than the number of successful ones. *)
Theorem C35_count_partial : forall (A : Type) vars castable (rs : list (wrecord A)),
  (Forall (fun r => writable vars castable r = true /\ exists x v, In (x, Some v) r) rs ->
   w_len (snd (write_all A vars castable (w_init A) rs)) = length rs) /\
  w_len (snd (write_all A vars castable (w_init A) rs)) <= S (length (filter (writable vars castable) rs)).
Proof.
  intros A vars castable rs. split.
  - intros H. rewrite (count_ok A vars castable rs H (w_init A)); reflexivity.
  - pose proof (len_bounds A vars castable rs (w_init A)) as H. rewrite wa_index in H.
    apply H. cbn. lia.
Qed.
Print Assumptions C35_count_partial.

(** Product used in the examples: a scalar variable and a waveform. *)
Definition ex_vars (x : string) : option vdesc :=
  if (x =? "time")%string then Some {| vd_ndims := 1; vd_d1 := 0; vd_d2 := 0 |}
  else if (x =? "wave")%string then Some {| vd_ndims := 2; vd_d1 := 2; vd_d2 := 0 |}
  else if (x =? "max")%string then Some {| vd_ndims := 1; vd_d1 := 0; vd_d2 := 0 |}
  else None.
Definition ex_cast (x : string) (v : value Z) := true.
Definition ex_good (t : Z) : wrecord Z :=
  [("time"%string, Some (VNum t)); ("max"%string, None); ("wave"%string, Some (VVec 1 (fun _ => t)))].
Definition ex_bad (t : Z) : wrecord Z :=
  [("time"%string, Some (VNum t)); ("max"%string, Some (VNum t)); ("wave"%string, Some (VVec 3 (fun _ => t)))].

Example C35_ex :
  Forall is_dict [ex_good 5; ex_good 7; ex_bad 9] /\
  map (writable ex_vars ex_cast) [ex_good 5; ex_good 7; ex_bad 9] = [true; true; false] /\
  supplies (ex_good 7) "wave" 0 0 7%Z /\ silent (ex_good 7) "max" 0 0 /\
  silent (ex_good 7) "wave" 1 0.
Proof.
  split; [|split; [reflexivity|split; [|split]]].
  - repeat constructor; cbn; intuition congruence.
  - exists (VVec 1 (fun _ => 7%Z)). cbn. auto.
  - intros e (v & [H|[H|[H|[]]]] & He); inversion H; subst; discriminate.
  - intros e (v & [H|[H|[H|[]]]] & He); inversion H; subst; discriminate.
Qed.

(** A row written after a failed call keeps values of the failed record where
    the new record supplies none (the code does not clear the row). *)
Theorem C35_leftover_refuted : exists (vars : string -> option vdesc) castable (rs : list (wrecord Z)) i r x a b e,
  Forall is_dict rs /\
  nth_error (filter (writable vars castable) rs) i = Some r /\ silent r x a b /\
  w_tbl (snd (write_all Z vars castable (w_init Z) rs)) x i a b = Some e.
Proof.
  exists ex_vars, ex_cast, [ex_bad 9; ex_good 5], 0, (ex_good 5), "max"%string, 0, 0, 9%Z.
  split; [|split; [reflexivity|split; [|reflexivity]]].
  - repeat constructor; cbn; intuition congruence.
  - intros e (v & [H|[H|[H|[]]]] & He); inversion H; subst; discriminate.
Qed.
Print Assumptions C35_leftover_refuted.

(** A failing last call adds an extra, half-filled record to the product. *)
Theorem C35_count_refuted : exists (vars : string -> option vdesc) castable (rs : list (wrecord Z)),
  w_len (snd (write_all Z vars castable (w_init Z) rs)) <> length (filter (writable vars castable) rs).
Proof. exists ex_vars, ex_cast, [ex_good 5; ex_bad 9]. vm_compute. discriminate. Qed.
Print Assumptions C35_count_refuted.

(** * C36 UTC day and second *)
Open Scope Q_scope.

(** Elapsed time since the previous burst is preserved across the rollover. *)
Theorem C36_elapsed : forall k t,
  inject_Z (fst (utc_record k t) - k_days k) * k_len k + snd (utc_record k t)
  == k_secs k + (t - k_tai k).
Proof.
  intros k t. unfold utc_record, utc_of.
  destruct (Qle_bool (k_secs k + (t - k_tai k)) (k_len k)); cbn [fst snd].
  - replace (k_days k - k_days k)%Z with 0%Z by lia. ring_simplify. reflexivity.
  - replace (k_days k + 1 - k_days k)%Z with 1%Z by lia. change (inject_Z 1) with 1. ring.
Qed.
Print Assumptions C36_elapsed.

(** For a surface interpolated between two bursts on the same or on
    consecutive UTC days, the written pair is the calendar pair, including
    days with a leap second at their end.  Missing: the exact midnight instant
    and instants inside a leap second when both bursts carry the same day
    (refuted below), and the first surface (refuted below). *)
Theorem C36_calendar_partial : forall (T : Z -> Q) sec_in_day prev curr t,
  denotes T (b_days prev) (b_secs prev) (b_tai prev) ->
  denotes T (b_days curr) (b_secs curr) (b_tai curr) ->
  (b_days curr = b_days prev \/ b_days curr = (b_days prev + 1)%Z) ->
  b_tai prev <= t -> t <= b_tai curr ->
  ~ t == T (b_days prev + 1)%Z ->
  (b_days curr = b_days prev -> b_secs curr <= sec_in_day) ->
  let r := utc_record (k_interpolated sec_in_day prev curr) t in
  denotes T (fst r) (snd r) t.
Proof.
  intros T L [tp dp sp] [tc dc sc] t (P1 & P2 & P3) (Q1 & Q2 & Q3) HD H1 H2 HM HS.
  cbn [b_tai b_days b_secs] in *.
  unfold utc_record, utc_of, k_interpolated, leap_secs; cbn [k_tai k_days k_secs k_len b_tai b_days b_secs].
  set (len := L + (tc - (inject_Z dc * L + sc) - (tp - (inject_Z dp * L + sp)))).
  destruct HD as [->| ->].
  - assert (E : len == L) by (unfold len; lra). specialize (HS eq_refl).
    destruct (Qle_bool (sp + (t - tp)) len) eqn:EL; cbn [fst snd].
    + unfold denotes. repeat split; lra.
    + exfalso. assert (~ sp + (t - tp) <= len) by (rewrite <- Qle_bool_iff; congruence). lra.
  - assert (E : len == T (dp + 1)%Z - T dp).
    { unfold len. rewrite inject_Z_plus. change (inject_Z 1) with 1. lra. }
    destruct (Qle_bool (sp + (t - tp)) len) eqn:EL; cbn [fst snd].
    + apply Qle_bool_iff in EL. unfold denotes. repeat split; try lra.
    + assert (~ sp + (t - tp) <= len) by (rewrite <- Qle_bool_iff; congruence).
      unfold denotes. repeat split; lra.
Qed.
Print Assumptions C36_calendar_partial.

(** A calendar whose day 3 has a leap second. *)
Definition ex_T (d : Z) : Q := inject_Z (86400 * d + (if (3 <? d)%Z then 1 else 0)).
Example C36_ex :
  let prev := {| b_tai := ex_T 4 - (1 # 2); b_days := 3; b_secs := 86400 + (1#2) |} in
  let curr := {| b_tai := ex_T 4 + (1#4); b_days := 4; b_secs := 1 # 4 |} in
  denotes ex_T (b_days prev) (b_secs prev) (b_tai prev) /\
  denotes ex_T (b_days curr) (b_secs curr) (b_tai curr) /\
  utc_record (k_interpolated 86400 prev curr) (ex_T 4 + (1#8)) = (4%Z, snd (utc_record (k_interpolated 86400 prev curr) (ex_T 4 + (1#8)))) /\
  snd (utc_record (k_interpolated 86400 prev curr) (ex_T 4 + (1#8))) == 1 # 8.
Proof. vm_compute. repeat split; congruence. Qed.

(** At midnight exactly the pair written is (old day, day length): the seconds
    are not below the day length. *)
Theorem C36_midnight_refuted : exists (T : Z -> Q) sec_in_day prev curr t,
  denotes T (b_days prev) (b_secs prev) (b_tai prev) /\
  denotes T (b_days curr) (b_secs curr) (b_tai curr) /\
  b_tai prev <= t /\ t <= b_tai curr /\
  let r := utc_record (k_interpolated sec_in_day prev curr) t in
  ~ denotes T (fst r) (snd r) t.
Proof.
  exists ex_T, 86400, {| b_tai := ex_T 1 - 1; b_days := 0; b_secs := 86399 |},
    {| b_tai := ex_T 1 + 1; b_days := 1; b_secs := 1 |}, (ex_T 1).
  repeat split; try (vm_compute; congruence).
  intros r (_ & _ & H). vm_compute in H. discriminate.
Qed.
Print Assumptions C36_midnight_refuted.

(** Between two bursts inside a leap second the surface is put on the next
    day. *)
Theorem C36_leap_second_refuted : exists (T : Z -> Q) sec_in_day prev curr t,
  denotes T (b_days prev) (b_secs prev) (b_tai prev) /\
  denotes T (b_days curr) (b_secs curr) (b_tai curr) /\
  b_tai prev < t /\ t < b_tai curr /\ ~ t == T (b_days prev + 1)%Z /\
  let r := utc_record (k_interpolated sec_in_day prev curr) t in
  ~ denotes T (fst r) (snd r) t.
Proof.
  exists ex_T, 86400, {| b_tai := ex_T 4 - (3#4); b_days := 3; b_secs := 86400 + (1#4) |},
    {| b_tai := ex_T 4 - (1#4); b_days := 3; b_secs := 86400 + (3#4) |}, (ex_T 4 - (1#2)).
  repeat split; try (vm_compute; congruence).
  intros r (H & _ & _). vm_compute in H. discriminate.
Qed.
Print Assumptions C36_leap_second_refuted.

(** The first surface of a run is written as day 1 with the whole TAI time as
    seconds, for every positive time. *)
Theorem C36_first_surface_written : forall t, 0 < t ->
  fst (utc_record (k_first k_init) t) = 1%Z /\ snd (utc_record (k_first k_init) t) == t.
Proof.
  intros t Ht. unfold utc_record, utc_of, k_first, k_init; cbn [k_tai k_days k_secs k_len].
  destruct (Qle_bool (0 + (t - 0)) 0) eqn:E.
  - apply Qle_bool_iff in E. exfalso. lra.
  - cbn [fst snd]. split; [reflexivity|lra].
Qed.
Print Assumptions C36_first_surface_written.
Theorem C36_first_surface_refuted : exists t, 0 < t /\ ~ denotes ex_T (fst (utc_record (k_first k_init) t)) (snd (utc_record (k_first k_init) t)) t.
Proof.
  exists 500000000. split; [reflexivity|]. intros (H & _). vm_compute in H. discriminate.
Qed.
Print Assumptions C36_first_surface_refuted.

(** * C37 L1BS I/Q samples fit their 8-bit encoding *)
Lemma scaled_some : forall st l, scaled st = Some l ->
  0 < dynamic_scale st /\ l = map (fun s => (fst s / dynamic_scale st, snd s / dynamic_scale st)) st.
Proof.
  intros st l H. unfold scaled in H. destruct (Qeq_bool (dynamic_scale st) 0) eqn:E; [discriminate|].
  injection H; intros; subst. split; [|reflexivity]. apply scale_pos.
  intros C. apply Qeq_bool_iff in C. congruence.
Qed.

(** Scaled samples lie in [-127,127], times the scale factor they are the
    stack samples, and the stored integers lie in [-127,127] too (so the fill
    value -128 never appears). *)
Theorem C37_range : forall stack l, scaled stack = Some l ->
  length l = length stack /\
  (forall i s, nth_error stack i = Some s -> exists u v,
     nth_error l i = Some (u, v) /\ -(127) <= u <= 127 /\ -(127) <= v <= 127 /\
     u * dynamic_scale stack == fst s /\ v * dynamic_scale stack == snd s) /\
  (forall m, stored_iq stack = Some m -> forall i a b, nth_error m i = Some (a, b) ->
     (-127 <= a <= 127)%Z /\ (-127 <= b <= 127)%Z).
Proof.
  intros st l H. pose proof H as H0. apply scaled_some in H. destruct H as [Hp ->].
  assert (HB : forall s, In s st ->
     (-(127) <= fst s / dynamic_scale st /\ fst s / dynamic_scale st <= 127) /\
     (-(127) <= snd s / dynamic_scale st /\ snd s / dynamic_scale st <= 127)).
  { intros s Hin. destruct (max_iq_bound st s Hin) as [B1 B2].
    rewrite (max_is_scale st) in B1, B2. split; apply div_bound; assumption. }
  split; [apply map_length|]. split.
  - intros i s Hi. exists (fst s / dynamic_scale st), (snd s / dynamic_scale st).
    split; [erewrite map_nth_error by exact Hi; reflexivity|].
    destruct (HB s (nth_error_In _ _ Hi)) as [B1 B2].
    split; [exact B1|]. split; [exact B2|]. split; field; lra.
  - intros m Hm i a b Hi. unfold stored_iq in Hm. rewrite H0 in Hm. cbn [option_map] in Hm.
    injection Hm; intros; subst m. rewrite map_map in Hi.
    apply nth_error_In in Hi. apply in_map_iff in Hi. destruct Hi as (s & Es & Hin).
    cbn [fst snd] in Es. inversion Es; subst. destruct (HB s Hin) as [[A1 A2] [B1 B2]].
    split; apply (qtrunc_range _ 127); assumption.
Qed.
Print Assumptions C37_range.

(** The stored integers give the samples back up to less than one step, i.e.
    1/127 of the largest component.  Missing: equality (refuted below: the
    integer conversion truncates). *)
Theorem C37_decode_partial : forall stack m i s a b,
  stored_iq stack = Some m -> nth_error stack i = Some s -> nth_error m i = Some (a, b) ->
  Qabs (inject_Z a * dynamic_scale stack - fst s) < max_iq stack / 127 /\
  Qabs (inject_Z b * dynamic_scale stack - snd s) < max_iq stack / 127.
Proof.
  intros st m i s a b Hm Hs Hi. unfold stored_iq in Hm.
  destruct (scaled st) as [l|] eqn:E; [|discriminate]. cbn [option_map] in Hm.
  injection Hm; intros; subst m. apply scaled_some in E. destruct E as [Hp ->].
  rewrite map_map in Hi. cbn [fst snd] in Hi. rewrite (map_nth_error _ _ _ Hs) in Hi.
  assert (Ea : a = qtrunc (fst s / dynamic_scale st)) by congruence.
  assert (Eb : b = qtrunc (snd s / dynamic_scale st)) by congruence. subst a b.
  fold (dynamic_scale st). set (d := dynamic_scale st) in *.
  assert (G : forall x, Qabs (inject_Z (qtrunc (x / d)) * d - x) < d).
  { intros x. pose proof (qtrunc_near (x / d)) as N.
    assert (Ex : x == (x / d) * d) by (field; lra).
    set (q := inject_Z (qtrunc (x / d))) in *.
    assert (E2 : q * d - x == (q - x / d) * d) by (rewrite Ex at 1; ring).
    rewrite E2, Qabs_Qmult. rewrite (Qabs_pos d) by lra.
    apply Qlt_le_trans with (1 * d); [apply Qmult_lt_compat_r; assumption|].
    rewrite Qmult_1_l. apply Qle_refl. }
  split; apply G.
Qed.
Print Assumptions C37_decode_partial.

Example C37_ex : let st := [(3, -(4)); (127#10, 0); (0, 2)] in
  stored_iq st = Some [(30, -40); (127, 0); (0, 20)]%Z /\ 0 < dynamic_scale st.
Proof. vm_compute. split; reflexivity. Qed.

Theorem C37_decode_refuted : exists stack m i s a b,
  stored_iq stack = Some m /\ nth_error stack i = Some s /\ nth_error m i = Some (a, b) /\
  ~ inject_Z a * dynamic_scale stack == fst s.
Proof.
  exists [(127, 0); (3 # 2, 0)], [(127, 0); (1, 0)]%Z, 1%nat, (3 # 2, 0), 1%Z, 0%Z.
  repeat split. vm_compute. discriminate.
Qed.
Print Assumptions C37_decode_refuted.

(** * C76 Extended L1B waveform encoding *)
Lemma wave_max_ge : forall w m, m <= fold_left Qmaxb w m.
Proof.
  induction w as [|x w IH]; intros m; cbn [fold_left]; [lra|].
  eapply Qle_trans; [apply (Qmaxb_l m x)|apply IH].
Qed.
Lemma wave_max_in : forall w m x, In x (m :: w) -> x <= fold_left Qmaxb w m.
Proof.
  induction w as [|y w IH]; intros m x [->|Hin]; cbn [fold_left]; try lra; try (destruct Hin; fail).
  - eapply Qle_trans; [apply (Qmaxb_l x y)|apply wave_max_ge].
  - destruct Hin as [->|Hin].
    + eapply Qle_trans; [apply (Qmaxb_r m x)|apply wave_max_ge].
    + apply IH. right; assumption.
Qed.
Lemma wave_max_is : forall w m, In (fold_left Qmaxb w m) (m :: w).
Proof.
  induction w as [|y w IH]; intros m; cbn [fold_left]; [left; reflexivity|].
  destruct (IH (Qmaxb m y)) as [H|H]; [|right; right; exact H].
  rewrite <- H. destruct (Qmaxb_cases m y) as [E|E]; rewrite E; [left|right; left]; reflexivity.
Qed.

Lemma stored_unit : forall (rnd : Q -> Z) x, (forall q, Qabs (inject_Z (rnd q) - q) <= 1 # 2) ->
  0 <= x -> x <= 1 ->
  (0 <= rnd (x / u32_quantum)%Q < u32_fill)%Z /\
  Qabs (inject_Z (rnd (x / u32_quantum)) * u32_quantum - x) <= u32_quantum / 2.
Proof.
  intros rnd x Hr H0 H1.
  assert (Ed : x / u32_quantum == x * inject_Z 4294967294).
  { unfold u32_quantum. change (inject_Z 4294967294) with (4294967294 # 1). field. }
  pose proof (Hr (x / u32_quantum)) as N. set (n := rnd (x / u32_quantum)) in *.
  apply Qabs_Qle_condition in N. rewrite Ed in N. destruct N as [N1 N2].
  change (inject_Z 4294967294) with (4294967294 # 1) in *.
  assert (L1 : - (1#2) <= inject_Z n) by lra.
  assert (L2 : inject_Z n <= (4294967294 # 1) + (1 # 2)) by lra.
  split.
  - unfold u32_fill. unfold Qle, inject_Z in L1, L2; cbn in L1, L2. lia.
  - assert (Ec : u32_quantum * (4294967294 # 1) == 1) by reflexivity.
    assert (Hc : 0 < u32_quantum) by reflexivity. clear Ed.
    set (u := u32_quantum) in *. clearbody u n. set (N := 4294967294 # 1) in *. clearbody N.
    set (z := inject_Z n) in *. clearbody z.
    assert (E : z * u - x == u * (z - x * N)).
    { transitivity (z * u - x * (u * N)); [rewrite Ec|]; ring. }
    rewrite E, Qabs_Qmult, (Qabs_pos u) by lra.
    apply Qmult_le_l; [exact Hc|]. apply Qabs_Qle_condition.
    change (1 # 2) with (/ 2) in *. split; lra.
Qed.

Theorem C76_waveform : forall (rnd : Q -> Z) w0 w s l,
  (forall q, Qabs (inject_Z (rnd q) - q) <= 1 # 2) ->
  (forall x, In x (w0 :: w) -> 0 <= x) ->
  wave_stored rnd w0 w = Some (s, l) ->
  (exists x, In x (w0 :: w) /\ s = x) /\ 0 < s /\ length l = length (w0 :: w) /\
  forall i x, nth_error (w0 :: w) i = Some x -> exists n, nth_error l i = Some n /\
    (0 <= n < u32_fill)%Z /\
    Qabs (inject_Z n * u32_quantum * s - x) <= s * (u32_quantum / 2).
Proof.
  intros rnd w0 w s l Hr Hpos H. unfold wave_stored, wave_norm in H.
  destruct (Qeq_bool (wave_max w0 w) 0) eqn:E; [discriminate|]. cbn [option_map fst snd] in H.
  assert (Es : s = wave_max w0 w) by congruence.
  assert (El : l = map (fun x => rnd (x / u32_quantum)) (map (fun x => x / wave_max w0 w) (w0 :: w))) by congruence.
  clear H. subst l s.
  pose proof (wave_max_is w w0) as Hin. fold (wave_max w0 w) in Hin. set (s := wave_max w0 w) in *.
  assert (Hs : 0 < s).
  { pose proof (Hpos s Hin) as Hn. apply Qle_lteq in Hn. destruct Hn as [Hn|Hn]; [exact Hn|].
    exfalso. symmetry in Hn. apply Qeq_bool_iff in Hn. congruence. }
  split; [exists s; split; [exact Hin|reflexivity]|]. split; [exact Hs|].
  split; [rewrite !map_length; reflexivity|].
  intros i x Hi. exists (rnd (x / s / u32_quantum)).
  split; [erewrite map_nth_error; [reflexivity|]; apply (map_nth_error (fun x => x / s)); exact Hi|].
  pose proof (nth_error_In _ _ Hi) as Hx. pose proof (Hpos x Hx) as H0.
  pose proof (wave_max_in w w0 x Hx) as H1. fold (wave_max w0 w) in H1. fold s in H1.
  assert (B0 : 0 <= x / s) by (apply Qle_shift_div_l; lra).
  assert (B1 : x / s <= 1) by (apply Qle_shift_div_r; lra).
  destruct (stored_unit rnd (x / s) Hr B0 B1) as [R D]. split; [exact R|].
  assert (Ex : x == (x / s) * s) by (field; lra).
  set (q := inject_Z (rnd (x / s / u32_quantum))) in *.
  assert (E2 : q * u32_quantum * s - x == s * (q * u32_quantum - x / s)) by (rewrite Ex at 1; ring).
  rewrite E2, Qabs_Qmult, (Qabs_pos s) by lra. apply Qmult_le_l; [exact Hs|exact D].
Qed.
Print Assumptions C76_waveform.

Definition half_up (q : Q) : Z := Qround.Qfloor (q + (1 # 2)).
Example C76_ex : (forall q, Qabs (inject_Z (half_up q) - q) <= 1 # 2) /\
  wave_stored half_up 2 [4; 1; 0] = Some (4, [2147483647; 4294967294; 1073741824; 0]%Z).
Proof.
  split; [|vm_compute; reflexivity]. intros q. unfold half_up.
  pose proof (Qround.Qfloor_le (q + (1#2))). pose proof (Qround.Qlt_floor (q + (1#2))) as H1.
  rewrite inject_Z_plus in H1. change (inject_Z 1) with 1 in H1.
  apply Qabs_Qle_condition. split; lra.
Qed.
Close Scope Q_scope.

(** * C77 Global attributes *)
Lemma write_globals_other : forall l attrs x, ~ In x (map fst l) -> write_globals attrs l x = attrs x.
Proof.
  induction l as [|[n v] l IH]; intros attrs x H; [reflexivity|]. cbn in H.
  unfold write_globals in *. cbn [fold_left]. rewrite IH by tauto. unfold write_global. cbn [fst].
  replace (x =? n)%string with false; [reflexivity|]. symmetry. apply String.eqb_neq. intro; subst; tauto.
Qed.
Theorem C77_globals : forall attrs l, NoDup (map fst l) ->
  (forall x s, In (x, Some s) l -> write_globals attrs l x = Some s) /\
  (forall x, In (x, None) l -> write_globals attrs l x = Some "Not available"%string) /\
  (forall x, ~ In x (map fst l) -> write_globals attrs l x = attrs x).
Proof.
  intros attrs l. revert attrs. induction l as [|[n v] l IH]; intros attrs ND.
  - repeat split; intros; try contradiction. 
  - cbn in ND. inversion ND as [|? ? Hn ND']; subst.
    destruct (IH (write_global attrs n v) ND') as (I1 & I2 & I3).
    assert (Eg : write_globals attrs ((n, v) :: l) = write_globals (write_global attrs n v) l) by reflexivity.
    split; [|split].
    + intros x s [H|H]; rewrite Eg; [|apply I1; assumption]. inversion H; subst.
      rewrite I3 by assumption. unfold write_global. rewrite String.eqb_refl. reflexivity.
    + intros x [H|H]; rewrite Eg; [|apply I2; assumption]. inversion H; subst.
      rewrite I3 by assumption. unfold write_global. rewrite String.eqb_refl. reflexivity.
    + intros x H. apply write_globals_other. exact H.
Qed.
Print Assumptions C77_globals.
Example C77_ex : let l := [("first"%string, Some "t0"%string); ("last"%string, None)] in
  NoDup (map fst l) /\ write_globals (fun _ => None) l "last"%string = Some "Not available"%string.
Proof. split; [repeat constructor; cbn; intuition congruence|reflexivity]. Qed.
