(** C13, C14, C15, C17, C18. *)
From Coq Require Import List ZArith Bool Lia.
From Verif Require Import Common BeamModel BeamSpec BeamProofs.
Import ListNotations.

(** C13: over every history of beam-list sizes, the trend stored with each
    burst is the one of the independent description [trend_spec]. *)
Theorem C13_trend_history : forall N sizes k,
  nth_error (trends N sizes) k = trend_spec N sizes k.
Proof. exact trends_spec. Qed.
Print Assumptions C13_trend_history.

(** C13: in particular 0 exactly for a full set of beams, else +1 or -1. *)
Theorem C13_trend_zero_iff_full : forall N sizes k s t,
  nth_error sizes k = Some s -> nth_error (trends N sizes) k = Some t ->
  (t = 0%Z <-> s = N) /\ (t = 0 \/ t = 1 \/ t = -1)%Z.
Proof. exact trends_zero_iff. Qed.
Print Assumptions C13_trend_zero_iff_full.

Example C13_ex : trends 4 [1; 2; 2; 4; 4; 3; 3; 1; 2]%nat = [1; 1; 1; 0; 0; -1; -1; -1; 1]%Z.
Proof. reflexivity. Qed.
Example C13_ex_hyp : nth_error [1; 2; 2; 4]%nat 3 = Some 4%nat /\ nth_error (trends 4 [1; 2; 2; 4]%nat) 3 = Some 0%Z.
Proof. split; reflexivity. Qed.

(** C14: for every history of bursts, every burst of it that sees between 1
    and N surfaces has a nadir beam in its list. *)
Theorem C14_nadir_in_list : forall (A : Type) N sizes k t (l : list A),
  nth_error sizes k = Some (length l) -> nth_error (trends N sizes) k = Some t ->
  0 < length l <= N ->
  exists a, nadir_beam N l t = Ok a /\ In a l.
Proof.
  intros A N sizes k t l Hs Ht Hl. apply nadir_beam_ok_any; auto.
  exact (trends_zero_iff N sizes k (length l) t Hs Ht).
Qed.
Print Assumptions C14_nadir_in_list.

(** C14: for an even number of pulses it is the beam at position N/2 of the
    full set, or the end of the list nearest to that position. *)
Theorem C14_nadir_position : forall (A : Type) N sizes k t (l : list A),
  nth_error sizes k = Some (length l) -> nth_error (trends N sizes) k = Some t ->
  0 < length l <= N -> Nat.even N = true ->
  exists p a, nadir_beam N l t = Ok a /\ nth_error l p = Some a /\
    let first := full_position N (length l) t 0 in
    let last := full_position N (length l) t (length l - 1) in
    full_position N (length l) t p =
      (if Nat.ltb (N/2) first then first else if Nat.ltb last (N/2) then last else N/2).
Proof.
  intros A N sizes k t l Hs Ht Hl E.
  pose proof (trends_zero_iff N sizes k (length l) t Hs Ht) as Hok.
  destruct (nadir_beam_ok N l t Hl Hok E) as (p & a & H1 & H2 & H3).
  exists p, a. repeat split; auto. cbv zeta. rewrite H3. unfold full_position.
  assert (N = 2 * (N/2)).
  { apply PeanoNat.Nat.even_spec in E. destruct E as [m ->].
    rewrite PeanoNat.Nat.mul_comm, PeanoNat.Nat.div_mul by lia. lia. }
  destruct (Z.eqb t 1).
  - destruct (PeanoNat.Nat.ltb_spec (N/2) (N - length l + 0));
    destruct (PeanoNat.Nat.ltb_spec (N - length l + (length l - 1)) (N/2)); lia.
  - destruct (PeanoNat.Nat.ltb_spec (N/2) 0);
    destruct (PeanoNat.Nat.ltb_spec (length l - 1) (N/2)); lia.
Qed.
Print Assumptions C14_nadir_position.

(** C14: a burst that sees no surface makes the approximate method fail. *)
Theorem C14_no_beam_fails : forall (A : Type) N t,
  exists e, @nadir_beam A N [] t = Err e.
Proof. exact @nadir_beam_empty. Qed.
Print Assumptions C14_no_beam_fails.

Example C14_ex : trends 4 [3; 4; 3; 1]%nat = [1; 0; -1; -1]%Z
  /\ nadir_beam 4 [11; 12; 13] 1 = Ok 12 /\ nadir_beam 4 [10; 11; 12; 13] 0 = Ok 12
  /\ nadir_beam 4 [10; 11; 12] (-1) = Ok 12 /\ nadir_beam 4 [10] (-1) = Ok 10.
Proof. repeat split. Qed.

(** C15: the two lists are the last N of the first contiguous run of visible
    surfaces, each surface with its own angle; the working surface is reported
    as seen exactly when it belongs to that run. *)
Theorem C15_beam_list : forall (S A : Type) N (vis : S -> bool) (angle : S -> A)
    (counter : S -> nat) (work : S -> bool) (surfs : list S),
  fst (beam_angles N vis angle counter work surfs)
    = map (fun s => (angle s, counter s)) (last_n N (first_run vis surfs))
  /\ length (fst (beam_angles N vis angle counter work surfs)) <= N
  /\ snd (beam_angles N vis angle counter work surfs) = existsb work (first_run vis surfs).
Proof.
  intros. rewrite beam_angles_spec. cbn [fst snd]. repeat split.
  - unfold last_n. rewrite map_length.
    generalize (length (first_run vis surfs) - N). intro n.
    generalize (first_run vis surfs). induction n; intros [|x l]; cbn; auto.
  - rewrite last_n_length. lia.
Qed.
Print Assumptions C15_beam_list.

Example C15_ex :
  beam_angles 2 (fun s => Nat.ltb 1 s && negb (Nat.eqb s 5)) (fun s => s * 10) (fun s => s) (Nat.eqb 2)
    [0; 1; 2; 3; 4; 5; 6] = ([(30, 3); (40, 4)], true).
Proof. reflexivity. Qed.

(** C17 *)
Theorem C17_look_index_range : forall N idx t size,
  idx < size <= N ->
  (- Z.of_nat (N / 2) <= abs_index N idx t size <= Z.of_nat N - Z.of_nat (N / 2) - 1)%Z.
Proof. exact abs_index_range. Qed.
Print Assumptions C17_look_index_range.

Theorem C17_look_index_position : forall N idx t size,
  size <= N ->
  abs_index N idx t size = (Z.of_nat (full_position N size t idx) - Z.of_nat (N / 2))%Z.
Proof. exact abs_index_full. Qed.
Print Assumptions C17_look_index_position.

Theorem C17_look_index_distinct : forall N i j t size,
  i <> j -> abs_index N i t size <> abs_index N j t size.
Proof. intros N i j t size H E. exact (H (abs_index_inj N i j t size E)). Qed.
Print Assumptions C17_look_index_distinct.

Example C17_ex : abs_index 64 0 1 64 = (-32)%Z /\ abs_index 64 9 1 10 = 31%Z /\ abs_index 64 0 (-1) 10 = (-32)%Z.
Proof. repeat split. Qed.

(** C18: approximate method. *)
Theorem C18_approx_row_defined : forall (R : Type) N size t (fft : list R) i,
  length fft = N -> i < size <= N ->
  exists r, nth_error (approx_rows N size t fft) i = Some (Row r) /\
            nth_error fft (full_position N size t i) = Some r.
Proof. exact @approx_row_defined. Qed.
Print Assumptions C18_approx_row_defined.

(** C18: exact method. *)
Theorem C18_exact_row_defined : forall (A R : Type) N (steer : A -> list R) angles i a,
  0 < N -> length angles <= N -> (forall x, length (steer x) = N) ->
  nth_error angles i = Some a ->
  exists rows r, exact_rows N steer angles = Ok rows /\
    nth_error rows i = Some (Row r) /\ nth_error (steer a) (N / 2) = Some r.
Proof. exact @exact_row_defined. Qed.
Print Assumptions C18_exact_row_defined.

Example C18_ex :
  approx_rows 4 2 1 [0; 1; 2; 3] = [Row 2; Row 3; Undef; Undef]
  /\ exact_rows 4 (fun a => [a; a + 1; a + 2; a + 3]) [10; 20] = Ok [Row 12; Row 22; Undef; Undef].
Proof. split; reflexivity. Qed.
