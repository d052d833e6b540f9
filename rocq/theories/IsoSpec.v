(** Gregorian calendar by counting days, and the meaning of an ISO 8601 text. *)
From Coq Require Import String List ZArith QArith Qround Qabs Ascii Bool.
Import ListNotations.
Local Open Scope Z_scope.

(** * Calendar *)

Definition leap_year (y : Z) : Prop := (y mod 4 = 0 /\ y mod 100 <> 0) \/ y mod 400 = 0.

(** [m] has [k] days in year [y]. *)
Inductive month_days (y : Z) : Z -> Z -> Prop :=
| md_feb_leap : leap_year y -> month_days y 2 29
| md_feb : ~ leap_year y -> month_days y 2 28
| md_30 : forall m, In m [4; 6; 9; 11] -> month_days y m 30
| md_31 : forall m, In m [1; 3; 5; 7; 8; 10; 12] -> month_days y m 31.

(** The date after a date. *)
Inductive next_date : Z * Z * Z -> Z * Z * Z -> Prop :=
| nd_day : forall y m d k, month_days y m k -> 1 <= d < k -> next_date (y, m, d) (y, m, d + 1)
| nd_month : forall y m k, month_days y m k -> m < 12 -> next_date (y, m, k) (y, m + 1, 1)
| nd_year : forall y, next_date (y, 12, 31) (y + 1, 1, 1).

(** The date [n] days after 1 January 2000 (before it for negative [n]). *)
Inductive date_at : Z -> Z * Z * Z -> Prop :=
| da_base : date_at 0 (2000, 1, 1)
| da_after : forall n a b, date_at n a -> next_date a b -> date_at (n + 1) b
| da_before : forall n a b, date_at n b -> next_date a b -> date_at (n - 1) a.

(** * Texts *)

(** Value of a decimal numeral. *)
Definition digit_value (a : ascii) : option Z :=
  let n := Z.of_nat (nat_of_ascii a) in
  if (48 <=? n) && (n <=? 57) then Some (n - 48) else None.
Fixpoint value_from (acc : Z) (l : list ascii) : option Z :=
  match l with
  | [] => Some acc
  | a :: r => match digit_value a with Some v => value_from (10 * acc + v) r | None => None end
  end.
(** [l] is a numeral of [w] digits for [v]. *)
Definition numeral (w : nat) (l : list ascii) (v : Z) : Prop := length l = w /\ value_from 0 l = Some v.

(** [text] states an instant, in microseconds after 2000-01-01T00:00:00 UTC (days
    of 86400 seconds). *)
Inductive states (text : list ascii) (us : Z) : Prop :=
| states_intro : forall ty tm td th ti ts tf y m d h i s f n,
    text = ty ++ "-"%char :: tm ++ "-"%char :: td ++ "T"%char :: th ++ ":"%char :: ti ++ ":"%char :: ts ++
           tf ++ list_ascii_of_string "+00:00"%string ->
    numeral 4 ty y -> numeral 2 tm m -> numeral 2 td d -> numeral 2 th h -> numeral 2 ti i -> numeral 2 ts s ->
    (tf = [] /\ f = 0 \/ exists t6, tf = "."%char :: t6 /\ numeral 6 t6 f) ->
    0 <= h < 24 -> 0 <= i < 60 -> 0 <= s < 60 ->
    date_at n (y, m, d) ->
    us = (((n * 24 + h) * 60 + i) * 60 + s) * 1000000 + f ->
    states text us.

(** Order of texts, character by character. *)
Fixpoint text_lt (a b : list ascii) : Prop :=
  match a, b with
  | _, [] => False
  | [], _ :: _ => True
  | x :: a', y :: b' => (nat_of_ascii x < nat_of_ascii y)%nat \/ (x = y /\ text_lt a' b')
  end.

(** [z] is the integer nearest to [q], the even one of two. *)
Definition nearest (q : Q) (z : Z) : Prop :=
  (forall z', Qabs (q - inject_Z z) <= Qabs (q - inject_Z z'))%Q /\
  (forall z', (Qabs (q - inject_Z z') == Qabs (q - inject_Z z))%Q -> z' <> z -> Z.even z = true).

(** First and last instant of the years 1 to 9999, in microseconds. *)
Definition first_instant : Z := - (730119 * 86400000000).
Definition last_instant : Z := 2921940 * 86400000000 - 1.
