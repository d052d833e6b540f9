(** Texts of the times in the product attributes (util/time.py,
    proc/sar/processor.py).  Definitions only.

    datetime and timedelta are those of the Python library, in exact arithmetic:
    timedelta(seconds=x) is x rounded to a microsecond, ties to even (the
    library's product of the fraction of x with 10^6 is itself a double product;
    its rounding is left out). *)
From Coq Require Import String List ZArith QArith Qround Qabs Ascii Bool.
From Verif Require Import Common.
Import ListNotations.
Local Open Scope Z_scope.

(** * Calendar of the datetime library (Lib/datetime.py) *)

Definition is_leap (y : Z) : bool := (y mod 4 =? 0) && (negb (y mod 100 =? 0) || (y mod 400 =? 0)).
(** _days_before_month, month 1 to 12 *)
Definition before_month (leap : bool) (m : Z) : Z :=
  match m with
  | 1 => 0 | 2 => 31
  | _ => (if leap then 1 else 0) +
         match m with 3 => 59 | 4 => 90 | 5 => 120 | 6 => 151 | 7 => 181 | 8 => 212 | 9 => 243 | 10 => 273
                 | 11 => 304 | _ => 334 end
  end.
Definition days_in_month (leap : bool) (m : Z) : Z :=
  match m with
  | 2 => if leap then 29 else 28
  | 4 | 6 | 9 | 11 => 30
  | _ => 31
  end.
(** _ord2ymd *)
Definition ord2ymd (ord : Z) : Z * Z * Z :=
  let n := ord - 1 in
  let year400 := n / 146097 * 400 + 1 in
  let n := n mod 146097 in
  let n100 := n / 36524 in
  let n := n mod 36524 in
  let n4 := n / 1461 in
  let n := n mod 1461 in
  let n1 := n / 365 in
  let n := n mod 365 in
  let year := year400 + (n100 * 100 + n4 * 4 + n1) in
  if (n1 =? 4) || (n100 =? 4) then (year - 1, 12, 31)
  else
    let leap := (n1 =? 3) && (negb (n4 =? 24) || (n100 =? 3)) in
    let month := (n + 50) / 32 in
    let preceding := before_month leap month in
    if n <? preceding then
      let month := month - 1 in
      (year, month, n - (preceding - days_in_month leap month) + 1)
    else (year, month, n - preceding + 1).

(** * datetime and timedelta *)

Inductive iso_err := EOverflow (* OverflowError *) | ENan (* ValueError *).

(** A double. *)
Inductive num := Fin (q : Q) | NaN | Infinite.

(** Rounding to the nearest integer, ties to even. *)
Definition round_even (q : Q) : Z :=
  let f := Qfloor q in
  match Qcompare (q - inject_Z f) (1 # 2) with
  | Lt => f
  | Gt => f + 1
  | Eq => if Z.even f then f else f + 1
  end.

(** timedelta(seconds=x), in microseconds; at most 999999999 days. *)
Definition us_per_day : Z := 86400000000.
Definition timedelta (x : num) : res iso_err Z :=
  match x with
  | NaN => Err ENan
  | Infinite => Err EOverflow
  | Fin q => let us := round_even (q * inject_Z 1000000) in
             if (Z.abs (us / us_per_day) <=? 999999999) then Ok us else Err EOverflow
  end.

(** UTC_BASE + timedelta: the day number (1 = 1 January of year 1) and the
    microseconds of the day; years 1 to 9999. *)
Definition base_day : Z := 730120.
Definition max_day : Z := 3652059.
Definition add_to_base (us : Z) : res iso_err (Z * Z) :=
  let day := base_day + us / us_per_day in
  if (1 <=? day) && (day <=? max_day) then Ok (day, us mod us_per_day) else Err EOverflow.

(** datetime.isoformat: fixed-width decimals; the fraction only when it is not
    zero; the offset of UTCZone (time.py 9-10). *)
Definition digit (n : Z) : ascii := ascii_of_N (Z.to_N (48 + n mod 10)).
Fixpoint decimals (w : nat) (n : Z) : list ascii :=
  match w with
  | O => []
  | S w' => decimals w' (n / 10) ++ [digit n]
  end.
Definition chars (s : string) : list ascii := list_ascii_of_string s.
Definition isoformat (day us : Z) : list ascii :=
  let '(y, m, d) := ord2ymd day in
  let s := us / 1000000 in
  let frac := us mod 1000000 in
  decimals 4 y ++ chars "-"%string ++ decimals 2 m ++ chars "-"%string ++ decimals 2 d ++ chars "T"%string ++
  decimals 2 (s / 3600) ++ chars ":"%string ++ decimals 2 (s / 60 mod 60) ++ chars ":"%string ++ decimals 2 (s mod 60) ++
  (if frac =? 0 then [] else chars "."%string ++ decimals 6 frac) ++ chars "+00:00"%string.

(** time.py 21-26: [None] gives the time of the clock, an instant in
    microseconds within the range of datetime. *)
Definition iso_format (now : Z * Z) (utc_secs : option num) : res iso_err (list ascii) :=
  match utc_secs with
  | None => Ok (isoformat (fst now) (snd now))
  | Some x => bind (timedelta x) (fun us => bind (add_to_base us) (fun t => Ok (isoformat (fst t) (snd t))))
  end.

(** processor.py 280-282: creation_time, first_meas_time, last_meas_time; the
    first failure ends the run. *)
Definition product_times (now : Z * Z) (first last : num) : res iso_err (list ascii * list ascii * list ascii) :=
  bind (iso_format now None) (fun c => bind (iso_format now (Some first)) (fun f =>
    bind (iso_format now (Some last)) (fun l => Ok (c, f, l)))).
