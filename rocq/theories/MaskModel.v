(** Stack masking.  Definitions only. *)
From Coq Require Import List ZArith QArith Qround Bool.
From Verif Require Import Common.
Import ListNotations.
Local Open Scope Z_scope.

(** numpy.round: nearest integer, halves to the even one. *)
Definition np_round (q : Q) : Z :=
  let f := Qfloor q in
  match Qcompare (q - inject_Z f) (1 # 2) with
  | Lt => f
  | Gt => f + 1
  | Eq => if Z.even f then f else f + 1
  end.

(** numpy [row[a:b] = 1] on a row of zeros of length [n]. *)
Definition ones_between (n : nat) (a b : Z) : list Z :=
  let lo := py_clip n a in
  let hi := py_clip n b in
  map (fun j => if Nat.leb lo j && Nat.ltb j hi then 1 else 0) (seq 0 n).

(** stack_masking.py lines 63-80: the row of one beam; [N] = chd.n_samples_sar,
    [zp] = zp_fact_range, [shift] the sum of the three corrections. *)
Definition geometry_row (N zp : nat) (shift : Q) : list Z :=
  let B := (N * zp)%nat in
  let sc := np_round shift in
  let '(a, b) :=
    if 0 <? sc then (sc * Z.of_nat zp, Z.of_nat N * Z.of_nat zp)
    else (0, (Z.of_nat N - Z.abs sc) * Z.of_nat zp) in
  if a <? b then ones_between B a b else repeat 0 B.

(** stack_masking.py lines 52-81: rows beyond the stack stay zero. *)
Definition geometry_mask (N zp nlooks size : nat) (shift : nat -> Q) : list (list Z) :=
  map (fun i => if Nat.ltb i (Nat.min size nlooks) then geometry_row N zp (shift i)
                else repeat 0 (N * zp)%nat) (seq 0 nlooks).

(** stack_masking.py lines 83-97. *)
Definition ambiguity_mask (N zp nlooks : nat) : list (list Z) :=
  repeat (repeat 1 (N * zp)%nat) nlooks.

Definition strictly_between (lo x hi : Q) : bool :=
  negb (Qle_bool x lo) && negb (Qle_bool hi x).

(** stack_masking.py lines 99-117. *)
Definition angle_mask (N zp nlooks size : nat) (lo hi : option Q) (look : nat -> Q) : list (list Z) :=
  match lo, hi with
  | Some l, Some h =>
      map (fun i => if Nat.ltb i (Nat.min size nlooks)
                    then repeat (if strictly_between l (look i) h then 1 else 0) (N * zp)%nat
                    else repeat 1 (N * zp)%nat) (seq 0 nlooks)
  | _, _ => repeat (repeat 1 (N * zp)%nat) nlooks
  end.

(** stack_masking.py lines 148-153: the search from the right, [i] counted from
    the end; 0 when there is no one (the initial value). *)
Fixpoint search_back (beam_size : nat) (backwards : list Z) (i : nat) : Z :=
  match backwards with
  | [] => 0
  | v :: r => if v =? 1 then Z.of_nat beam_size - Z.of_nat i
              else search_back beam_size r (S i)
  end.

(** stack_masking.py lines 133-153; [None] is the IndexError of an empty row. *)
Definition mask_vector (row : list Z) : option Z :=
  match py_get row (-1) with
  | None => None
  | Some last =>
      if last =? 1 then Some (Z.of_nat (length row) - 1)
      else Some (search_back (length row) (rev row) 0)
  end.

Fixpoint mul_rows (a b : list Z) : list Z :=
  match a, b with
  | x :: a', y :: b' => x * y :: mul_rows a' b'
  | _, _ => []
  end.

Fixpoint zip3 (f : list Z -> list Z -> list Z -> list Z) (a b c : list (list Z)) : list (list Z) :=
  match a, b, c with
  | x :: a', y :: b', z :: c' => f x y z :: zip3 f a' b' c'
  | _, _, _ => []
  end.

(** stack_masking.py lines 119-155, [combine_masks]: rows and vector. *)
Definition combine_masks (g m a : list (list Z)) : list (list Z * option Z) :=
  map (fun row => (row, mask_vector row))
      (zip3 (fun x y z => mul_rows (mul_rows x y) z) g m a).

(** stack_masking.py lines 36-50, [default_mask]. *)
Definition default_mask (N zp nlooks : nat) : list (list Z * option Z) :=
  repeat (repeat 1 (N * zp)%nat, Some (Z.of_nat (N * zp) - 1)) nlooks.

(** stack_masking.py lines 12-34: the masks chosen by the flag. *)
Definition stack_masks (flag : bool) (N zp nlooks size : nat) (lo hi : option Q)
    (shift look : nat -> Q) : list (list Z * option Z) :=
  if flag then
    combine_masks (geometry_mask N zp nlooks size shift) (ambiguity_mask N zp nlooks)
                  (angle_mask N zp nlooks size lo hi look)
  else default_mask N zp nlooks.

(** stack_masking.py lines 157-162 and 29-31: the masked beam. *)
Fixpoint mask_row (beam : list Q) (row : list Z) : list Q :=
  match beam, row with
  | x :: b', m :: r' => (x * inject_Z m)%Q :: mask_row b' r'
  | _, _ => []
  end.
Definition beams_masked (flag : bool) (beams : list (list Q)) (masks : list (list Z * option Z))
    : list (list Q) :=
  if flag then map (fun p => mask_row (fst p) (fst (snd p))) (combine beams masks) else beams.
