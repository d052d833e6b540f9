(** Writing of L1B / L1BS records (data/output/netcdf_writer.py,
    l1b_writer.py, l1bs_writer.py).  Definitions only. *)
From Coq Require Import String List ZArith QArith Qabs Bool Arith.
From Verif Require Import Common.
Import ListNotations.
Open Scope nat_scope.

(** * Record table (netcdf_writer.py 345-375) *)

(** Shape of a product variable, the first dimension being the unlimited
    record dimension: [vd_ndims = len(var.shape)] and the sizes of the second
    and third dimension. (netcdf_writer.py 288-333, definitions in
    l1b_writer.py / l1bs_writer.py [define_variable] calls.) *)
Record vdesc := { vd_ndims : nat; vd_d1 : nat; vd_d2 : nat }.

(** Values handed to [write_record]: Python numbers, one-dimensional and
    two-dimensional numpy arrays.  Elements are abstract. *)
Inductive value (A : Type) : Type :=
| VNum (a : A)
| VVec (n : nat) (f : nat -> A)
| VMat (r c : nat) (f : nat -> nat -> A).
Arguments VNum {A} a.
Arguments VVec {A} n f.
Arguments VMat {A} r c f.

Inductive werr := EAttribute | EWrite.

Section Table.
Variable A : Type.
(** The variables of the product, created by [open]
    (netcdf_writer.py 215-223). *)
Variable vars : string -> option vdesc.
(** Library failures other than shape mismatch (element conversion). *)
Variable castable : string -> value A -> bool.

(** [var[idx, :dim_1, :dim_2] = value] (netcdf_writer.py 356-364): does the
    assignment succeed?  Simplification: numpy broadcasting of length-one
    arrays is not modelled (treated as failing); a failing assignment stores
    nothing. *)
Definition accepts (d : vdesc) (v : value A) : bool :=
  match vd_ndims d, v with
  | 3, VMat r c _ => (r <=? vd_d1 d) && (c <=? vd_d2 d)
  | 2, VVec n _ => n <=? vd_d1 d
  | 1, VNum _ => true
  | _, _ => false
  end.

(** The element a value supplies at position [(a,b)] of a row. *)
Definition elem (v : value A) (a b : nat) : option A :=
  match v with
  | VNum x => if (a =? 0) && (b =? 0) then Some x else None
  | VVec n f => if (a <? n) && (b =? 0) then Some (f a) else None
  | VMat r c f => if (a <? r) && (b <? c) then Some (f a b) else None
  end.

(** The file: per variable, record row and position a stored element, [None]
    being the fill value; [w_index] is [output_index]; [w_len] the size of the
    unlimited record dimension, which grows with the largest row written. *)
Record wstate := {
  w_tbl : string -> nat -> nat -> nat -> option A;
  w_index : nat;
  w_len : nat
}.

(** [open] (netcdf_writer.py 215-223). *)
Definition w_init : wstate :=
  {| w_tbl := fun _ _ _ _ => None; w_index := 0; w_len := 0 |}.

Definition w_put (st : wstate) (x : string) (v : value A) : wstate :=
  {| w_tbl := fun x' i a b =>
       if (x' =? x)%string && (i =? w_index st) then
         match elem v a b with Some e => Some e | None => w_tbl st x' i a b end
       else w_tbl st x' i a b;
     w_index := w_index st;
     w_len := Nat.max (w_len st) (S (w_index st)) |}.

Definition wrecord := list (string * option (value A)).

(** The loop of [write_record] (netcdf_writer.py 351-373).  A name that is
    not a variable makes [getattr] raise outside the [try] (line 352); a
    failing assignment becomes a [WriteError]. *)
Fixpoint write_vars (st : wstate) (r : wrecord) : option werr * wstate :=
  match r with
  | [] => (None, st)
  | (x, ov) :: rest =>
      match vars x with
      | None => (Some EAttribute, st)
      | Some d =>
          match ov with
          | None => write_vars st rest
          | Some v =>
              if accepts d v && castable x v then write_vars (w_put st x v) rest
              else (Some EWrite, st)
          end
      end
  end.

(** [write_record] (netcdf_writer.py 345-375): the index only moves when all
    variables were written (line 375). *)
Definition write_record (st : wstate) (r : wrecord) : option werr * wstate :=
  match write_vars st r with
  | (None, st') => (None, {| w_tbl := w_tbl st'; w_index := S (w_index st'); w_len := w_len st' |})
  | (Some e, st') => (Some e, st')
  end.

(** A history of calls on one product. *)
Fixpoint write_all (st : wstate) (rs : list wrecord) : list (option werr) * wstate :=
  match rs with
  | [] => ([], st)
  | r :: rest =>
      let '(o, st1) := write_record st r in
      let '(os, st2) := write_all st1 rest in
      (o :: os, st2)
  end.
End Table.

Arguments w_tbl {A} w.
Arguments w_index {A} w.
Arguments w_len {A} w.

(** * UTC day and second (l1b_writer.py 847-854, 1569-1576, l1bs_writer.py
      634-641).  Exact rationals. *)
Open Scope Q_scope.
Definition utc_of (time_surf prev_tai prev_secs day_length : Q) (prev_days : Z) : Z * Q :=
  let time_interval := time_surf - prev_tai in
  let utc_secs := prev_secs + time_interval in
  if Qle_bool utc_secs day_length
  then (prev_days, utc_secs)
  else ((prev_days + 1)%Z, utc_secs - day_length).

(** Bookkeeping of the previous burst by the surface locator
    (surface_locations.py 38-41 initial values, 322-326 after an interpolated
    surface; [store_first_location] 84-124 leaves it unchanged). *)
Record bookkeeping := { k_tai : Q; k_days : Z; k_secs : Q; k_len : Q }.
Definition k_init : bookkeeping := {| k_tai := 0; k_days := 0; k_secs := 0; k_len := 0 |}.
(** Time tags of a burst; [leap_secs_since_2000] is derived from them
    (model/l1a_processing_data.py 791-793). *)
Record tags := { b_tai : Q; b_days : Z; b_secs : Q }.
Definition leap_secs (sec_in_day : Q) (b : tags) : Q :=
  b_tai b - (inject_Z (b_days b) * sec_in_day + b_secs b).
Definition k_interpolated (sec_in_day : Q) (prev curr : tags) : bookkeeping :=
  {| k_tai := b_tai prev; k_days := b_days prev; k_secs := b_secs prev;
     k_len := sec_in_day + (leap_secs sec_in_day curr - leap_secs sec_in_day prev) |}.
Definition k_first (k : bookkeeping) : bookkeeping := k.

Definition utc_record (k : bookkeeping) (time_surf : Q) : Z * Q :=
  utc_of time_surf (k_tai k) (k_secs k) (k_len k) (k_days k).

(** * I/Q scaling (l1bs_writer.py 645-649, 696-698).  The stack is given by
      its samples as (real, imaginary) pairs; [max_iq] over an empty stack is
      an error in numpy and not covered.  [None]: division by zero. *)
Definition Qmaxb (a b : Q) : Q := if Qle_bool a b then b else a.
Definition max_iq (stack : list (Q * Q)) : Q :=
  fold_left (fun m s => Qmaxb m (Qmaxb (Qabs (fst s)) (Qabs (snd s)))) stack 0.
Definition dynamic_scale (stack : list (Q * Q)) : Q := max_iq stack / 127.

Definition scaled (stack : list (Q * Q)) : option (list (Q * Q)) :=
  let d := dynamic_scale stack in
  if Qeq_bool d 0 then None
  else Some (map (fun s => (fst s / d, snd s / d)) stack).

(** The variables are declared [np.int8] without scale factor
    (l1bs_writer.py 547-575): netCDF4 converts with [astype], i.e. truncates
    toward zero. *)
Definition qtrunc (q : Q) : Z := Z.quot (Qnum q) (Zpos (Qden q)).
Definition stored_iq (stack : list (Q * Q)) : option (list (Z * Z)) :=
  option_map (map (fun s => (qtrunc (fst s), qtrunc (snd s)))) (scaled stack).

(** * Extended L1B waveform (l1b_writer.py 856-857, 926-927; declaration
      717-728: unsigned 32 bit, scale_factor 1/4294967294, offset 0).  netCDF4
      divides by the declared scale factor and rounds to an integer; [rnd] is
      that rounding. *)
Definition wave_max (w0 : Q) (w : list Q) : Q := fold_left Qmaxb w w0.
Definition wave_norm (w0 : Q) (w : list Q) : option (Q * list Q) :=
  let s := wave_max w0 w in
  if Qeq_bool s 0 then None else Some (s, map (fun x => x / s) (w0 :: w)).
Definition u32_quantum : Q := 1 / inject_Z 4294967294.
Definition u32_fill : Z := 4294967295.
Definition wave_stored (rnd : Q -> Z) (w0 : Q) (w : list Q) : option (Q * list Z) :=
  option_map (fun p => (fst p, map (fun x => rnd (x / u32_quantum)) (snd p))) (wave_norm w0 w).

(** * Global attributes (netcdf_writer.py 377-387): a missing value becomes
      the text 'Not available'; later settings of a name replace earlier. *)
Definition write_global (attrs : string -> option string) (name : string) (v : option string)
  : string -> option string :=
  fun x => if (x =? name)%string
           then Some (match v with Some s => s | None => "Not available"%string end)
           else attrs x.
Definition write_globals (attrs : string -> option string) (l : list (string * option string)) :=
  fold_left (fun m p => write_global m (fst p) (snd p)) l attrs.

Close Scope Q_scope.
