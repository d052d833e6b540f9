(** NetCDF reader cache and L1A data set iteration.  Definitions only. *)
From Coq Require Import List ZArith QArith Bool.
From Verif Require Import Common.
Import ListNotations.

(* ------------------------------------------------------------------ *)
(** ** dedop/data/input/netcdf_reader.py *)

Inductive read_err := EKey | EIndex | EEmptyRegion | EStop.

Section Reader.
  (** [V]: names of the variables (members of L1AVariables); [data v] is the
      contents of variable [v] along its first dimension. A NetCDF file is this
      table; reading it never fails. *)
  Variable V A : Type.
  Variable data : V -> list A.

  (** netcdf_reader.py lines 26-29: the cache (a dictionary, None = no entry)
      and the start of the chunk it holds. *)
  Record reader := { cache : V -> option (list A); chunk : option Z }.
  Definition fresh : reader := {| cache := fun _ => None; chunk := None |}.

  (** netcdf_reader.py lines 57-75, [_load_chunk], [size] = chunk_size. The loop
      runs over all variables; each one is replaced or kept. *)
  Definition load_chunk (size : Z) (start : Z) (r : reader) : reader :=
    let stop := (start + size)%Z in
    {| cache := fun v =>
         let varlen := Z.of_nat (length (data v)) in
         if (varlen <=? start)%Z then cache r v
         else Some (py_slice (data v) start (Z.min varlen stop));
       chunk := Some start |}.

  (** netcdf_reader.py lines 45-55, [get_value]; Python's modulo of a positive
      chunk size is never negative, like [Z.modulo]. *)
  Definition get_value (size : Z) (v : V) (index : Z) (r : reader) : res read_err A * reader :=
    let chunk_index := (index mod size)%Z in
    let chunk_start := (index - chunk_index)%Z in
    let r' := match chunk r with
              | Some c => if (c =? chunk_start)%Z then r else load_chunk size chunk_start r
              | None => load_chunk size chunk_start r
              end in
    (match cache r' v with
     | None => Err EKey
     | Some l => match py_get l chunk_index with Some a => Ok a | None => Err EIndex end
     end, r').

  (** A sequence of reads on one reader; the results in order. *)
  Fixpoint reads (size : Z) (ops : list (V * Z)) (r : reader) : list (res read_err A) * reader :=
    match ops with
    | [] => ([], r)
    | (v, i) :: rest =>
        let (x, r1) := get_value size v i r in
        let (xs, r2) := reads size rest r1 in
        (x :: xs, r2)
    end.
End Reader.
Arguments cache {V A} _ _.
Arguments chunk {V A} _.
Arguments fresh {V A}.
Arguments load_chunk {V A} data size start r.
Arguments get_value {V A} data size v index r.
Arguments reads {V A} data size ops r.

(* ------------------------------------------------------------------ *)
(** ** dedop/data/input/l1a/l1a_dataset.py and input_dataset.py *)

(** cnf.min_lat, max_lat, min_lon, max_lon in degrees; None = not set. *)
Record region := { min_lat : option Q; max_lat : option Q; min_lon : option Q; max_lon : option Q }.

(** Position of a record in degrees (lat, lon).  Other fields of a record
    are irrelevant for the iteration. *)
Definition pos : Type := (Q * Q)%type.

Definition is_some {A} (o : option A) : bool := match o with Some _ => true | None => false end.

(** l1a_dataset.py lines 127-131, [_roi_enabled]. *)
Definition roi_enabled (g : region) : bool :=
  is_some (min_lat g) || is_some (min_lon g) || is_some (max_lat g) || is_some (max_lon g).

(** l1a_dataset.py lines 99-115: one element of roi_filter. *)
Definition roi_pass (g : region) (p : pos) : bool :=
  let f0 := true in
  let f1 := match min_lat g with Some m => f0 && Qle_bool m (fst p) | None => f0 end in
  let f2 := match min_lon g with Some m => f1 && Qle_bool m (snd p) | None => f1 end in
  let f3 := match max_lat g with Some m => f2 && Qle_bool (fst p) m | None => f2 end in
  match max_lon g with Some m => f3 && Qle_bool (snd p) m | None => f3 end.

(** np.argwhere: positions of the true entries. *)
Fixpoint argwhere_from (i : nat) (l : list bool) : list nat :=
  match l with
  | [] => []
  | b :: r => if b then i :: argwhere_from (S i) r else argwhere_from (S i) r
  end.

Fixpoint list_min (d : nat) (l : list nat) : nat :=
  match l with [] => d | x :: r => list_min (Nat.min d x) r end.
Fixpoint list_max (d : nat) (l : list nat) : nat :=
  match l with [] => d | x :: r => list_max (Nat.max d x) r end.

(** The data set after construction (lines 86-125). *)
Record dataset := {
  d_pos : list pos;                 (* file contents, one position per record *)
  d_filter : option (list bool);    (* _roi_filter *)
  d_start : nat; d_final : nat;     (* _start_index, _final_index *)
  d_last : nat                      (* _last_index *)
}.

(** l1a_dataset.py lines 86-125, [L1ADataset.__init__]: the minimum of an empty
    index array is a ValueError.  The size of the time dimension is the number
    of records. *)
Definition open_dataset (g : region) (file : list pos) : res read_err dataset :=
  if roi_enabled g then
    let f := map (roi_pass g) file in
    match argwhere_from 0 f with
    | [] => Err EEmptyRegion
    | i :: rest =>
        let s := list_min i rest in
        Ok {| d_pos := file; d_filter := Some f; d_start := s;
              d_final := list_max i rest; d_last := s |}
    end
  else Ok {| d_pos := file; d_filter := None; d_start := 0; d_final := length file; d_last := 0 |}.

(** l1a_dataset.py lines 133-136, [_check_roi]. *)
Definition check_roi (d : dataset) (i : nat) : bool :=
  match d_filter d with
  | None => true
  | Some f => nth i f false
  end.

(** input_dataset.py lines 18-27, [is_valid]: isclose(x, 0.) with the default
    relative tolerance holds only for x = 0; radians(x) = 0 only for x = 0. *)
Definition is_valid (p : pos) : bool :=
  negb (Qeq_bool (fst p) 0 && Qeq_bool (snd p) 0).

(** A delivered element: [None] or the record with that index (the packet
    constructed by [__getitem__], lines 162-239, is a function of the record). *)
Definition item_at (d : dataset) (i : nat) : option nat :=
  if check_roi d i && is_valid (nth i (d_pos d) (0%Q, 0%Q)) then Some i else None.

(** l1a_dataset.py lines 241-246, [__iter__]. *)
Definition iterate (d : dataset) : list (option nat) :=
  map (item_at d) (seq (d_start d) (d_final d - d_start d)).

(** l1a_dataset.py lines 248-263, [__next__]; [EStop] is StopIteration. *)
Definition next_item (d : dataset) : res read_err (option nat) * dataset :=
  if Nat.leb (d_final d) (d_last d) then (Err EStop, d)
  else
    let d' := {| d_pos := d_pos d; d_filter := d_filter d; d_start := d_start d;
                 d_final := d_final d; d_last := S (d_last d) |} in
    if negb (check_roi d (d_last d)) then (Ok None, d')
    else if negb (is_valid (nth (d_last d) (d_pos d) (0%Q, 0%Q))) then (Ok None, d')
    else (Ok (Some (d_last d)), d').

(** Calling next() [n] times; stops at the first exception. *)
Fixpoint next_n (n : nat) (d : dataset) : list (option nat) * bool * dataset :=
  match n with
  | O => ([], false, d)
  | S m =>
      match next_item d with
      | (Err _, d') => ([], true, d')
      | (Ok x, d') => let '(xs, stop, d'') := next_n m d' in (x :: xs, stop, d'')
      end
  end.

(** l1a_dataset.py lines 159-160, [__len__]. *)
Definition ds_len (d : dataset) : nat := d_final d - d_start d.

(** l1a_dataset.py lines 153-157: index read by first_time and last_time. *)
Definition first_time_index (d : dataset) : Z := Z.of_nat (d_start d).
Definition last_time_index (d : dataset) : Z := (Z.of_nat (d_final d) - 1)%Z.
