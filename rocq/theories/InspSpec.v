(** Vocabulary for C97-C101. *)
From Coq Require Import String List ZArith Reals.
From Verif Require Import Common WriterModel SchModel InspModel.
Import ListNotations.
Open Scope string_scope.
Open Scope R_scope.

(** A product file with [n] records: the variables it declares, [n] values for
    each variable and [n] waveforms of [m] samples. *)
Definition product_file (p : product) (n m : nat) (d : dataset) : Prop :=
  d_names d = map v_name (p_vars p) /\
  (forall x, List.length (d_vec d x) = n) /\
  (forall x, List.length (d_mat d x) = n) /\
  (forall x r, In r (d_mat d x) -> List.length r = m).

(** The records written, one environment each: every scalar variable of the
    file holds the value given by [write_record], and so does the waveform
    variable.  Packing (C87) is left out. *)
Definition holds_records (p : product) (es : list env) (d : dataset) : Prop :=
  forall name s, In (name, s) (p_writes p) -> 
  (forall xs, map (fun e => eval e s) es = map (fun x => Some (VNum x)) xs -> d_vec d name = xs) /\
  (forall m fs, map (fun e => eval e s) es = map (fun f => Some (VVec m f)) fs ->
     d_mat d name = map (fun f => map f (seq 0 m)) fs).

(** The least and the greatest of some numbers. *)
Definition bounds (l : list R) (r : R * R) : Prop :=
  In (fst r) l /\ In (snd r) l /\ forall x, In x l -> fst r <= x <= snd r.

(** A rectangle of numbers. *)
Definition rectangle (n m : nat) (w : list (list R)) : Prop :=
  List.length w = n /\ forall r, In r w -> List.length r = m.
Definition at_ (w : list (list R)) (i j : nat) : option R :=
  match nth_error w i with Some r => nth_error r j | None => None end.

(** The kind of product a table of SchSpec is for. *)
Definition kind_tag (b : bool) : kind := if b then L1BS else L1B.

(** The factor between the waveform shown and the waveform of the surface. *)
Definition shown_factor (p : product) (sigma scale : R) (f : R) : Prop :=
  (p = ext_product /\ f = sigma / scale) \/ (p = std_product /\ f = sigma) \/
  (p = l1bs_product /\ f = sigma * scale).

(** The surface of a record has a waveform of [m] samples, a sigma0 scaling
    factor (dB) and the writer's scale factor. *)
Definition surf_env (e : env) (m : nat) (w : nat -> R) (sigma scale : R) : Prop :=
  e_surf e "waveform_multilooked" = VVec m w /\
  e_surf e "sigma0_scaling_factor" = VNum sigma /\
  e_local e "scale_factor" = VNum scale.

(** A limit asked for by a user; without one, the extent of the data. *)
Definition wanted (v : option R) (d : R) : R := match v with Some x => x | None => d end.
