(** The region test of the class all data sets derive from
    (dedop/data/input/input_dataset.py 29-55).  Definitions only. *)
From Coq Require Import List QArith Reals Qreals Bool.
From Verif Require Import Common GeoModel ReaderModel.
Import ListNotations.

(** [lat < radians(bound)], [lat > radians(bound)]: [None] is no bound.  Positions
    in a packet are in radians (l1a_dataset.py 188-190), exact. *)
Definition below (x : R) (b : option Q) : bool :=
  match b with Some q => if Rlt_dec x (radians (Q2R q)) then true else false | None => false end.
Definition above (x : R) (b : option Q) : bool :=
  match b with Some q => if Rlt_dec (radians (Q2R q)) x then true else false | None => false end.
(** 29-45; [is_valid] as in ReaderModel. *)
Definition in_range (g : region) (p : pos) : bool :=
  let lat := radians (Q2R (fst p)) in
  let lon := radians (Q2R (snd p)) in
  if below lat (min_lat g) then false
  else if above lat (max_lat g) then false
  else if below lon (min_lon g) then false
  else if above lon (max_lon g) then false
  else is_valid p.
(** 47-52, over the packets of all records: the record itself, or [None]. *)
Definition base_iterate (g : region) (file : list pos) : list (option nat) :=
  map (fun i => if in_range g (nth i file (0%Q, 0%Q)) then Some i else None) (seq 0 (length file)).
