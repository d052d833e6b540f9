(** What the derived values are made of. *)
From Coq Require Import String List ZArith QArith Bool.
From Verif Require Import Common Dict ConfModel ConfData ConfSpec DerModel.
Import ListNotations.
Local Open Scope string_scope.
Local Open Scope Q_scope.

Section Spec.
Variable text : string -> option Q.
(** The number a value stands for. *)
Definition meaning (j : json) : option Q :=
  match j with JNum q => Some q | JBool b => Some (if b then 1 else 0) | JStr s => text s | _ => None end.
(** The parameter stands for a number. *)
Definition has (d : dict json) (name : string) (q : Q) : Prop := exists j, dget name d = Some j /\ meaning j = Some q.
(** The parameters in the order in which they are read, and those divided by. *)
Definition order (n : derived) : list string :=
  match n with
  | Pri => ["prf_sar_chd"]
  | Bri => ["brf_sar_chd"]
  | Chirp => ["bw_ku_chd"; "pulse_length_chd"]
  | Wave => ["c_cst"; "freq_ku_chd"]
  | T0 => ["uso_freq_nom_chd"; "alt_freq_multiplier_chd"]
  end.
Definition denominators (n : derived) : list string :=
  match n with
  | Pri => ["prf_sar_chd"]
  | Bri => ["brf_sar_chd"]
  | Chirp => ["pulse_length_chd"]
  | Wave => ["freq_ku_chd"]
  | T0 => ["uso_freq_nom_chd"; "alt_freq_multiplier_chd"]
  end.
(** The entry of a parameter: [c_cst] is in the constants file. *)
Definition look (cst d : dict json) (x : string) : option json := if (x =? "c_cst")%string then dget x cst else dget x d.
Definition stands (cst d : dict json) (x : string) (q : Q) : Prop := exists j, look cst d x = Some j /\ meaning j = Some q.
(** The product that has to come out. *)
Definition fulfils (cst d : dict json) (n : derived) (v : Q) : Prop :=
  match n with
  | Pri => forall f, has d "prf_sar_chd" f -> v * f == 1
  | Bri => forall f, has d "brf_sar_chd" f -> v * f == 1
  | Chirp => forall b l, has d "bw_ku_chd" b -> has d "pulse_length_chd" l -> v * l == b
  | Wave => forall c f, has cst "c_cst" c -> has d "freq_ku_chd" f -> v * f == c
  | T0 => forall u m, has d "uso_freq_nom_chd" u -> has d "alt_freq_multiplier_chd" m -> v * (u * m) == 1
  end.
(** All parameters are numbers, and none to divide by is zero. *)
Definition sound (cst d : dict json) (n : derived) : Prop :=
  forall x, In x (order n) -> exists q, stands cst d x q /\ (In x (denominators n) -> ~ q == 0).
End Spec.
