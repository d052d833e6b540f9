(** Vocabulary for C90-C92. *)
From Coq Require Import String List ZArith Reals.
From Verif Require Import WriterModel SchModel SchSpec PktModel.
Import ListNotations.
Open Scope string_scope.
Open Scope R_scope.

Definition l1a_suffix : string := "_l1a_echo_sar_ku".

(** Two records that agree on every variable but those listed. *)
Definition same_but (xs : list string) (l l' : l1a) : Prop :=
  (forall v, ~ In v xs -> l_var l v = l_var l' v) /\
  (forall k, l_i l k = l_i l' k) /\ (forall k, l_q l k = l_q l' k).

(** Range to the centre of gravity: the offset is projected with the pitch
    angle, an angle in degrees. *)
Definition range_spec (range cog pitch_deg : R) : R :=
  range + cos (pitch_deg * PI / 180) * cog.

(** Power of a complex number, and a ratio in decibels. *)
Definition power (re im : R) : R := re * re + im * im.
Definition of_db (d : R) : R := Rpower 10 (d / 10).

(** The variables that state the attitude of the satellite. *)
Definition pointing : list string :=
  ["roll_sat_pointing_l1a_echo_sar_ku"; "pitch_sat_pointing_l1a_echo_sar_ku";
   "yaw_sat_pointing_l1a_echo_sar_ku"].

(** The three variables of the window delay. *)
Definition pitch_of (l : l1a) : R := l_var l "pitch_sat_pointing_l1a_echo_sar_ku".
Definition cog_of (l : l1a) : R := l_var l "cog_cor_l1a_echo_sar_ku".
Definition range_of (l : l1a) : R := l_var l "range_ku_l1a_echo_sar_ku".
