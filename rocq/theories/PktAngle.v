(** Property C90: the angles of a burst are those of the file, in radians. *)
From Coq Require Import String List ZArith Reals Bool Lra Lia.
From Verif Require Import Common WriterModel SchModel SchSpec PktModel PktSpec.
Import ListNotations.
Open Scope string_scope.
Open Scope R_scope.

(** The attributes that hold an angle, and the variable each is read from. *)
Definition angle_sources : list (string * string) := [
  ("lat_sar_sat", "lat_l1a_echo_sar_ku"); ("lon_sar_sat", "lon_l1a_echo_sar_ku");
  ("roll_sar", "roll_sral_mispointing_l1a_echo_sar_ku");
  ("pitch_sar", "pitch_sral_mispointing_l1a_echo_sar_ku");
  ("yaw_sar", "yaw_sral_mispointing_l1a_echo_sar_ku")].

(** A full turn in the file (360 degrees) is a full turn of the angle (2 pi),
    in proportion. *)
Theorem C90_angles : forall f v, In (f, v) angle_sources ->
  forall x l, exists a, attribute x l f = Some a /\ a * 360 = l_var l v * (2 * PI).
Proof.
  intros f v H x l. cbn [angle_sources In] in H.
  repeat (destruct H as [H|H];
    [injection H; intros <- <-; eexists; split; [reflexivity|]; cbn [aeval snd]; unfold radians; field|]).
  contradiction.
Qed.
Print Assumptions C90_angles.

(** A quarter turn. *)
Example C90_angles_example : forall x,
  attribute x {| l_var := fun _ => 90; l_i := fun _ => 0; l_q := fun _ => 0 |} "lat_sar_sat" = Some (PI / 2).
Proof. intro x. cbv [attribute]. cbn. f_equal. unfold radians. cbn [l_var]. field. Qed.
