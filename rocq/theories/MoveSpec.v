(** The same pass elsewhere, as files. *)
From Coq Require Import String List ZArith Reals Bool.
From Verif Require Import Common GeoModel RotSpec WholeModel WholeSpec FileModel FileSpec EndModel.
From Verif Require SurfModel.
Import ListNotations.
Local Open Scope string_scope.
Local Open Scope R_scope.

(** The variables that say where the satellite is and where it flies. *)
Definition turned : list string := ["lat"; "lon"; "x_pos"; "y_pos"; "z_pos"; "x_vel"; "y_vel"; "z_vel"].
Definition velocity_at (fi : file) (i : nat) : vec := V (number_at fi i "x_vel") (number_at fi i "y_vel") (number_at fi i "z_vel").
(** All records [deg] degrees further east and, with [flip], on the other side of
    the equator; all else the same.  (The Cartesian positions of the file are
    not used.) *)
Definition moved_file (deg : R) (flip : bool) (fi fi' : file) : Prop :=
  f_size fi' = f_size fi /\
  forall i, (i < f_size fi)%nat ->
    (forall x, ~ In x turned -> at_ fi' i x = at_ fi i x) /\
    number_at fi' i "lat" = flipped flip (number_at fi i "lat") /\
    (exists z : Z, number_at fi' i "lon" = number_at fi i "lon" + deg + IZR z * 360) /\
    velocity_at fi' i = move (degrees deg) flip (velocity_at fi i).
(** The same job; a surface to focus on lies elsewhere, too. *)
Definition moved_job (phi : R) (flip : bool) (j : job) : job :=
  mk_job (j_o j) (j_g j) (moved_setup phi flip (j_u j)) (j_v j) (j_ext j) (j_rest j) (j_nan j).
