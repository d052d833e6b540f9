(** The same pass at other times. *)
From Coq Require Import List ZArith QArith Qreals Reals Bool.
From Verif Require Import Common Cplx GeoModel ChainModel WholeModel.
From Verif Require SurfModel RotSpec.
Import ListNotations.
Local Open Scope nat_scope.

(** Between which valid records there is no gap: for each valid record up to the
    first that cannot be read, whether it follows the valid one before in less
    than [gap]. *)
Fixpoint joined (gap : Q) (before : option Q) (l : list item) : list bool :=
  match l with
  | [] => []
  | Valid t :: r => match before with None => true | Some t0 => lt_q (t - t0)%Q gap end :: joined gap (Some t) r
  | Nothing :: r => joined gap before r
  | ReadFail :: _ => []
  end.

Section Clock.
(** The relation between the times. *)
Variable T : R -> R -> Prop.

(** The same record at another time (its days, seconds and leap seconds may also
    differ). *)
Definition same_place (b b' : SurfModel.burst) : Prop :=
  SurfModel.b_lla b' = SurfModel.b_lla b /\ SurfModel.b_wd b' = SurfModel.b_wd b /\ SurfModel.b_vel b' = SurfModel.b_vel b /\
  SurfModel.b_rate b' = SurfModel.b_rate b /\ SurfModel.b_roll b' = SurfModel.b_roll b /\
  SurfModel.b_pitch b' = SurfModel.b_pitch b /\ SurfModel.b_yaw b' = SurfModel.b_yaw b.
Definition retimed_item (i i' : witem) : Prop :=
  match i, i' with
  | WValid r, WValid r' =>
      T (Q2R (w_time r)) (Q2R (w_time r')) /\ same_place (w_geo r) (w_geo r') /\ w_echo r' = w_echo r
  | WNothing, WNothing => True
  | WFail, WFail => True
  | _, _ => False
  end.
(** The same surface at another time. *)
Definition retimed_loc (l l' : SurfModel.loc) : Prop :=
  T (SurfModel.l_time l) (SurfModel.l_time l') /\
  SurfModel.l_surf l' = SurfModel.l_surf l /\ SurfModel.l_surf_lla l' = SurfModel.l_surf_lla l /\
  SurfModel.l_sat l' = SurfModel.l_sat l /\ SurfModel.l_sat_lla l' = SurfModel.l_sat_lla l /\
  SurfModel.l_vel l' = SurfModel.l_vel l /\ SurfModel.l_rate l' = SurfModel.l_rate l /\
  SurfModel.l_roll l' = SurfModel.l_roll l /\ SurfModel.l_pitch l' = SurfModel.l_pitch l /\
  SurfModel.l_yaw l' = SurfModel.l_yaw l /\ SurfModel.l_wd l' = SurfModel.l_wd l.
Definition retimed_surface (s s' : SurfModel.surface) : Prop :=
  SurfModel.s_uid s' = SurfModel.s_uid s /\ RotSpec.both retimed_loc (SurfModel.s_loc s) (SurfModel.s_loc s') /\
  SurfModel.s_dir s' = SurfModel.s_dir s /\ SurfModel.s_res s' = SurfModel.s_res s /\
  SurfModel.s_dist s' = SurfModel.s_dist s /\ SurfModel.s_focused s' = SurfModel.s_focused s.
(** All the same but the time of the surface. *)
Definition retimed_product (p p' : product) : Prop :=
  pr_number p' = pr_number p /\ RotSpec.both retimed_surface (pr_surf p) (pr_surf p') /\
  pr_stack p' = pr_stack p /\ pr_bursts p' = pr_bursts p /\ pr_looks p' = pr_looks p.
(** The two runs end in the same way with corresponding products. *)
Definition same_results (r r' : woutcome) : Prop :=
  match r, r' with
  | WEnd w c, WEnd w' c' => c' = c /\ Forall2 retimed_product (x_out w) (x_out w')
  | WRaise e w, WRaise e' w' => e' = e /\ Forall2 retimed_product (x_out w) (x_out w')
  | WFuel w, WFuel w' => Forall2 retimed_product (x_out w) (x_out w')
  | _, _ => False
  end.
End Clock.
