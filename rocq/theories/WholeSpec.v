(** What is said about the chain with its geometry. *)
From Coq Require Import List ZArith QArith Reals Bool.
From Verif Require Import Common Cplx GeoModel ChainModel WholeModel.
From Verif Require SurfModel DopModel GcorrModel PointModel LinModel LinSpec RotSpec.
Import ListNotations.
Local Open Scope nat_scope.

(** The same end, in the same state. *)
Definition same_end (r : woutcome) (r' : outcome) : Prop :=
  match r, r' with
  | WEnd w c, OEnd s c' => x_s w = s /\ c = c'
  | WRaise e w, ORaise e' s => x_s w = s /\ e = e'
  | _, _ => False
  end.
(** The failures the setup asks for, and those of the arc cosine in the limits of
    the beams. *)
Definition failing (u : setup) (input : list witem) (o : oracle) : Prop :=
  (forall p, o_az_fail o p = u_az_fail u p || match data u input p with
                                              | Some b => match lowest u b with None => true | Some _ => false end
                                              | None => false
                                              end) /\
  (forall s, o_corr_fail o s = u_corr_fail u s) /\ (forall s, o_w1_fail o s = u_w1_fail u s) /\
  (forall s, o_w2_fail o s = u_w2_fail u s).
(** The geometry describes the surfaces and bursts queued. *)
Definition parallel (u : setup) (input : list witem) (w : wst) : Prop :=
  map SurfModel.s_uid (SurfModel.t_surfs (x_t w)) = map s_uid (q_surfs (s_q (x_s w))) /\
  map Some (SurfModel.t_bursts (x_t w)) = map (fun p => data u input (p_uid p)) (q_packs (s_q (x_s w))) /\
  SurfModel.t_next (x_t w) = q_next (s_q (x_s w)).
(** The bound on the loops of normalize suffices for the records. *)
Definition fuel_enough (u : setup) (input : list witem) : Prop :=
  forall r, In (WValid r) input ->
    normalize (u_fuel u) (k_pi (SurfModel.g_k (u_g u))) (vx (SurfModel.b_lla (w_geo r))) <> None /\
    normalize (u_fuel u) (k_pi (SurfModel.g_k (u_g u))) (vy (SurfModel.b_lla (w_geo r))) <> None.
Definition with_fuel (u : setup) (f : nat) : setup :=
  mk_setup (u_cf u) (u_g u) f (u_prf u) (u_mean u) (u_cal1 u) (u_cal2 u)
    (u_flags u) (u_k u) (u_zp u) (u_pick u) (u_az_fail u) (u_corr_fail u) (u_w1_fail u) (u_w2_fail u).
(** The product has the number and the bursts and beams of the surface. *)
Definition product_for (p : product) (s : surface) : Prop :=
  pr_number p = s_counter s /\ map fst (pr_stack p) = map (fun e => (e_uid e, e_beam e)) (s_stack s).
(** The angle [a] at which record [r] sees the position [y] is within its beams. *)
Definition sees_at (u : setup) (r : rec) (y : vec) (a : R) : Prop :=
  let k := SurfModel.g_k (u_g u) in
  let vel := SurfModel.b_vel (w_geo r) in
  let lla := SurfModel.b_lla (w_geo r) in
  exists q d, DopModel.q_min k (u_prf u) (SurfModel.g_freq (u_g u)) vel = Some q /\
    DopModel.doppler_angle k (u_mean u) lla vel = Some d /\
    DopModel.beam_angle (lla2ecef k false lla) vel y = Some a /\ (q <= a - d <= k_pi k - q)%R.
(** A product whose surface was seen by the records of its stack, at the angles
    given there. *)
Definition seen_by_stack (u : setup) (input : list witem) (p : product) : Prop :=
  exists x, pr_surf p = Some x /\ SurfModel.s_uid x = pr_number p /\
    forall i j a, In (i, j, a) (pr_stack p) ->
      exists l r a', SurfModel.s_loc x = Some l /\ nth_error input i = Some (WValid r) /\ a = Some a' /\
        sees_at u r (SurfModel.l_surf l) a'.
(** The look angle of record [i] for a beam at [a]; the looks kept. *)
Definition look_of (u : setup) (input : list witem) (e : nat * nat * option R) : option R :=
  match nth_error input (fst (fst e)), snd e with
  | Some (WValid r), Some a =>
      match DopModel.doppler_angle (SurfModel.g_k (u_g u)) (u_mean u) (SurfModel.b_lla (w_geo r)) (SurfModel.b_vel (w_geo r)) with
      | Some d => Some (k_pi (SurfModel.g_k (u_g u)) / 2 + d - a)%R
      | None => None
      end
  | _, _ => None
  end.
Definition kept_looks (u : setup) (input : list witem) (p : product) : list (nat * nat * option R) :=
  flat_map (fun i => match nth_error (pr_stack p) i with Some e => [e] | None => [] end)
           (u_pick u (map (look_of u input) (pr_stack p))).
(** The samples of a record when it reaches azimuth processing, but for one
    calibration: those of the file, or, for the record of a gap, calibrated
    once. *)
Definition held (u : setup) (input : list witem) (i : nat) (w : LinModel.raw) : option (list (list C)) :=
  if after_gap (c_gap (u_cf u)) None (map erase input) i
  then option_map PointModel.b_wfm (LinModel.calibrated (u_cal1 u) (u_cal2 u) (u_k u) (c_N (u_cf u)) w)
  else Some (PointModel.b_wfm (LinModel.r_burst w)).
(** Record [i] with a single beam, steered to the angle given. *)
Definition steered (u : setup) (input : list witem) (e : nat * nat * option R) : option LinModel.raw :=
  match nth_error input (fst (fst e)), snd e with
  | Some (WValid r), Some a =>
      let w := w_echo r in
      let o := LinModel.r_burst w in
      let sat := lla2ecef (SurfModel.g_k (u_g u)) false (SurfModel.b_lla (w_geo r)) in
      option_map (fun wfm =>
        {| LinModel.r_burst :=
            {| PointModel.b_x := vx sat; PointModel.b_y := vy sat; PointModel.b_z := vz sat;
               PointModel.b_speed := norm (vlist (SurfModel.b_vel (w_geo r))); PointModel.b_pri := PointModel.b_pri o;
               PointModel.b_wd := SurfModel.b_wd (w_geo r); PointModel.b_t0 := PointModel.b_t0 o;
               PointModel.b_angles := [a]; PointModel.b_pos := 0; PointModel.b_wfm := wfm |};
          LinModel.r_agc := LinModel.r_agc w; LinModel.r_sig0 := LinModel.r_sig0 w;
          LinModel.r_power := LinModel.r_power w; LinModel.r_phase := LinModel.r_phase w; LinModel.r_table := LinModel.r_table w |})
        (held u input (fst (fst e)) w)
  | _, _ => None
  end.
(** The powers of the looks of a product. *)
Definition looks_of (u : setup) (input : list witem) (l : SurfModel.loc) (p : product) : option (list (list R)) :=
  match all_some (map (steered u input) (kept_looks u input p)) with
  | Some raws => LinModel.looks (u_cal1 u) (u_cal2 u) (u_flags u) (u_k u)
                   {| GcorrModel.sx := vx (SurfModel.l_surf l); GcorrModel.sy := vy (SurfModel.l_surf l);
                      GcorrModel.sz := vz (SurfModel.l_surf l); GcorrModel.s_wd := SurfModel.l_wd l |}
                   (c_N (u_cf u)) (u_zp u) (c_looks (u_cf u)) raws
  | None => None
  end.
(** No burst has more beams than pulses. *)
Definition beams_fit (u : setup) (angles : list (nat * list (option R))) : Prop :=
  forall i l, In (i, l) angles -> length l <= c_N (u_cf u).

(** The same scene elsewhere (RotSpec). *)
Definition moved_item (phi : R) (flip : bool) (i i' : witem) : Prop :=
  match i, i' with
  | WValid r, WValid r' =>
      w_time r' = w_time r /\ RotSpec.moved_record phi flip (w_geo r) (w_geo r') /\ w_echo r' = w_echo r
  | WNothing, WNothing => True
  | WFail, WFail => True
  | _, _ => False
  end.
Definition moved_setup (phi : R) (flip : bool) (u : setup) : setup :=
  mk_setup (u_cf u) (RotSpec.moved_settings phi flip (u_g u)) (u_fuel u) (u_prf u) (u_mean u) (u_cal1 u) (u_cal2 u)
    (u_flags u) (u_k u) (u_zp u) (u_pick u) (u_az_fail u) (u_corr_fail u) (u_w1_fail u) (u_w2_fail u).
(** All the same but the place of the surface. *)
Definition moved_product (phi : R) (flip : bool) (p p' : product) : Prop :=
  pr_number p' = pr_number p /\ RotSpec.both (RotSpec.moved_surface phi flip) (pr_surf p) (pr_surf p') /\
  pr_stack p' = pr_stack p /\ pr_bursts p' = pr_bursts p /\ pr_looks p' = pr_looks p.
Definition like (R : wst -> wst -> Prop) (r r' : woutcome) : Prop :=
  match r, r' with
  | WEnd w c, WEnd w' c' => R w w' /\ c = c'
  | WRaise e w, WRaise e' w' => R w w' /\ e = e'
  | WFuel w, WFuel w' => R w w'
  | _, _ => False
  end.
(** The products correspond by [P], all else but the geometry of the queues is the
    same. *)
Definition same_run (T : SurfModel.st -> SurfModel.st -> Prop) (P : product -> product -> Prop) (w w' : wst) : Prop :=
  x_s w' = x_s w /\ T (x_t w) (x_t w') /\ x_angles w' = x_angles w /\ Forall2 P (x_out w) (x_out w').
(** The states at the beginning of the iterations of a run. *)
Fixpoint state_after (u : setup) (input : list witem) (n : nat) : option wst :=
  match n with
  | O => Some (wst0 input)
  | S n => match state_after u input n with
           | Some w => match wbody u input w with
                       | Some (BCont _, w') => Some w'
                       | _ => None
                       end
           | None => None
           end
  end.

(** Arbitrary other echoes. *)
Definition echo_item (i i' : witem) : Prop :=
  match i, i' with
  | WValid r, WValid r' => w_time r' = w_time r /\ w_geo r' = w_geo r
  | WNothing, WNothing => True
  | WFail, WFail => True
  | _, _ => False
  end.
(** The same, if the echoes of the bursts looking are the same. *)
Definition echo_product (input input' : list witem) (p p' : product) : Prop :=
  pr_number p' = pr_number p /\ pr_surf p' = pr_surf p /\ pr_stack p' = pr_stack p /\ pr_bursts p' = pr_bursts p /\
  ((forall i, In i (pr_bursts p) -> record_of input' i = record_of input i) -> pr_looks p' = pr_looks p).
(** Other echoes: those of record [i] multiplied by [gain i]. *)
Definition louder_item (g : C) (i : witem) : witem :=
  match i with
  | WValid r => WValid (mk_rec (w_time r) (w_geo r) (LinSpec.amplified g (w_echo r)))
  | _ => i
  end.
Fixpoint louder_input (gain : nat -> C) (n : nat) (l : list witem) : list witem :=
  match l with [] => [] | i :: r => louder_item (gain n) i :: louder_input gain (S n) r end.
Definition louder_product (gain : nat -> C) (p p' : product) : Prop :=
  pr_number p' = pr_number p /\ pr_surf p' = pr_surf p /\ pr_stack p' = pr_stack p /\ pr_bursts p' = pr_bursts p /\
  RotSpec.both (LinSpec.louder (map gain (pr_bursts p))) (pr_looks p) (pr_looks p').
