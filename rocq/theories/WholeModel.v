(** The chain with the geometry filled in: from the records of an L1A product
    to the surfaces written to the L1B product and the powers of their looks.

    The control flow is that of ChainModel (dedop/proc/sar/processor.py
    130-347), the surfaces are located and focused as in SurfModel, the beams are
    those of DopModel, the looks those of LinModel and PointModel.  What
    ChainModel takes from an oracle is computed here from the geometry of the
    queues at the moment it is asked for.  Definitions only. *)
From Coq Require Import List ZArith QArith Qreals Reals Bool.
From Verif Require Import Common Cplx GeoModel BeamModel ChainModel.
From Verif Require SurfModel DopModel GcorrModel PointModel LinModel.
Import ListNotations.
Local Open Scope nat_scope.

(** A record: its time, what is known of the position of the satellite
    (dedop/model/l1a_processing_data.py 626-850), and the echoes with their
    calibration.  Of [w_geo] the time and the Cartesian positions, of [w_echo]
    the position, speed, window delay, beam angles and beam index are not used:
    they are set below. *)
Record rec := mk_rec { w_time : Q; w_geo : SurfModel.burst; w_echo : LinModel.raw }.
(** What next() delivers (dedop/data/input/l1a/l1a_dataset.py 248-263). *)
Inductive witem := WValid (r : rec) | WNothing | WFail.
Definition erase (i : witem) : item :=
  match i with WValid r => Valid (w_time r) | WNothing => Nothing | WFail => ReadFail end.

(** Configuration, characterisation and constants.  [u_prf]: prf_sar (pri_sar is
    its inverse); [u_mean]: mean_sat_alt; [u_pick]: which looks of a stack are
    kept and in which order, given their look angles (stack_gathering.py 46-103;
    C26-C29); [u_az_fail] .. [u_w2_fail]: other exceptions, as in ChainModel.
    [u_fuel] bounds the loops of normalize. *)
Record setup := mk_setup {
  u_cf : cfg; u_g : SurfModel.settings; u_fuel : nat; u_prf : R; u_mean : R;
  u_cal1 : bool; u_cal2 : bool; u_flags : GcorrModel.gflags; u_k : GcorrModel.gconst; u_zp : nat;
  u_pick : list (option R) -> list nat;
  u_az_fail : nat -> bool; u_corr_fail : nat -> bool; u_w1_fail : nat -> bool; u_w2_fail : nat -> bool }.

(** l1a_dataset.py 237-238: the burst with its Cartesian positions. *)
Definition prepared (u : setup) (r : rec) : SurfModel.burst :=
  let b := w_geo r in
  SurfModel.locate_burst (SurfModel.g_k (u_g u))
    {| SurfModel.b_time := Q2R (w_time r); SurfModel.b_lla := SurfModel.b_lla b; SurfModel.b_wd := SurfModel.b_wd b;
       SurfModel.b_sat := SurfModel.b_sat b; SurfModel.b_surf := SurfModel.b_surf b; SurfModel.b_vel := SurfModel.b_vel b;
       SurfModel.b_rate := SurfModel.b_rate b; SurfModel.b_roll := SurfModel.b_roll b; SurfModel.b_pitch := SurfModel.b_pitch b;
       SurfModel.b_yaw := SurfModel.b_yaw b; SurfModel.b_days := SurfModel.b_days b; SurfModel.b_secs := SurfModel.b_secs b;
       SurfModel.b_leap := SurfModel.b_leap b |}.
(** The burst [p] (bursts are numbered by their records); [None] is never asked
    for. *)
Definition record_of (input : list witem) (p : nat) : option rec :=
  match nth_error input p with Some (WValid r) => Some r | _ => None end.
Definition data (u : setup) (input : list witem) (p : nat) : option SurfModel.burst :=
  option_map (prepared u) (record_of input p).

(** * Beams *)

(** l1a_processing_data.py 900-927 *)
Definition dop (u : setup) (b : SurfModel.burst) : option R :=
  DopModel.doppler_angle (SurfModel.g_k (u_g u)) (u_mean u) (SurfModel.b_lla b) (SurfModel.b_vel b).
Definition lowest (u : setup) (b : SurfModel.burst) : option R :=
  DopModel.q_min (SurfModel.g_k (u_g u)) (u_prf u) (SurfModel.g_freq (u_g u)) (SurfModel.b_vel b).
(** beam_angles.py 62-73; [None]: not a number *)
Definition angle (b : SurfModel.burst) (s : SurfModel.surface) : option R :=
  match SurfModel.s_loc s with
  | Some l => DopModel.beam_angle (SurfModel.b_sat b) (SurfModel.b_vel b) (SurfModel.l_surf l)
  | None => None
  end.
(** beam_angles.py 31-35, 55-82 *)
Definition sees (u : setup) (b : SurfModel.burst) (s : SurfModel.surface) : bool :=
  match lowest u b with
  | Some q => DopModel.in_range (SurfModel.g_k (u_g u)) q (dop u b) (angle b s)
  | None => false
  end.

(** * The answers *)

Definition by_uid (ss : list SurfModel.surface) (n : nat) : option SurfModel.surface :=
  find (fun s => Nat.eqb (SurfModel.s_uid s) n) ss.
(** surface_locations.py 198-230: is there a new surface, when the geometry of
    the queues is [t]?  (Asked for a queue that is not empty.) *)
Definition found (u : setup) (input : list witem) (t : SurfModel.st) (p : nat) : bool :=
  match data u input p with
  | Some b => match snd (SurfModel.step_burst (u_g u) (u_fuel u) false b t) with Ok r => r | Err _ => false end
  | None => false
  end.
(** [t]: the queues when the burst arrives; [t1]: after surfaces were located.
    A velocity for which math.acos raises (beam_angles.py 31-34) counts as
    failure of the azimuth processing: the run ends with the same products. *)
Definition oracle_at (u : setup) (input : list witem) (t t1 : SurfModel.st) : oracle :=
  mk_oracle (fun _ p => found u input t p)
            (fun s p => match data u input p, by_uid (SurfModel.t_surfs t1) s with
                        | Some b, Some x => sees u b x
                        | _, _ => false
                        end)
            (fun p => u_az_fail u p || match data u input p with
                                       | Some b => match lowest u b with None => true | Some _ => false end
                                       | None => false
                                       end)
            (u_corr_fail u) (u_w1_fail u) (u_w2_fail u).

(** * Products *)

(** processor.py 382-392: the list of beam angles stored in a burst (surfaces are
    numbered in the order in which they are made). *)
Definition stored (u : setup) (input : list witem) (t1 : SurfModel.st) (a : beamed) : nat * list (option R) :=
  (a_uid a, map (fun c => match data u input (a_uid a), by_uid (SurfModel.t_surfs t1) c with
                          | Some b, Some x => angle b x
                          | _, _ => None
                          end) (a_seen a)).
Definition angles_of (l : list (nat * list (option R))) (p : nat) : list (option R) :=
  match find (fun x => Nat.eqb (fst x) p) l with Some x => snd x | None => [] end.

(** stack_gathering.py 62, 117: the look angle of an entry of a stack *)
Definition look (u : setup) (input : list witem) (angles : list (nat * list (option R))) (e : entry) : option R :=
  match data u input (e_uid e), nth (e_beam e) (angles_of angles (e_uid e)) None with
  | Some b, Some a => match dop u b with
                      | Some d => Some (DopModel.look_angle (SurfModel.g_k (u_g u)) d a)
                      | None => None
                      end
  | _, _ => None
  end.
Definition picked (u : setup) (input : list witem) (angles : list (nat * list (option R))) (l : list entry) : list entry :=
  flat_map (fun i => match nth_error l i with Some e => [e] | None => [] end)
           (u_pick u (map (look u input angles) l)).
(** processor.py 203-212 and 216-223: whether record [p] is one at which a gap is
    noticed: the time since the last burst with a position is not below the
    limit.  Nothing is read after an error of the reader. *)
Fixpoint after_gap (gap : Q) (before : option Q) (l : list item) (p : nat) : bool :=
  match l, p with
  | Valid t :: _, O => match before with Some t0 => negb (lt_q (t - t0)%Q gap) | None => false end
  | Valid t :: r, S p => after_gap gap (Some t) r p
  | Nothing :: r, S p => after_gap gap before r p
  | _, _ => false
  end.
(** processor.py 203-206 with 186-190: calibration is in place, before the gap is
    looked for; the burst of a gap is kept, and calibrated again when the loop
    resumes with it (C07, C122_calibrations).  This is what it holds when it is
    calibrated for the last time; [None] as in [LinModel.calibrated]. *)
Definition echo_of (u : setup) (input : list witem) (p : nat) (w : LinModel.raw) : option LinModel.raw :=
  if after_gap (c_gap (u_cf u)) None (map erase input) p then
    option_map (fun o => {| LinModel.r_burst := o; LinModel.r_agc := LinModel.r_agc w; LinModel.r_sig0 := LinModel.r_sig0 w;
                            LinModel.r_power := LinModel.r_power w; LinModel.r_phase := LinModel.r_phase w;
                            LinModel.r_table := LinModel.r_table w |})
               (LinModel.calibrated (u_cal1 u) (u_cal2 u) (u_k u) (c_N (u_cf u)) w)
  else Some w.
(** The burst of an entry, as azimuth processing and gathering see it.  The
    angles of the beams of a burst are numbers (C122). *)
Definition view (u : setup) (input : list witem) (angles : list (nat * list (option R))) (e : entry) : option LinModel.raw :=
  match record_of input (e_uid e) with
  | None => None
  | Some r =>
      let b := prepared u r in
      option_map (fun w =>
        let o := LinModel.r_burst w in
        {| LinModel.r_burst :=
             {| PointModel.b_x := vx (SurfModel.b_sat b); PointModel.b_y := vy (SurfModel.b_sat b);
                PointModel.b_z := vz (SurfModel.b_sat b); PointModel.b_speed := norm (vlist (SurfModel.b_vel b));
                PointModel.b_pri := PointModel.b_pri o; PointModel.b_wd := SurfModel.b_wd b;
                PointModel.b_t0 := PointModel.b_t0 o;
                PointModel.b_angles := map (fun a => match a with Some x => x | None => 0%R end)
                                           (angles_of angles (e_uid e));
                PointModel.b_pos := e_beam e; PointModel.b_wfm := PointModel.b_wfm o |};
           LinModel.r_agc := LinModel.r_agc w; LinModel.r_sig0 := LinModel.r_sig0 w;
           LinModel.r_power := LinModel.r_power w; LinModel.r_phase := LinModel.r_phase w;
           LinModel.r_table := LinModel.r_table w |}) (echo_of u input (e_uid e) (w_echo r))
  end.
Fixpoint all_some {A} (l : list (option A)) : option (list A) :=
  match l with
  | [] => Some []
  | Some x :: r => option_map (cons x) (all_some r)
  | None :: _ => None
  end.
Definition ground (l : SurfModel.loc) : GcorrModel.gsurf :=
  {| GcorrModel.sx := vx (SurfModel.l_surf l); GcorrModel.sy := vy (SurfModel.l_surf l);
     GcorrModel.sz := vz (SurfModel.l_surf l); GcorrModel.s_wd := SurfModel.l_wd l |}.

(** A surface as it is written (processor.py 253-262): its number, its geometry,
    the bursts, beams and beam angles of its stack, the bursts of its looks in their order, and
    the powers of its looks (beams_range_compr; with the exact method of azimuth processing and the
    disabled azimuth window; [None]: an error, values that are not numbers, or
    the approximate method). *)
Record product := mk_product {
  pr_number : nat; pr_surf : option SurfModel.surface; pr_stack : list (nat * nat * option R);
  pr_bursts : list nat; pr_looks : option (list (list R)) }.
Definition product_of (u : setup) (input : list witem) (t1 : SurfModel.st) (angles : list (nat * list (option R)))
    (s : surface) : product :=
  let x := by_uid (SurfModel.t_surfs t1) (s_uid s) in
  mk_product (s_counter s) x (map (fun e => (e_uid e, e_beam e, nth (e_beam e) (angles_of angles (e_uid e)) None)) (s_stack s))
    (map e_uid (picked u input angles (s_stack s)))
    (match x, all_some (map (view u input angles) (picked u input angles (s_stack s))) with
     | Some x, Some l =>
         match SurfModel.s_loc x with
         | Some g => if c_approx (u_cf u) then None
                     else LinModel.looks (u_cal1 u) (u_cal2 u) (u_flags u) (u_k u) (ground g) (c_N (u_cf u)) (u_zp u)
                            (c_looks (u_cf u)) l
         | None => None
         end
     | _, _ => None
     end).

(** * The loop *)

(** State: that of the loop, the geometry of the queues, the beam angles stored
    so far and the surfaces written so far. *)
Record wst := mk_wst {
  x_s : st; x_t : SurfModel.st; x_angles : list (nat * list (option R)); x_out : list product }.

Definition read_que (r : read_res) : que :=
  match r with RGo _ q _ => q | RContinue _ q _ => q | RRaise _ _ q _ => q end.
(** The burst appended to the queue, if one was (processor.py 363-373). *)
Definition arrived (s : st) (r : read_res) : option nat :=
  let ps := q_packs (read_que r) in
  if Nat.eqb (length ps) (S (length (q_packs (s_q s)))) then option_map p_uid (SurfModel.last1 ps) else None.
(** The first half of an iteration (186-226): the geometry after it; [false]:
    [u_fuel] was too small. *)
Definition geo_read (u : setup) (input : list witem) (w : wst) : SurfModel.st * bool :=
  match arrived (x_s w) (read_phase (u_cf u) (oracle_at u input (x_t w) (x_t w)) 0 (x_s w)) with
  | None => (x_t w, true)
  | Some p =>
      match data u input p with
      | None => (x_t w, true)
      | Some b =>
          let '(t1, r) := SurfModel.step_burst (u_g u) (u_fuel u) (i_resume (s_in (x_s w))) b (x_t w) in
          (t1, match r with Err SurfModel.ELoop => false | _ => true end)
      end
  end.
Definition step_st (r : step_res) : st := match r with BCont s => s | BEnd s => s | BRaise _ s => s end.
(** What follows in the iteration, for the other components. *)
Definition advance (u : setup) (input : list witem) (w : wst) (t1 : SurfModel.st) (s' : st) : wst :=
  let s := x_s w in
  let angles := x_angles w ++ map (stored u input t1) (skipn (length (q_az (s_q s))) (q_az (s_q s'))) in
  let t2 := if Nat.ltb (length (w_done (s_out s))) (length (w_done (s_out s')))
            then SurfModel.run_op (u_g u) (u_fuel u) SurfModel.DropSurface t1 else t1 in
  let gone := length (SurfModel.t_bursts t1) - length (q_packs (s_q s')) in
  mk_wst s' (SurfModel.run_op (u_g u) (u_fuel u) (SurfModel.DropBursts gone) t2) angles
    (x_out w ++ map (product_of u input t1 angles) (skipn (length (w_l1b (s_out s))) (w_l1b (s_out s')))).
(** One iteration (178-276); [None]: [u_fuel] was too small. *)
Definition wbody (u : setup) (input : list witem) (w : wst) : option (step_res * wst) :=
  let '(t1, ok) := geo_read u input w in
  if ok then
    let r := body (u_cf u) (oracle_at u input (x_t w) t1) 0 (x_s w) in
    Some (r, advance u input w t1 (step_st r))
  else None.

Inductive woutcome :=
| WEnd (w : wst) (cancelled : bool)
| WRaise (e : err) (w : wst)
| WFuel (w : wst).    (* one of the bounds was too small *)
Fixpoint wloop (u : setup) (input : list witem) (cancel : nat -> bool) (fuel : nat) (k : nat) (w : wst) : woutcome :=
  match fuel with
  | O => WFuel w
  | S f =>
      match wbody u input w with
      | None => WFuel w
      | Some (BRaise e _, w') => WRaise e w'
      | Some (BEnd _, w') => WEnd w' false
      | Some (BCont _, w') => if cancel k then WEnd w' true else wloop u input cancel f (S k) w'
      end
  end.
(** A run of a new processor. *)
Definition wst0 (input : list witem) : wst :=
  mk_wst (init [] [] 0 (map erase input)) SurfModel.st0 [] [].
Definition whole (u : setup) (cancel : nat -> bool) (input : list witem) : woutcome :=
  wloop u input cancel (enough [] (map erase input)) 0 (wst0 input).
Definition wfinal (r : woutcome) : wst := match r with WEnd w _ => w | WRaise _ w => w | WFuel w => w end.
