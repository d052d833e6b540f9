(** The L1B processing chain: main loop, burst and surface queues, gap
    handling (dedop/proc/sar/processor.py).  Definitions only. *)
From Coq Require Import List ZArith QArith Bool.
From Verif Require Import Common BeamModel.
Import ListNotations.
Local Open Scope nat_scope.

(** What one call of [next(l1a_file)] delivers (l1a_dataset.py lines 248-263):
    a valid burst with its time, [None] (invalid or outside the region), or any
    exception raised while reading or calibrating the record. *)
Inductive item := Valid (t : Q) | Nothing | ReadFail.

(** L1AProcessingData as far as the loop uses it.  [p_uid] is the object
    identity; [p_counter] is [counter] (model/l1a_processing_data.py 626-627,
    825: the record index); [p_done] is [burst_processed].  The waveform is not
    modelled. *)
Record packet := mk_packet {
  p_uid : nat; p_counter : nat; p_time : Q; p_done : bool }.

(** One element of the parallel lists stack_all_bursts /
    stack_all_beams_indices / stack_all_beams_indices_abs of a surface
    (model/surface_data.py lines 1125-1139). *)
Record entry := mk_entry {
  e_uid : nat; e_counter : nat; e_beam : nat; e_abs : Z }.

(** SurfaceData as far as the loop uses it.  [s_uid] is the object identity,
    [s_counter] the surface number, [s_loc] the uid of the burst at which the
    surface was located (it stands for the position and time data). *)
Record surface := mk_surface {
  s_uid : nat; s_counter : nat; s_loc : nat; s_stack : list entry }.

(** What [beam_angles] stores in a burst (processor.py lines 382-392):
    surfaces_seen_list and beam_angles_trend. *)
Record beamed := mk_beamed { a_uid : nat; a_seen : list nat; a_trend : Z }.

(** Configuration: chd.n_ku_pulses_burst, cnf.n_looks_stack, min_surfs
    (processor.py line 71), gap_threshold (line 104), the approximate-method
    flag (azimuth_processing.py line 41) and whether L1BS is written. *)
Record cfg := mk_cfg {
  c_N : nat; c_looks : nat; c_min : nat; c_gap : Q; c_approx : bool; c_l1bs : bool }.

(** Everything that depends on geometry and on numerical code, as arbitrary
    functions of the objects involved:
    [o_new s p]   find_new_location with last surface [s] and burst [p]
                  (surface_locations.py 232-328) returns True;
    [o_vis s p]   compute_beam_angle says burst [p] sees surface [s]
                  (beam_angles.py 55-82);
    [o_az_fail]   azimuth processing of the burst raises;
    [o_corr_fail] geometry corrections .. sigma-0 scaling of the surface raise;
    [o_w1_fail], [o_w2_fail]  writing the surface to L1B / L1BS raises. *)
Record oracle := mk_oracle {
  o_new : nat -> nat -> bool;
  o_vis : nat -> nat -> bool;
  o_az_fail : nat -> bool;
  o_corr_fail : nat -> bool;
  o_w1_fail : nat -> bool;
  o_w2_fail : nat -> bool }.

Inductive err :=
| EInsufficient   (* processor.py line 199 *)
| ERead           (* any exception of next() / calibration *)
| ENoSurface      (* surf_locs[0] on an empty list, line 231 *)
| EPrevBurst      (* bursts[-2] with a single burst, surface_locations.py 242 *)
| EAzimuth        (* line 238 *)
| ECorrection     (* lines 253-257 *)
| EWriteL1B       (* line 260 *)
| EWriteL1BS      (* line 262 *)
| EStackEmpty.    (* stack_all_bursts[0] on an empty stack, line 356 *)

(** Local variables of [_process] that deal with the input (lines 130-135,
    171-176).  [i_rest] is what next() will still deliver, [i_n] how many
    records were delivered, [i_cur] is input_packet, [i_pt] is prev_time,
    [i_sp] is surface_processing. *)
Record inp := mk_inp {
  i_rest : list item; i_n : nat; i_cur : option packet; i_pt : option Q;
  i_gap : bool; i_resume : bool; i_sp : bool }.

(** The queues and the beam-trend memory (lines 67-75), [q_count] is
    surfaces_count, [q_next] the identity of the next surface object;
    [q_az] logs the bursts for which [beam_angles] was executed, with what it
    stored in them (lines 236, 382-392). *)
Record que := mk_que {
  q_surfs : list surface; q_packs : list packet; q_count : nat; q_next : nat;
  q_psize : Z; q_ptrend : Z; q_az : list beamed }.

(** Output: the surfaces written to the two products, and the decision taken
    for each surface removed from the queue (true: written). *)
Record out := mk_out {
  w_l1b : list surface; w_l1bs : list surface; w_done : list (surface * bool) }.

(** Monitor: total work reported so far (util/monitor.py 190-193 for the child
    monitor), total of the current gap sub-monitor, and the log of calibrated
    bursts (lines 205-206). *)
Record mon := mk_mon { m_work : Q; m_sub : nat; m_cals : list nat }.

Record st := mk_st { s_in : inp; s_q : que; s_out : out; s_mon : mon }.

(* ------------------------------------------------------------------ *)

(** processor.py lines 394-409: the pairing loop of [beam_angles].  The inner
    loop runs over surfaces[last_index:] and last_index advances with every
    surface visited, so the surfaces are visited once, in order. *)
Fixpoint pair_loop (N : nat) (p : packet) (t : Z) (size : nat)
    (idx : nat) (seen : list nat) (surfs : list surface) : list surface :=
  match surfs, seen with
  | [], _ => []
  | _, [] => surfs
  | s :: ss, c :: cs =>
      if Nat.eqb (s_counter s) c then
        mk_surface (s_uid s) (s_counter s) (s_loc s)
          (s_stack s ++ [mk_entry (p_uid p) (p_counter p) idx (abs_index N idx t size)])
        :: pair_loop N p t size (S idx) cs ss
      else s :: pair_loop N p t size idx (c :: cs) ss
  end.

(** processor.py lines 375-409, [beam_angles]; result: the surfaces_seen list,
    the trend, the new surfaces and work_location_seen. *)
Definition beam_step (cf : cfg) (o : oracle) (wuid : nat) (p : packet) (q : que)
    : list nat * Z * list surface * bool :=
  let r := beam_angles (c_N cf) (fun s => o_vis o (s_uid s) (p_uid p))
             (fun s => s_uid s) s_counter (fun s => Nat.eqb (s_uid s) wuid)
             (q_surfs q) in
  let seen := map snd (fst r) in
  let t := trend (c_N cf) (length seen) (q_psize q) (q_ptrend q) in
  (seen, t, pair_loop (c_N cf) p t (length seen) 0 seen (q_surfs q), snd r).

(** azimuth_processing.py lines 22-47: outcome of azimuth processing; the
    approximate method needs a nadir beam (lines 88, 189-230). *)
Definition azimuth_fails (cf : cfg) (o : oracle) (p : packet) (seen : list nat) (t : Z) : bool :=
  o_az_fail o (p_uid p)
  || (c_approx cf && negb (is_ok (nadir_beam (c_N cf) seen t))).

(** processor.py lines 233-243: the loop over the queued bursts.  [todo] are
    the bursts not yet visited, [vis] the visited ones; an exception leaves the
    queues as they are at that point. *)
Fixpoint burst_loop (cf : cfg) (o : oracle) (wuid : nat)
    (visited todo : list packet) (q : que) : option err * que :=
  match todo with
  | [] => (None, mk_que (q_surfs q) visited (q_count q) (q_next q) (q_psize q) (q_ptrend q) (q_az q))
  | p :: rest =>
      if p_done p then burst_loop cf o wuid (visited ++ [p]) rest q
      else
        let '(seen, t, surfs', wseen) := beam_step cf o wuid p q in
        let psize' := Z.of_nat (length seen) in
        if azimuth_fails cf o p seen t then
          (Some EAzimuth,
           mk_que surfs' (visited ++ p :: rest) (q_count q) (q_next q) psize' t
             (q_az q ++ [mk_beamed (p_uid p) seen t]))
        else
          let p' := mk_packet (p_uid p) (p_counter p) (p_time p) true in
          let q' := mk_que surfs' (q_packs q) (q_count q) (q_next q) psize' t
                      (q_az q ++ [mk_beamed (p_uid p) seen t]) in
          if wseen then burst_loop cf o wuid (visited ++ [p']) rest q'
          else (None, mk_que surfs' (visited ++ p' :: rest) (q_count q) (q_next q) psize' t (q_az q'))
  end.

(** processor.py lines 355-359: drop bursts until the first one of the stack. *)
Fixpoint drop_until (c : nat) (l : list packet) : list packet :=
  match l with
  | [] => []
  | p :: r => if Nat.eqb (p_counter p) c then l else drop_until c r
  end.

(** stack_gathering.py lines 35-44: data_stack_size. *)
Definition stack_size (cf : cfg) (s : surface) : nat :=
  if Nat.ltb (length (s_stack s)) (c_looks cf) then length (s_stack s) else c_looks cf.

Definition set_packs_surfs (q : que) (ps : list packet) (ss : list surface) : que :=
  mk_que ss ps (q_count q) (q_next q) (q_psize q) (q_ptrend q) (q_az q).

(** processor.py lines 231-264: process the first queued surface. *)
Definition surface_phase (cf : cfg) (o : oracle) (q : que) (w : out)
    : option err * que * out :=
  match q_surfs q with
  | [] => (Some ENoSurface, q, w)
  | s0 :: _ =>
      let '(e, q1) := burst_loop cf o (s_uid s0) [] (q_packs q) q in
      match e with
      | Some e => (Some e, q1, w)
      | None =>
          match q_surfs q1 with
          | [] => (Some ENoSurface, q1, w)
          | s1 :: rest =>
              if Nat.ltb (stack_size cf s1) (Nat.div (c_looks cf) 2) then
                (None, set_packs_surfs q1 (q_packs q1) rest,
                 mk_out (w_l1b w) (w_l1bs w) (w_done w ++ [(s1, false)]))
              else if o_corr_fail o (s_uid s1) then (Some ECorrection, q1, w)
              else if o_w1_fail o (s_uid s1) then (Some EWriteL1B, q1, w)
              else
                let w1 := mk_out (w_l1b w ++ [s1]) (w_l1bs w) (w_done w) in
                if c_l1bs cf && o_w2_fail o (s_uid s1) then (Some EWriteL1BS, q1, w1)
                else
                  let w2 := mk_out (w_l1b w1)
                              (if c_l1bs cf then w_l1bs w ++ [s1] else w_l1bs w) (w_done w) in
                  match q_packs q1, s_stack s1 with
                  | _ :: _, [] => (Some EStackEmpty, q1, w2)
                  | [], _ => (None, set_packs_surfs q1 [] rest,
                              mk_out (w_l1b w2) (w_l1bs w2) (w_done w ++ [(s1, true)]))
                  | ps, e0 :: _ =>
                      (None, set_packs_surfs q1 (drop_until (e_counter e0) ps) rest,
                       mk_out (w_l1b w2) (w_l1bs w2) (w_done w ++ [(s1, true)]))
                  end
          end
      end
  end.

(* ------------------------------------------------------------------ *)

(** processor.py lines 363-373 and 551-565, surface_locations.py lines
    198-216: append the burst, decide on a new surface, append the surface.
    [Some true]: a surface was created; [Some false]: none; [None]: bursts[-2]
    fails (surface_locations.py lines 240-242). *)
Definition locate (o : oracle) (force : bool) (p : packet) (q : que) : option bool * que :=
  let packs' := q_packs q ++ [p] in
  let q0 := set_packs_surfs q packs' (q_surfs q) in
  let create :=
    mk_que (q_surfs q ++ [mk_surface (q_next q) (q_count q) (p_uid p) []]) packs'
      (S (q_count q)) (S (q_next q)) (q_psize q) (q_ptrend q) (q_az q) in
  match q_surfs q with
  | [] => (Some true, create)
  | s :: ss =>
      if force then (Some true, create)
      else match packs' with
           | _ :: _ :: _ =>
               if o_new o (s_uid (last ss s)) (p_uid p) then (Some true, create)
               else (Some false, q0)
           | _ => (None, q0)
           end
  end.

(** Result of the first half of an iteration (lines 186-226). *)
Inductive read_res :=
| RGo (i : inp) (q : que) (m : mon)          (* fall through to line 228 *)
| RContinue (i : inp) (q : que) (m : mon)    (* [continue], line 217 *)
| RRaise (e : err) (i : inp) (q : que) (m : mon).

Definition lt_q (a b : Q) : bool := negb (Qle_bool b a).

(** lines 203-223 for the current input_packet. *)
Definition handle_packet (cf : cfg) (o : oracle) (i : inp) (q : que) (m : mon) : read_res :=
  match i_cur i with
  | None => RGo i q m
  | Some p =>
      let m1 := mk_mon (m_work m) (m_sub m) (m_cals m ++ [p_uid p]) in
      let no_gap := match i_pt i with
                    | None => true
                    | Some t0 => lt_q (p_time p - t0)%Q (c_gap cf)
                    end in
      if no_gap then
        let '(r, q1) := locate o (i_resume i) p q in
        let i1 := mk_inp (i_rest i) (i_n i) (i_cur i) (Some (p_time p)) (i_gap i) false (i_sp i) in
        match r with
        | None => RRaise EPrevBurst i1 q1 m1
        | Some true => RGo i1 q1 m1
        | Some false => RContinue i1 q1 m1
        end
      else
        RGo (mk_inp (i_rest i) (i_n i) (i_cur i) None true (i_resume i) (i_sp i)) q
            (mk_mon (m_work m1) (length (q_surfs q)) (m_cals m1))
  end.

(** lines 186-226.  [base] is the identity of the first packet of this file. *)
Definition read_phase (cf : cfg) (o : oracle) (base : nat) (s : st) : read_res :=
  let i := s_in s in let q := s_q s in let m := s_mon s in
  if i_gap i then
    RGo i q (mk_mon (m_work m + (1 / inject_Z (Z.of_nat (m_sub m))))%Q (m_sub m) (m_cals m))
  else if i_resume i then handle_packet cf o i q m
  else
    match i_rest i with
    | [] =>
        let i1 := mk_inp [] (i_n i) None (i_pt i) (i_gap i) (i_resume i) (i_sp i) in
        if i_sp i then handle_packet cf o i1 q m else RRaise EInsufficient i1 q m
    | ReadFail :: r =>
        RRaise ERead (mk_inp r (S (i_n i)) (i_cur i) (i_pt i) (i_gap i) (i_resume i) (i_sp i)) q m
    | Nothing :: r =>
        handle_packet cf o (mk_inp r (S (i_n i)) None (i_pt i) (i_gap i) (i_resume i) (i_sp i)) q
          (mk_mon (m_work m + 1)%Q (m_sub m) (m_cals m))
    | Valid t :: r =>
        handle_packet cf o
          (mk_inp r (S (i_n i)) (Some (mk_packet (base + i_n i) (i_n i) t false))
             (i_pt i) (i_gap i) (i_resume i) (i_sp i)) q
          (mk_mon (m_work m + 1)%Q (m_sub m) (m_cals m))
    end.

(** Outcome of one iteration, cancellation aside. *)
Inductive step_res :=
| BCont (s : st)            (* the loop goes on *)
| BEnd (s : st)             (* running = False, status = None: lines 274-276 *)
| BRaise (e : err) (s : st).

(** lines 266-276 *)
Definition end_phase (i : inp) (q : que) (w : out) (m : mon) : step_res :=
  match q_surfs q with
  | [] =>
      if i_gap i then
        BCont (mk_st (mk_inp (i_rest i) (i_n i) (i_cur i) (i_pt i) false true false) q w m)
      else BEnd (mk_st i q w m)
  | _ => BCont (mk_st i q w m)
  end.

(** lines 178-276: one iteration. *)
Definition body (cf : cfg) (o : oracle) (base : nat) (s : st) : step_res :=
  match read_phase cf o base s with
  | RRaise e i q m => BRaise e (mk_st i q (s_out s) m)
  | RContinue i q m => BCont (mk_st i q (s_out s) m)
  | RGo i q m =>
      if i_sp i || Nat.leb (c_min cf) (length (q_surfs q)) || i_gap i then
        let i1 := mk_inp (i_rest i) (i_n i) (i_cur i) (i_pt i) (i_gap i) (i_resume i) true in
        let '(e, q1, w1) := surface_phase cf o q (s_out s) in
        match e with
        | Some e => BRaise e (mk_st i1 q1 w1 m)
        | None => end_phase i1 q1 w1 m
        end
      else end_phase i q (s_out s) m
  end.

(** Outcome of the whole run.  [OEnd st cancelled]: the loop ended, the globals
    were written and the files closed (lines 278-347), the returned status is
    -1 when [cancelled] (line 132) and None otherwise.  [ORaise]: an exception
    left _process, the files were not closed.  [OFuel] is an artefact of the
    definition; C01 shows that it does not occur. *)
Inductive outcome :=
| OEnd (s : st) (cancelled : bool)
| ORaise (e : err) (s : st)
| OFuel (s : st).

(** lines 178-276: the loop.  [cancel k] is the answer of is_cancelled() in
    iteration [k]; the iteration in which it is True is still completed. *)
Fixpoint loop (cf : cfg) (o : oracle) (base : nat) (cancel : nat -> bool)
    (fuel : nat) (k : nat) (s : st) : outcome :=
  match fuel with
  | O => OFuel s
  | S f =>
      match body cf o base s with
      | BRaise e s' => ORaise e s'
      | BEnd s' => OEnd s' false
      | BCont s' => if cancel k then OEnd s' true else loop cf o base cancel f (S k) s'
      end
  end.

(** lines 130-176: the initial state; [surfs0], [packs0] are what earlier runs
    of the same processor left in the queues (empty for a new processor). *)
Definition init (surfs0 : list surface) (packs0 : list packet) (snext : nat)
    (input : list item) : st :=
  mk_st (mk_inp input 0 None None false false false)
        (mk_que surfs0 packs0 0 snext (-1) (-1) [])
        (mk_out [] [] []) (mk_mon 0 0 []).

(** Number of iterations after which the run is over (see C01). *)
Definition enough (surfs0 : list surface) (input : list item) : nat :=
  S (3 * length input + length surfs0).

(** processor.py lines 106-127: a run of a processor with given left-overs. *)
Definition run_from (cf : cfg) (o : oracle) (cancel : nat -> bool)
    (surfs0 : list surface) (packs0 : list packet) (base snext : nat)
    (input : list item) : outcome :=
  loop cf o base cancel (enough surfs0 input) 0 (init surfs0 packs0 snext input).

(** A run of a freshly created processor. *)
Definition run (cf : cfg) (o : oracle) (cancel : nat -> bool) (input : list item) : outcome :=
  run_from cf o cancel [] [] 0 0 input.

Definition final (r : outcome) : st :=
  match r with OEnd s _ => s | ORaise _ s => s | OFuel s => s end.
Definition written (r : outcome) : list surface := w_l1b (s_out (final r)).
Definition written_l1bs (r : outcome) : list surface := w_l1bs (s_out (final r)).
