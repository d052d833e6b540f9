(** The waveform of a surface: from the powers of its looks, through masking,
    antenna weighting and multilooking, to the counts in the extended L1B file
    (proc/sar/processor.py 246-259).  The looks are those of a run (WholeModel);
    masks and multilooking are those of MaskModel and MlookModel, over the real
    numbers.  Definitions only. *)
From Coq Require Import List ZArith QArith Reals Bool.
From Verif Require Import Common Cplx GeoModel WholeModel.
From Verif Require SurfModel DopModel GcorrModel MaskModel ChainModel LinModel PointModel.
Import ListNotations.
Local Open Scope R_scope.

(** One look as multilooking sees it: beams_range_compr[i, :], the sum of the
    three corrections of stack_masking.py 63-65, look_angles_surf[i] and
    pointing_angles_surf[i]. *)
Record look := mk_look { k_row : list R; k_shift : R; k_look : R; k_point : R }.
(** flag_stack_masking; look_angle_mask_min and look_angle_mask_max;
    flag_antenna_weighting with the weight found for a pointing angle
    (multilooking.py 192-219 is MlookModel.select_weight; [None]: IndexError);
    flag_avoid_zeros_in_multilooking. *)
Record settings := mk_settings {
  v_mask : bool; v_lo : option R; v_hi : option R; v_weight : option (R -> option R); v_avoid : bool }.

(** numpy.round: nearest integer, halves to the even one. *)
Definition r_round (x : R) : Z :=
  let f := Int_part x in
  if Rlt_dec (x - IZR f) (1 / 2) then f
  else if Rlt_dec (1 / 2) (x - IZR f) then (f + 1)%Z
  else if Z.even f then f else (f + 1)%Z.
(** stack_masking.py 99-117, one look. *)
Definition inside (v : settings) (a : R) : bool :=
  match v_lo v, v_hi v with
  | Some l, Some h => (if Rlt_dec l a then true else false) && (if Rlt_dec a h then true else false)
  | _, _ => true
  end.
(** stack_masking.py 21-34 and 36-50, 126-128: the row of the mask of one look;
    [N] = chd.n_samples_sar, [zp] = zp_fact_range.  (The ambiguity mask is all
    ones, 83-97.) *)
Definition mask_of (v : settings) (N zp : nat) (k : look) : list Z :=
  if v_mask v then
    MaskModel.mul_rows (MaskModel.geometry_row N zp (inject_Z (r_round (k_shift k))))
                       (repeat (if inside v (k_look k) then 1 else 0)%Z (N * zp))
  else repeat 1%Z (N * zp).
(** stack_masking.py 43-48, 133-153; [None]: IndexError of an empty row. *)
Definition vector_of (v : settings) (N zp : nat) (k : look) : option Z :=
  if v_mask v then MaskModel.mask_vector (mask_of v N zp k) else Some (Z.of_nat (N * zp) - 1)%Z.
Fixpoint zipw {A B} (f : A -> B -> R) (a : list A) (b : list B) : list R :=
  match a, b with
  | x :: a', y :: b' => f x y :: zipw f a' b'
  | _, _ => []
  end.
(** stack_masking.py 157-162; the rows of beams_range_compr and of the mask have
    the same length (range_compression.py 15-27). *)
Definition masked (v : settings) (N zp : nat) (k : look) : list R :=
  if v_mask v then zipw (fun x m => x * IZR m) (k_row k) (mask_of v N zp k) else k_row k.
(** multilooking.py 168-190, one look. *)
Definition weighted (v : settings) (k : look) (row : list R) : option (list R) :=
  match v_weight v with
  | None => Some row
  | Some f => option_map (fun w => map (fun x => x * w) row) (f (k_point k))
  end.
(** multilooking.py 76-81, 253-274: waveform_multilooked and sample_counter.
    (All weights are looked up before the first look is added; an error of either
    gives no waveform, whatever their order.) *)
Fixpoint add_looks (v : settings) (N zp : nat) (ks : list look) (sum cnt : list R) : option (list R * list R) :=
  match ks with
  | [] => Some (sum, cnt)
  | k :: r =>
      match weighted v k (masked v N zp k), vector_of v N zp k with
      | Some row, Some z =>
          if (z =? 0)%Z then add_looks v N zp r sum cnt
          else
            let mask := if v_avoid v then map IZR (mask_of v N zp k) else repeat 1 (N * zp) in
            add_looks v N zp r (zipw Rplus sum (zipw Rmult row mask)) (zipw Rplus cnt mask)
      | _, _ => None
      end
  end.
(** multilooking.py 276; [None]: not a number (no look counted). *)
Definition quotient (s c : R) : option R := if Req_EM_T c 0 then None else Some (s / c).
Fixpoint quotients (s c : list R) : list (option R) :=
  match s, c with
  | x :: s', y :: c' => quotient x y :: quotients s' c'
  | _, _ => []
  end.
(** multilooking.py 221-276: the waveform of the looks of a stack. *)
Definition multilooked (v : settings) (N zp : nat) (ks : list look) : option (list (option R)) :=
  match add_looks v N zp ks (repeat 0 (N * zp)) (repeat 0 (N * zp)) with
  | Some (s, c) => Some (quotients s c)
  | None => None
  end.

(** * The waveform of a product of a run *)

(** stack_gathering.py 62 *)
Definition look_at (u : setup) (input : list witem) (e : nat * nat * option R) : option R :=
  match data u input (fst (fst e)), snd e with
  | Some b, Some a => option_map (fun d => DopModel.look_angle (SurfModel.g_k (u_g u)) d a) (dop u b)
  | _, _ => None
  end.
(** stack_gathering.py 37-126: the entries of the stack that are kept. *)
Definition chosen (u : setup) (input : list witem) (p : product) : list (nat * nat * option R) :=
  flat_map (fun i => match nth_error (pr_stack p) i with Some e => [e] | None => [] end)
           (u_pick u (map (look_at u input) (pr_stack p))).
(** geometry_corrections.py 44-62 and stack_gathering.py 105-126 for the entry
    [e]; [None]: a value that is not a number. *)
Definition look_of (u : setup) (input : list witem) (s : GcorrModel.gsurf) (e : nat * nat * option R) (row : list R)
    : option look :=
  match record_of input (fst (fst e)), snd e with
  | Some r, Some a =>
      let b := prepared u r in
      let o := LinModel.r_burst (w_echo r) in
      let g := GcorrModel.correct_beam (u_flags u) (u_k u) s
                 {| GcorrModel.g_x := vx (SurfModel.b_sat b); GcorrModel.g_y := vy (SurfModel.b_sat b);
                    GcorrModel.g_z := vz (SurfModel.b_sat b); GcorrModel.g_speed := norm (vlist (SurfModel.b_vel b));
                    GcorrModel.g_pri := PointModel.b_pri o; GcorrModel.g_wd := SurfModel.b_wd b;
                    GcorrModel.g_angle := a; GcorrModel.g_t0 := PointModel.b_t0 o; GcorrModel.g_row := [] |} in
      match dop u b with
      | Some d => Some (mk_look row (GcorrModel.o_doppler g + GcorrModel.o_slant g + GcorrModel.o_wdc g)
                          (DopModel.look_angle (SurfModel.g_k (u_g u)) d a)
                          (DopModel.pointing_angle (SurfModel.g_k (u_g u)) d a (SurfModel.b_pitch b)))
      | None => None
      end
  | _, _ => None
  end.
Fixpoint looks_with (u : setup) (input : list witem) (s : GcorrModel.gsurf) (es : list (nat * nat * option R)) (rows : list (list R))
    : option (list look) :=
  match es, rows with
  | e :: es', row :: rows' =>
      match look_of u input s e row, looks_with u input s es' rows' with
      | Some k, Some ks => Some (k :: ks)
      | _, _ => None
      end
  | _, _ => Some []
  end.
(** waveform_multilooked of the surface written as [p]; [None]: an error, or a
    value that is not a number before multilooking. *)
Definition wave_of (u : setup) (v : settings) (input : list witem) (p : product) : option (list (option R)) :=
  match pr_surf p, pr_looks p with
  | Some x, Some rows =>
      match SurfModel.s_loc x with
      | Some l =>
          match looks_with u input (ground l) (chosen u input p) rows with
          | Some ks => multilooked v (GcorrModel.k_n (u_k u)) (u_zp u) ks
          | None => None
          end
      | None => None
      end
  | _, _ => None
  end.

(** * The counts in the file *)

(** data/output/l1b_writer.py 857 (extended format): the largest sample; [None]:
    not a number, as soon as one sample is not one. *)
Definition scale_factor (w : list (option R)) : option R :=
  match all_some w with
  | Some (x :: r) => Some (fold_left Rmax r x)
  | _ => None
  end.
(** l1b_writer.py 926-927 with the declaration 717-728: scale factor
    1/4294967294; [rnd] is the rounding of the library.  [None]: samples that are
    not numbers. *)
Definition counts (rnd : R -> Z) (w : list (option R)) : option (R * list Z) :=
  match scale_factor w, all_some w with
  | Some s, Some l => if Req_EM_T s 0 then None
                      else Some (s, map (fun x => rnd (x / s / (1 / 4294967294))) l)
  | _, _ => None
  end.
