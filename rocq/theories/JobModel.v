(** What a run is made with, taken from the three files of a processor
    (dedop/proc/sar/processor.py 40-104, dedop/conf/configuration.py 7-92,
    dedop/conf/characterization.py 8-132, dedop/conf/constants.py 4-41).
    Definitions only. *)
From Coq Require Import String List ZArith QArith Reals Qreals Bool.
From Verif Require Import Common Dict ConfModel ConfData DerModel GeoModel ReaderModel ChainModel WholeModel FileModel WriterModel EndModel.
From Verif Require SurfModel GcorrModel PktModel WaveModel.
Import ListNotations.
Local Open Scope string_scope.
Local Open Scope list_scope.

(** Python's [bool(value)] and [if value]. *)
Definition truth (j : json) : bool :=
  match j with
  | JNull => false | JBool b => b | JNum q => negb (Qeq_bool q 0) | JStr s => negb (s =? "")%string
  | JArr l => match l with [] => false | _ => true end
  | JObj d => match d with [] => false | _ => true end
  end.
Definition is_bool (j : json) : bool := match j with JBool _ => true | _ => false end.
Definition is_text (j : json) : bool := match j with JStr _ => true | _ => false end.

(** What the files do not say, or what is left open in EndModel and WholeModel:
    bound of the loops, choice of looks, other exceptions, weights of the antenna,
    attributes and values that are not modelled. *)
Record parts := mk_parts {
  e_fuel : nat; e_pick : list (option R) -> list nat;
  e_az : nat -> bool; e_corr : nat -> bool; e_w1 : nat -> bool; e_w2 : nat -> bool;
  e_weight : R -> option R; e_rest : product -> string -> value R; e_nan : R }.

Section Files.
(** Python's [float(text)] and [int(text)]: any functions. *)
Variable text : string -> option Q.
Variable itext : string -> option Z.

(** A parameter read by its descriptor (auxiliary_parameter.py 16-61). *)
Definition entry (c : fclass) (data : dict json) (p : @aparam json) : res derr json :=
  conf (compute is_null p {| o_class := c; o_data := data |}).
(** One without a type (e.g. configuration.py 18-25). *)
Definition untyped (name : string) (optional : bool) : @aparam json := mk_param is_null name None None optional JNull.
(** [param_type=bool] (configuration.py 31, 60-62). *)
Definition bool_param (name : string) : @aparam json :=
  mk_param is_null name (Some (fun j => Ok (JBool (truth j)), is_bool)) None false JNull.
(** [int(value)]: towards zero. *)
Definition to_int (j : json) : res cerr json :=
  match j with
  | JNum q => Ok (JNum (inject_Z (Z.quot (Qnum q) (Zpos (Qden q)))))
  | JBool b => Ok (JNum (inject_Z (if b then 1 else 0)))
  | JStr s => match itext s with Some z => Ok (JNum (inject_Z z)) | None => Err EConv end
  | _ => Err EConv
  end.
(** [param_type=int] (characterization.py 20-27, configuration.py 23). *)
Definition int_param (name : string) : @aparam json := mk_param is_null name (Some (to_int, is_float)) None false JNull.
(** [param_type] an enumeration (conf/enums.py 10-16, 26-31; configuration.py 41-43,
    90-92): a member is shown as its value. *)
Definition member (l : list string) (j : json) : res cerr json :=
  match j with JStr s => if existsb (String.eqb s) l then Ok (JStr s) else Err EConv | _ => Err EConv end.
Definition enum_param (name : string) (l : list string) (default : json) : @aparam json :=
  mk_param is_null name (Some (member l, is_text)) None false default.

(** An untyped value used in arithmetic: numbers, and truth values as 0 and 1.
    (Anything else raises where it is used; here at once.) *)
Definition plain (j : json) : res derr Q :=
  match j with JNum q => Ok q | JBool b => Ok (if b then 1 else 0)%Q | _ => Err (DConf EConv) end.
(** A value used as a size: a negative one, or one with a fraction, raises where an
    array is made of it; here at once. *)
Definition count (q : Q) : res derr nat :=
  let z := Z.quot (Qnum q) (Zpos (Qden q)) in
  if Qeq_bool q (inject_Z z) && (0 <=? z)%Z then Ok (Z.to_nat z) else Err (DConf EConv).
(** Optional parameters: [None] if absent or null (characterization.py 84-93,
    configuration.py 79-86). *)
Definition maybe (j : json) : res derr (option Q) :=
  match j with JNull => Ok None | _ => bind (plain j) (fun q => Ok (Some q)) end.

Definition flag (d : dict json) (name : string) : res derr bool :=
  bind (entry cnf_class d (untyped name false)) (fun j => Ok (truth j)).
Definition value (d : dict json) (name : string) : res derr Q := bind (entry cnf_class d (untyped name false)) plain.
Definition bound (c : fclass) (d : dict json) (name : string) : res derr (option Q) := bind (entry c d (untyped name true)) maybe.
Definition size (d : dict json) (name : string) : res derr nat :=
  bind (entry chd_class d (int_param name)) (fun j => bind (plain j) count).
(** characterization.py 108-132. *)
Definition derived_value (pr : processor) (n : derived) : res derr Q :=
  bind (snd (DerModel.read text (pr_cst pr) (pr_chd pr) n)) plain.

(** constants.py 11-40 (all of type float). *)
Definition consts_of (pr : processor) : res derr consts :=
  let n := DerModel.number text cst_class (pr_cst pr) in
  bind (n "c_cst") (fun c =>
  bind (n "pi_cst") (fun pi =>
  bind (n "semi_major_axis_cst") (fun a =>
  bind (n "semi_minor_axis_cst") (fun b =>
  bind (n "flat_coeff_cst") (fun f =>
  bind (n "sec_in_day_cst") (fun d =>
  Ok {| k_c := Q2R c; k_pi := Q2R pi; k_major := Q2R a; k_minor := Q2R b; k_flat := Q2R f; k_day := Q2R d |})))))).

(** The chain of processing (processor.py 68-104, 415-422, 546-563; the other
    places are those named at the records of ChainModel, SurfModel, GcorrModel).  The
    number 80 is min_surfs (71).  The target is read if the surfaces are focused
    (surface_locations.py 79, 141-144, 217); flag_window_delay_alignment_method is
    never used (GcorrModel) and not read here. *)
Definition setup_of (pr : processor) (skip_l1bs : bool) (e : parts) : res derr setup :=
  let hd := h_data (pr_chd pr) in
  let d := pr_cnf pr in
  let n := DerModel.number text chd_class hd in
  bind (consts_of pr) (fun k =>
  bind (size hd "N_ku_pulses_burst_chd") (fun pulses =>
  bind (size hd "N_samples_sar_chd") (fun samples =>
  bind (bind (value d "N_looks_stack_cnf") count) (fun looks =>
  bind (bind (value d "zp_fact_range_cnf") count) (fun zp =>
  bind (entry cnf_class d (enum_param "flag_azimuth_processing_method_cnf" ["approx"; "exact"] JNull)) (fun method =>
  bind (entry cnf_class d (bool_param "flag_surface_focusing_cnf")) (fun focus =>
  let aim x := if truth focus then value d x else Ok 0%Q in
  bind (aim "surface_focusing_lat_cnf") (fun lat =>
  bind (aim "surface_focusing_lon_cnf") (fun lon =>
  bind (aim "surface_focusing_alt_cnf") (fun alt =>
  bind (n "freq_ku_chd") (fun freq =>
  bind (n "prf_sar_chd") (fun prf =>
  bind (n "mean_sat_alt_chd") (fun mean =>
  bind (n "pulse_length_chd") (fun plen =>
  bind (n "bw_ku_chd") (fun bw =>
  bind (derived_value pr Pri) (fun pri =>
  bind (derived_value pr Wave) (fun wave =>
  bind (flag d "flag_cal1_corrections_cnf") (fun cal1 =>
  bind (flag d "flag_cal2_correction_cnf") (fun cal2 =>
  bind (flag d "flag_doppler_range_correction_cnf") (fun doppler =>
  bind (flag d "flag_slant_range_correction_cnf") (fun slant =>
  Ok {| u_cf := {| c_N := pulses; c_looks := looks; c_min := 80; c_gap := pr_gap pr;
                   c_approx := match method with JStr s => (s =? "approx")%string | _ => false end; c_l1bs := negb skip_l1bs |};
        u_g := {| SurfModel.g_k := k; SurfModel.g_focus := truth focus;
                  SurfModel.g_target := SurfModel.target_of k {| vx := radians (Q2R lat); vy := radians (Q2R lon); vz := Q2R alt |};
                  SurfModel.g_freq := Q2R freq; SurfModel.g_pulses := INR pulses; SurfModel.g_pri := Q2R pri |};
        u_fuel := e_fuel e; u_prf := Q2R prf; u_mean := Q2R mean; u_cal1 := cal1; u_cal2 := cal2;
        u_flags := {| GcorrModel.f_doppler := doppler; GcorrModel.f_slant := slant; GcorrModel.f_align := 0 |};
        u_k := {| GcorrModel.k_c := k_c k; GcorrModel.k_pi := k_pi k; GcorrModel.k_lam := Q2R wave;
                  GcorrModel.k_plen := Q2R plen; GcorrModel.k_bw := Q2R bw; GcorrModel.k_n := samples |};
        u_zp := zp; u_pick := e_pick e; u_az_fail := e_az e; u_corr_fail := e_corr e; u_w1_fail := e_w1 e; u_w2_fail := e_w2 e |}
  ))))))))))))))))))))).

(** The region (configuration.py 79-86). *)
Definition region_of (pr : processor) : res derr region :=
  let b := bound cnf_class (pr_cnf pr) in
  bind (b "min_lat_cnf") (fun a1 =>
  bind (b "max_lat_cnf") (fun a2 =>
  bind (b "min_lon_cnf") (fun o1 =>
  bind (b "max_lon_cnf") (fun o2 =>
  Ok {| min_lat := a1; max_lat := a2; min_lon := o1; max_lon := o2 |})))).
(** What an L1A data set needs (data/input/l1a/l1a_dataset.py 183, 201, 204, 234;
    flag_cal2_table_index, configuration.py 23). *)
Definition opener_of (pr : processor) : res derr opener :=
  bind (consts_of pr) (fun k =>
  bind (derived_value pr Pri) (fun pri =>
  bind (derived_value pr T0) (fun t0 =>
  bind (bind (bind (entry cnf_class (pr_cnf pr) (int_param "flag_cal2_table_index_cnf")) plain) count) (fun i =>
  Ok {| n_aux := {| PktModel.a_chd := fun x => if (x =? "pri_sar")%string then Q2R pri else Q2R t0; PktModel.a_c := k_c k |};
        n_day := k_day k; n_cal2 := i; n_chunk := 40 |})))).
(** Masking and multilooking (characterization.py 84-93, cast to radians;
    configuration.py 60-71; [flag_antenna_weighting] is of type float). *)
Definition looks_of_files (pr : processor) (e : parts) : res derr WaveModel.settings :=
  let d := pr_cnf pr in
  bind (entry cnf_class d (bool_param "flag_stack_masking_cnf")) (fun mask =>
  bind (bound chd_class (h_data (pr_chd pr)) "look_angle_mask_min_chd") (fun lo =>
  bind (bound chd_class (h_data (pr_chd pr)) "look_angle_mask_max_chd") (fun hi =>
  bind (DerModel.number text cnf_class d "flag_antenna_weighting_cnf") (fun weighting =>
  bind (flag d "flag_avoid_zeros_in_multilooking_cnf") (fun avoid =>
  let rad := option_map (fun q => radians (Q2R q)) in
  Ok (WaveModel.mk_settings (truth mask) (rad lo) (rad hi) (if Qeq_bool weighting 0 then None else Some (e_weight e)) avoid)))))).
(** The format: the extended one unless 'sentinel-3' (processor.py 159). *)
Definition extended (pr : processor) : res derr bool :=
  bind (entry cnf_class (pr_cnf pr) (enum_param "output_format_flag_cnf" ["sentinel-3"; "extended"] (JStr "extended")))
    (fun j => Ok match j with JStr s => negb (s =? "sentinel-3")%string | _ => true end).

Definition job_of (pr : processor) (skip_l1bs : bool) (e : parts) : res derr job :=
  bind (opener_of pr) (fun o =>
  bind (region_of pr) (fun g =>
  bind (setup_of pr skip_l1bs e) (fun u =>
  bind (looks_of_files pr e) (fun v =>
  bind (extended pr) (fun x =>
  Ok {| j_o := o; j_g := g; j_u := u; j_v := v; j_ext := x; j_rest := e_rest e; j_nan := e_nan e |}))))).
End Files.
