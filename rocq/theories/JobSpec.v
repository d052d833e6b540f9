(** What the numbers of a run have to be, given the files. *)
From Coq Require Import String List ZArith QArith Reals Qreals Bool.
From Verif Require Import Common Dict ConfModel GeoModel ReaderModel ChainModel WholeModel FileModel EndModel DerSpec.
From Verif Require SurfModel GcorrModel PktModel WaveModel SchSpec WriterModel.
Import ListNotations.
Local Open Scope string_scope.
Local Open Scope list_scope.

Section Spec.
Variable text : string -> option Q.
Variable itext : string -> option Z.
(** [x] is the number the parameter stands for. *)
Definition shows (d : dict json) (name : string) (x : R) : Prop := exists q, has text d name q /\ x = Q2R q.
(** [n] is the number without its fraction. *)
Definition cut_off (q : Q) (n : nat) : Prop :=
  let m := inject_Z (Z.of_nat n) in (m <= q /\ q < m + 1)%Q \/ (n = O /\ -(1) < q /\ q <= 0)%Q.
Definition sized (d : dict json) (name : string) (n : nat) : Prop :=
  exists j, dget name d = Some j /\
    match j with JNum q => cut_off q n | JBool b => n = (if b then 1 else 0)%nat | JStr s => itext s = Some (Z.of_nat n) | _ => False end.
(** [n] is the number, which is whole. *)
Definition counted (d : dict json) (name : string) (n : nat) : Prop :=
  exists j, dget name d = Some j /\
    match j with JNum q => (q == inject_Z (Z.of_nat n))%Q | JBool b => n = (if b then 1 else 0)%nat | _ => False end.
(** The values that count as false. *)
Definition falsehood (j : json) : Prop := In j [JNull; JBool false; JStr ""; JArr []; JObj []] \/ exists q, j = JNum q /\ (q == 0)%Q.
Definition switched (d : dict json) (name : string) (b : bool) : Prop :=
  exists j, dget name d = Some j /\ (b = false <-> falsehood j).
(** A bound of the region: none, or a number. *)
Definition limited (d : dict json) (name : string) (x : option Q) : Prop :=
  match x with
  | None => dget name d = None \/ dget name d = Some JNull
  | Some q => exists j, dget name d = Some j /\ (j = JNum q \/ (j = JBool true /\ q = 1) \/ (j = JBool false /\ q = 0))%Q
  end.

Definition constants (j : job) : list (string * R) :=
  let k := SurfModel.g_k (u_g (j_u j)) in
  [("c_cst", k_c k); ("c_cst", GcorrModel.k_c (u_k (j_u j))); ("c_cst", PktModel.a_c (n_aux (j_o j)));
   ("pi_cst", k_pi k); ("pi_cst", GcorrModel.k_pi (u_k (j_u j)));
   ("semi_major_axis_cst", k_major k); ("semi_minor_axis_cst", k_minor k); ("flat_coeff_cst", k_flat k);
   ("sec_in_day_cst", k_day k); ("sec_in_day_cst", n_day (j_o j))].
Definition characteristics (j : job) : list (string * R) :=
  [("prf_sar_chd", u_prf (j_u j)); ("mean_sat_alt_chd", u_mean (j_u j)); ("freq_ku_chd", SurfModel.g_freq (u_g (j_u j)));
   ("pulse_length_chd", GcorrModel.k_plen (u_k (j_u j))); ("bw_ku_chd", GcorrModel.k_bw (u_k (j_u j)))].
Definition switches (j : job) : list (string * bool) :=
  [("flag_cal1_corrections_cnf", u_cal1 (j_u j)); ("flag_cal2_correction_cnf", u_cal2 (j_u j));
   ("flag_doppler_range_correction_cnf", GcorrModel.f_doppler (u_flags (j_u j)));
   ("flag_slant_range_correction_cnf", GcorrModel.f_slant (u_flags (j_u j)));
   ("flag_surface_focusing_cnf", SurfModel.g_focus (u_g (j_u j))); ("flag_stack_masking_cnf", WaveModel.v_mask (j_v j));
   ("flag_avoid_zeros_in_multilooking_cnf", WaveModel.v_avoid (j_v j))].
(** The attributes of surfaces that are left open have their shapes. *)
Definition shaped (nl : nat) (rest : product -> string -> WriterModel.value R) : Prop :=
  forall p f, (In f SchSpec.stack_vectors -> SchSpec.is_vec nl (rest p f)) /\ (~ In f SchSpec.stack_vectors -> SchSpec.is_num (rest p f)).
End Spec.
