(** The configuration data shipped with the software.  Transcribed from the
    repository; definitions only. *)
From Coq Require Import String List ZArith QArith Bool.
From Verif Require Import Common Dict ConfModel.
Import ListNotations.
Open Scope string_scope.
Open Scope list_scope.

(** ui/data/config/CNF.json, complete for the metadata; of the other entries
    only the [value] member (units and descriptions left out). *)
Definition cnf_default : dict json :=
  [ ("__metainf__", (JObj [("description", (JStr "DeDop Configuration File")); ("version", (JNum (3 # 1))); ("changelog", (JArr [(JObj [("version", (JNum (0 # 1))); ("parameters", (JArr [])); ("comment", (JStr "initial version"))]); (JObj [("version", (JNum (1 # 1))); ("parameters", (JArr [(JArr [(JStr "flag_azimuth_processing_method_cnf"); (JStr "*"); (JStr "integer codes changed to text enum")])])); ("comment", (JStr "Update to azimuth processing method flag"))]); (JObj [("version", (JNum (2 # 1))); ("parameters", (JArr [(JArr [(JStr "flag_cal2_table_index_cnf"); (JStr "+"); (JStr "added CAL2 table index")])]))]); (JObj [("version", (JNum (3 # 1))); ("parameters", (JArr [(JArr [(JStr "output_format_flag_cnf"); (JStr "+"); (JStr "new optional parameter")]); (JArr [(JStr "flag_remove_doppler_ambiguities_cnf"); (JStr "-"); (JStr "removed unused parameter")]); (JArr [(JStr "ambiguity_mask_margin_cnf"); (JStr "-"); (JStr "removed unused parameter")]); (JArr [(JStr "elevation_reference_value_cnf"); (JStr "-"); (JStr "removed unused parameter")])])); ("comment", (JStr "added option for selecting output format"))])]))]));
    ("flag_cal2_correction_cnf", (JObj [("value", (JBool true))]));
    ("flag_uso_correction_cnf", (JObj [("value", (JBool true))]));
    ("flag_cal2_table_index_cnf", (JObj [("value", (JNum (2 # 1)))]));
    ("flag_cal1_corrections_cnf", (JObj [("value", (JBool true))]));
    ("flag_cal1_intraburst_corrections_cnf", (JObj [("value", (JBool true))]));
    ("flag_surface_focusing_cnf", (JObj [("value", (JBool false))]));
    ("surface_focusing_lat_cnf", (JObj [("value", (JNum (0 # 1)))]));
    ("surface_focusing_lon_cnf", (JObj [("value", (JNum (0 # 1)))]));
    ("surface_focusing_alt_cnf", (JObj [("value", (JNum (0 # 1)))]));
    ("flag_azimuth_processing_method_cnf", (JObj [("value", (JStr "approx"))]));
    ("flag_postphase_azimuth_processing_cnf", (JObj [("value", (JBool false))]));
    ("flag_azimuth_windowing_method_cnf", (JObj [("value", (JStr "none"))]));
    ("azimuth_window_width_cnf", (JObj [("value", (JNum (64 # 1)))]));
    ("flag_doppler_range_correction_cnf", (JObj [("value", (JBool true))]));
    ("flag_slant_range_correction_cnf", (JObj [("value", (JBool true))]));
    ("flag_window_delay_alignment_method_cnf", (JObj [("value", (JNum (0 # 1)))]));
    ("flag_stack_masking_cnf", (JObj [("value", (JBool true))]));
    ("flag_avoid_zeros_in_multilooking_cnf", (JObj [("value", (JBool true))]));
    ("flag_surface_weighting_cnf", (JObj [("value", (JBool true))]));
    ("flag_antenna_weighting_cnf", (JObj [("value", (JBool false))]));
    ("zp_fact_range_cnf", (JObj [("value", (JNum (2 # 1)))]));
    ("N_looks_stack_cnf", (JObj [("value", (JNum (240 # 1)))]));
    ("output_format_flag_cnf", (JObj [("value", (JStr "extended"))])) ].

(** ui/data/config/CHD.json, complete for the metadata; of the other entries
    only the [value] member (units and descriptions left out). *)
Definition chd_default : dict json :=
  [ ("__metainf__", (JObj [("description", (JStr "DeDop Characterisation File")); ("version", (JNum (1 # 1))); ("changelog", (JArr [(JObj [("version", (JNum (0 # 1))); ("parameters", (JArr [])); ("comment", (JStr "initial version"))]); (JObj [("version", (JNum (1 # 1))); ("parameters", (JArr [(JArr [(JStr "ratio_trc_ku_chd"); (JStr "+"); (JStr "required for sigma-0 scaling factor")]); (JArr [(JStr "fft_step_freq_ku_chd"); (JStr "+"); (JStr "required for sigma-0 scaling factor")]); (JArr [(JStr "ptr_width_chd"); (JStr "+"); (JStr "required for sigma-0 scaling factor")])])); ("comment", (JStr "added new parameters for update to sigma-0 algorithm"))])]))]));
    ("mean_sat_alt_chd", (JObj [("value", (JNum (814500 # 1)))]));
    ("N_samples_sar_chd", (JObj [("value", (JNum (128 # 1)))]));
    ("N_ku_pulses_burst_chd", (JObj [("value", (JNum (64 # 1)))]));
    ("freq_ku_chd", (JObj [("value", (JNum (13575000000 # 1)))]));
    ("pulse_length_chd", (JObj [("value", (JNum (7 # 156250)))]));
    ("bw_ku_chd", (JObj [("value", (JNum (320000000 # 1)))]));
    ("power_tx_ant_ku_chd", (JObj [("value", (JNum (8451 # 1000)))]));
    ("antenna_gain_ku_chd", (JObj [("value", (JNum (419 # 10)))]));
    ("uso_freq_nom_chd", (JObj [("value", (JNum (10000000 # 1)))]));
    ("alt_freq_multiplier_chd", (JObj [("value", (JNum (32 # 1)))]));
    ("prf_sar_chd", (JObj [("value", (JNum (17825311 # 1000)))]));
    ("brf_sar_chd", (JObj [("value", (JNum (7853069 # 100000)))]));
    ("ptr_width_chd", (JObj [("value", (JNum (19821 # 1)))]));
    ("fft_step_freq_ku_chd", (JObj [("value", (JNum (2232143 # 100)))]));
    ("ratio_trc_ku_chd", (JObj [("value", (JNum (-4933 # 50)))])) ].

(** ui/data/config/CST.json, complete for the metadata; of the other entries
    only the [value] member (units and descriptions left out). *)
Definition cst_default : dict json :=
  [ ("__metainf__", (JObj [("description", (JStr "DeDop Constants File")); ("version", (JNum (0 # 1))); ("changelog", (JArr [(JObj [("version", (JNum (0 # 1))); ("parameters", (JArr [])); ("comment", (JStr "initial version"))])]))]));
    ("semi_major_axis_cst", (JObj [("value", (JNum (6378137 # 1)))]));
    ("semi_minor_axis_cst", (JObj [("value", (JNum (31783761571 # 5000)))]));
    ("flat_coeff_cst", (JObj [("value", (JNum (83820266795771 # 25000000000000000)))]));
    ("earth_radius_cst", (JObj [("value", (JNum (6378137 # 1)))]));
    ("pi_cst", (JObj [("value", (JNum (7853981633974483 # 2500000000000000)))]));
    ("c_cst", (JObj [("value", (JNum (299792458 # 1)))]));
    ("sec_in_day_cst", (JObj [("value", (JNum (86400 # 1)))])) ].

(** conf/configuration.py 7-92: attribute, parameter name, and whether the
    parameter is optional. *)
Definition cnf_params : list (string * string * bool) :=
  [ ("flag_cal2_correction", "flag_cal2_correction_cnf", false);
    ("flag_uso_correction", "flag_uso_correction_cnf", false);
    ("flag_cal2_table_index", "flag_cal2_table_index_cnf", false);
    ("flag_cal1_corrections", "flag_cal1_corrections_cnf", false);
    ("flag_cal1_intraburst_corrections", "flag_cal1_intraburst_corrections_cnf", false);
    ("flag_surface_focusing", "flag_surface_focusing_cnf", false);
    ("surface_focusing_lat", "surface_focusing_lat_cnf", false);
    ("surface_focusing_lon", "surface_focusing_lon_cnf", false);
    ("surface_focusing_alt", "surface_focusing_alt_cnf", false);
    ("flag_azimuth_processing_method", "flag_azimuth_processing_method_cnf", false);
    ("flag_postphase_azimuth_processing", "flag_postphase_azimuth_processing_cnf", false);
    ("flag_azimuth_windowing_method", "flag_azimuth_windowing_method_cnf", false);
    ("azimuth_window_width", "azimuth_window_width_cnf", false);
    ("flag_doppler_range_correction", "flag_doppler_range_correction_cnf", false);
    ("flag_slant_range_correction", "flag_slant_range_correction_cnf", false);
    ("flag_window_delay_alignment_method", "flag_window_delay_alignment_method_cnf", false);
    ("flag_stack_masking", "flag_stack_masking_cnf", false);
    ("flag_avoid_zeros_in_multilooking", "flag_avoid_zeros_in_multilooking_cnf", false);
    ("flag_surface_weighting", "flag_surface_weighting_cnf", false);
    ("flag_antenna_weighting", "flag_antenna_weighting_cnf", false);
    ("zp_fact_range", "zp_fact_range_cnf", false);
    ("n_looks_stack", "N_looks_stack_cnf", false);
    ("min_lat", "min_lat_cnf", true);
    ("max_lat", "max_lat_cnf", true);
    ("min_lon", "min_lon_cnf", true);
    ("max_lon", "max_lon_cnf", true);
    ("output_format", "output_format_flag_cnf", true) ].

Definition cnf_class : fclass :=
  {| f_version := 3; f_declared := map (fun p => snd (fst p)) cnf_params |}.

(** conf/characterization.py 8-109: attribute, parameter name, and whether the
    parameter is optional. *)
Definition chd_params : list (string * string * bool) :=
  [ ("mean_sat_alt", "mean_sat_alt_chd", false);
    ("n_samples_sar", "N_samples_sar_chd", false);
    ("n_ku_pulses_burst", "N_ku_pulses_burst_chd", false);
    ("freq_ku", "freq_ku_chd", false);
    ("pulse_length", "pulse_length_chd", false);
    ("bw_ku", "bw_ku_chd", false);
    ("power_tx_ant_ku", "power_tx_ant_ku_chd", false);
    ("antenna_gain_ku", "antenna_gain_ku_chd", false);
    ("uso_freq_nom", "uso_freq_nom_chd", false);
    ("alt_freq_multiplier", "alt_freq_multiplier_chd", false);
    ("prf_sar", "prf_sar_chd", false);
    ("brf_sar", "brf_sar_chd", false);
    ("antenna_weights", "antenna_weights_chd", false);
    ("antenna_angles", "antenna_angles_chd", false);
    ("antenna_angles_spacing", "antenna_angles_spacing_chd", false);
    ("look_angle_mask_min", "look_angle_mask_min_chd", true);
    ("look_angle_mask_max", "look_angle_mask_max_chd", true);
    ("ptr_width", "ptr_width_chd", false);
    ("fft_step_freq_ku", "fft_step_freq_ku_chd", false);
    ("ratio_trc_ku", "ratio_trc_ku_chd", false) ].

Definition chd_class : fclass :=
  {| f_version := 1; f_declared := map (fun p => snd (fst p)) chd_params |}.

(** conf/constants.py 4-41: attribute, parameter name, and whether the
    parameter is optional. *)
Definition cst_params : list (string * string * bool) :=
  [ ("c", "c_cst", false);
    ("pi", "pi_cst", false);
    ("semi_major_axis", "semi_major_axis_cst", false);
    ("semi_minor_axis", "semi_minor_axis_cst", false);
    ("earth_radius", "earth_radius_cst", false);
    ("flat_coeff", "flat_coeff_cst", false);
    ("sec_in_day", "sec_in_day_cst", false) ].

Definition cst_class : fclass :=
  {| f_version := 0; f_declared := map (fun p => snd (fst p)) cst_params |}.

(** Parameters declared for the algorithm classes (proc/sar/base_algorithm.py 5-6
    and the [@Parameter] lines of proc/sar/algorithms/*.py: geometry_corrections 11-13,
    azimuth_processing 12, multilooking 42, stack_masking 9). *)
Definition algorithm_params : list string :=
  ["n_looks_stack"; "zp_fact_range"; "flag_doppler_range_correction"; "flag_slant_range_correction"; "flag_window_delay_alignment_method"; "flag_azimuth_processing_method"; "flag_avoid_zeros_in_multilooking"; "flag_stack_masking"].
