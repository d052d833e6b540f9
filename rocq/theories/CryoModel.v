(** The configuration data shipped for CryoSat-2 (ui/data/cryosat_config),
    chosen by [create_config] with [cryosat=True]
    (ui/workspace_manager.py 203-207).  Transcribed; definitions only. *)
From Coq Require Import String List ZArith QArith Bool.
From Verif Require Import Common Dict ConfModel.
Import ListNotations.
Open Scope string_scope.
Open Scope list_scope.

(** ui/data/cryosat_config/CNF.json, complete for the metadata; of the other
    entries only the [value] member (units and descriptions left out). *)
Definition cnf_cryosat : dict json :=
  [ ("__metainf__", (JObj [("description", (JStr "DeDop Configuration File")); ("version", (JNum (3 # 1))); ("changelog", (JArr [(JObj [("version", (JNum (0 # 1))); ("parameters", (JArr [])); ("comment", (JStr "initial version"))]); (JObj [("version", (JNum (1 # 1))); ("parameters", (JArr [(JArr [(JStr "flag_azimuth_processing_method_cnf"); (JStr "*"); (JStr "integer codes changed to text enum")])])); ("comment", (JStr "Update to azimuth processing method flag"))]); (JObj [("version", (JNum (2 # 1))); ("parameters", (JArr [(JArr [(JStr "flag_cal2_table_index_cnf"); (JStr "+"); (JStr "added CAL2 table index")])]))]); (JObj [("version", (JNum (3 # 1))); ("parameters", (JArr [(JArr [(JStr "output_format_flag_cnf"); (JStr "+"); (JStr "new optional parameter")]); (JArr [(JStr "flag_remove_doppler_ambiguities_cnf"); (JStr "-"); (JStr "removed unused parameter")]); (JArr [(JStr "ambiguity_mask_margin_cnf"); (JStr "-"); (JStr "removed unused parameter")]); (JArr [(JStr "elevation_reference_value_cnf"); (JStr "-"); (JStr "removed unused parameter")])])); ("comment", (JStr "added option for selecting output format"))])]))]));
    ("flag_cal2_correction_cnf", (JObj [("value", (JBool true))]));
    ("flag_uso_correction_cnf", (JObj [("value", (JBool true))]));
    ("flag_cal2_table_index_cnf", (JObj [("value", (JNum (2 # 1)))]));
    ("flag_cal1_corrections_cnf", (JObj [("value", (JBool true))]));
    ("flag_cal1_intraburst_corrections_cnf", (JObj [("value", (JBool true))]));
    ("flag_surface_focusing_cnf", (JObj [("value", (JBool false))]));
    ("surface_focusing_lat_cnf", (JObj [("value", (JNum (0 # 1)))]));
    ("surface_focusing_lon_cnf", (JObj [("value", (JNum (0 # 1)))]));
    ("surface_focusing_alt_cnf", (JObj [("value", (JNum (0 # 1)))]));
    ("flag_azimuth_processing_method_cnf", (JObj [("value", (JStr "approx"))]));
    ("flag_postphase_azimuth_processing_cnf", (JObj [("value", (JBool false))]));
    ("flag_azimuth_windowing_method_cnf", (JObj [("value", (JStr "none"))]));
    ("azimuth_window_width_cnf", (JObj [("value", (JNum (64 # 1)))]));
    ("flag_doppler_range_correction_cnf", (JObj [("value", (JBool true))]));
    ("flag_slant_range_correction_cnf", (JObj [("value", (JBool true))]));
    ("flag_window_delay_alignment_method_cnf", (JObj [("value", (JNum (0 # 1)))]));
    ("flag_stack_masking_cnf", (JObj [("value", (JBool true))]));
    ("flag_avoid_zeros_in_multilooking_cnf", (JObj [("value", (JBool true))]));
    ("flag_surface_weighting_cnf", (JObj [("value", (JBool true))]));
    ("flag_antenna_weighting_cnf", (JObj [("value", (JBool false))]));
    ("zp_fact_range_cnf", (JObj [("value", (JNum (2 # 1)))]));
    ("N_looks_stack_cnf", (JObj [("value", (JNum (240 # 1)))]));
    ("output_format_flag_cnf", (JObj [("value", (JStr "extended"))])) ].

(** ui/data/cryosat_config/CHD.json, complete for the metadata; of the other
    entries only the [value] member (units and descriptions left out). *)
Definition chd_cryosat : dict json :=
  [ ("N_ku_pulses_burst_chd", (JObj [("value", (JNum (64 # 1)))]));
    ("N_samples_sar_chd", (JObj [("value", (JNum (128 # 1)))]));
    ("__metainf__", (JObj [("changelog", (JArr [(JObj [("comment", (JStr "initial version")); ("parameters", (JArr [])); ("version", (JNum (0 # 1)))])])); ("description", (JStr "DeDop Characterisation File")); ("version", (JNum (0 # 1)))]));
    ("alt_freq_multiplier_chd", (JObj [("value", (JNum (32 # 1)))]));
    ("antenna_gain_ku_chd", (JObj [("value", (JNum (213 # 5)))]));
    ("brf_sar_chd", (JObj [("value", (JNum (85515218502072671 # 1000000000000000)))]));
    ("bw_ku_chd", (JObj [("value", (JNum (320000000 # 1)))]));
    ("freq_ku_chd", (JObj [("value", (JNum (13575000000 # 1)))]));
    ("mean_sat_alt_chd", (JObj [("value", (JNum (717000 # 1)))]));
    ("power_tx_ant_ku_chd", (JObj [("value", (JNum (130103 # 10000)))]));
    ("prf_sar_chd", (JObj [("value", (JNum (909090909090909 # 50000000000)))]));
    ("pulse_length_chd", (JObj [("value", (JNum (7 # 156250)))]));
    ("uso_freq_nom_chd", (JObj [("value", (JNum (10000000 # 1)))]));
    ("ptr_width_chd", (JObj [("value", (JNum (19821 # 1)))]));
    ("fft_step_freq_ku_chd", (JObj [("value", (JNum (2232143 # 100)))]));
    ("ratio_trc_ku_chd", (JObj [("value", (JNum (-4933 # 50)))])) ].

(** ui/data/cryosat_config/CST.json, complete for the metadata; of the other
    entries only the [value] member (units and descriptions left out). *)
Definition cst_cryosat : dict json :=
  [ ("__metainf__", (JObj [("description", (JStr "DeDop Constants File")); ("version", (JNum (0 # 1))); ("changelog", (JArr [(JObj [("version", (JNum (0 # 1))); ("parameters", (JArr [])); ("comment", (JStr "initial version"))])]))]));
    ("semi_major_axis_cst", (JObj [("value", (JNum (6378137 # 1)))]));
    ("semi_minor_axis_cst", (JObj [("value", (JNum (31783761571 # 5000)))]));
    ("flat_coeff_cst", (JObj [("value", (JNum (83820266795771 # 25000000000000000)))]));
    ("earth_radius_cst", (JObj [("value", (JNum (6378137 # 1)))]));
    ("pi_cst", (JObj [("value", (JNum (7853981633974483 # 2500000000000000)))]));
    ("c_cst", (JObj [("value", (JNum (299792458 # 1)))]));
    ("sec_in_day_cst", (JObj [("value", (JNum (86400 # 1)))])) ].
